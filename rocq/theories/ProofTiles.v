(** * Reports of symbols that add up *)
From Coq Require Import Ascii String List ZArith Lia Bool Permutation Sorted.
From Verif Require Import Base MemMap SpecTree SpecOps Filter SpecFilter Pipeline SpecPipe SpecBuild SpecBytes SpecShape SpecSyms PyStr MapFile SpecMap
  ElfRead SpecElf Project SpecProject SpecEnd Chips SpecChips Deps Table SpecTable Formats Main SpecMain Command SpecCommand SpecFail SpecReport SpecSymbols ProofShare ProofReport5 ProofSymbols2 ProofSymbols4 SpecAdds ProofAdds SpecTiles.
Import ListNotations.
Open Scope list_scope.
Open Scope Z_scope.

(** ** the bytes of an input section are those of its symbols *)
Lemma count_app P a n m : count P a (n + m) = count P a n + count P (a + Z.of_nat n) m.
Proof.
  revert a. induction n as [|n IH]; intros a; [cbn [Nat.add count]; now rewrite Z.add_0_r|]. cbn [Nat.add count]. rewrite IH.
  replace (a + 1 + Z.of_nat n) with (a + Z.of_nat (S n)) by lia. lia.
Qed.
Lemma bytes_app P a n m : 0 <= n -> 0 <= m -> bytes_with P a (n + m) = bytes_with P a n + bytes_with P (a + n) m.
Proof. intros H1 H2. unfold bytes_with. rewrite Z2Nat.inj_add by assumption. rewrite count_app, Z2Nat.id by assumption. reflexivity. Qed.
Lemma row_forth a l b : row_of_symbols a l b -> a <= b.
Proof. induction 1; lia. Qed.
Lemma row_bytes P a l b : row_of_symbols a l b -> bytes_with P a (b - a) = zsumf (fun z => bytes_with P (sy_addr z) (sy_size z)) l.
Proof.
  induction 1 as [a|z l b H0 R IH]; [now rewrite Z.sub_diag|]. rewrite zsumf_cons, <- IH. pose proof (row_forth _ _ _ R).
  replace (b - sy_addr z) with (sy_size z + (b - (sy_addr z + sy_size z))) by lia. apply bytes_app; lia.
Qed.
Lemma row_size a l b : row_of_symbols a l b -> b - a = zsumf sy_size l.
Proof. induction 1 as [a|z l b H0 R IH]; [apply Z.sub_diag|]. rewrite zsumf_cons, <- IH. lia. Qed.
Lemma zsumf_perm {A} (f : A -> Z) l l' : Permutation l l' -> zsumf f l = zsumf f l'.
Proof. induction 1 as [|x l l' _ IH|x y l|l l' l'' _ IH1 _ IH2]; [reflexivity|rewrite !zsumf_cons; lia|rewrite !zsumf_cons; lia|congruence]. Qed.
Lemma tiled_size ys i : tiled ys i -> it_size i = zsumf it_size (map (symbol_item i) (item_symbols ys i)).
Proof.
  intros (l & P & R). rewrite zsumf_map. transitivity (zsumf sy_size (item_symbols ys i)); [|reflexivity]. rewrite (zsumf_perm _ _ _ P), <- (row_size _ _ _ R). lia.
Qed.
Lemma tiled_bytes ys i b : tiled ys i -> bytes_with b (it_addr i) (it_size i) = zsumf (fun j => bytes_with b (it_addr j) (it_size j)) (map (symbol_item i) (item_symbols ys i)).
Proof.
  intros (l & P & R). rewrite zsumf_map. transitivity (zsumf (fun z => bytes_with b (sy_addr z) (sy_size z)) (item_symbols ys i)); [|reflexivity].
  rewrite (zsumf_perm _ _ _ P), <- (row_bytes b _ _ _ R). f_equal. lia.
Qed.
Lemma empty_symbols ys i : it_size i = 0 -> item_symbols ys i = [].
Proof. intros E. unfold item_symbols, symbols_at. now rewrite E. Qed.

(** ** the accounts of a project with its input sections and with its symbols *)
Section Accounts.
Variables (ys : option (list elfsym)) (k : account) (y : str).
Let q := symbol_account ys k.
Hypothesis Ti : forall i, places i k -> it_archive i = y -> tiled ys i.
Lemma archive_symbols (f : item -> Z) o : (forall i, it_size i = 0 -> f i = 0) -> (forall i, In i (pr_items o) -> it_size i <> 0 -> it_archive i = y -> f i = zsumf f (map (symbol_item i) (item_symbols ys i))) ->
  zsumf f (filter (of_archive y) (pr_items o)) = zsumf f (filter (of_archive y) (pr_items (by_symbols ys o))).
Proof.
  intros Z0. cbn [by_symbols pr_items]. generalize (pr_items o). induction l as [|i l IH]; intros H; [reflexivity|].
  cbn [flat_map]. rewrite filter_app, zsumf_app, <- IH by (intros j J; apply H; now right). clear IH.
  assert (E : filter (of_archive y) (map (symbol_item i) (item_symbols ys i)) = if of_archive y i then map (symbol_item i) (item_symbols ys i) else []).
  { rewrite filter_map_swap. change (fun z => of_archive y (symbol_item i z)) with (fun _ : symbol => of_archive y i).
    destruct (of_archive y i); induction (item_symbols ys i) as [|z t T]; cbn [filter map]; try reflexivity; [now rewrite T|exact T]. }
  rewrite E. cbn [filter]. destruct (of_archive y i) eqn:A; [|reflexivity]. rewrite zsumf_cons. f_equal.
  unfold of_archive in A. destruct (keqP (it_archive i) y) as [Ea|]; [|discriminate]. destruct (Z.eq_dec (it_size i) 0) as [S|S]; [|apply H; [now left|exact S|exact Ea]].
  rewrite (Z0 i S), (empty_symbols ys i S). reflexivity.
Qed.
Lemma kept_sum (f : printed -> item -> Z) (keep : printed -> bool) : (forall o, keep o = true -> counted (ac_im k) o) -> (forall o, keep (by_symbols ys o) = keep o) -> (forall o i, f (by_symbols ys o) i = f o i) ->
  (forall o i, it_size i = 0 -> f o i = 0) -> (forall o i, tiled ys i -> f o i = zsumf (f o) (map (symbol_item i) (item_symbols ys i))) ->
  zsumf (fun o => zsumf (f o) (filter (of_archive y) (pr_items o))) (filter keep (ac_l k)) =
  zsumf (fun o => zsumf (f o) (filter (of_archive y) (pr_items o))) (filter keep (ac_l q)).
Proof.
  intros K Ks Fs Z0 Ft. cbn [q symbol_account ac_l]. rewrite filter_map_swap, zsumf_map. rewrite (same_filter (fun o => keep (by_symbols ys o)) keep _ Ks).
  apply zsumf_ext. intros o Io. apply filter_In in Io. destruct Io as (Io & Ko). rewrite (archive_symbols (f o) o).
  - apply zsumf_ext. intros i _. symmetry. apply Fs.
  - apply Z0.
  - intros i Ii S Ea. apply Ft. apply Ti; [|exact Ea]. exists o. split; [exact Io|]. split; [now apply K|]. now split.
Qed.
Lemma same_keep P keep : (forall o, P (by_symbols ys o) <-> P o) -> (forall o, keep o = true <-> P o) -> forall o : printed, keep (by_symbols ys o) = keep o.
Proof. intros S K o. apply same_bool. rewrite !K. apply S. Qed.
Lemma own_tiled c n : own_bytes (of_archive y) c k n <-> own_bytes (of_archive y) c q n.
Proof.
  destruct c as [|T|T N]; cbn [own_bytes].
  - unfold own_all. split; intros (keep & K & ->); exists keep; (split; [exact K|]); [|symmetry]; apply (kept_sum (fun _ => it_size)).
    all: try (intros o Ho; now apply K). all: try reflexivity. all: try (intros _ i S; exact S). all: try (intros _ i T; now apply tiled_size).
    all: exact (same_keep (counted (ac_im k)) keep (fun o => iff_refl _) K).
  - unfold own_type. split; intros (keep & b & K & B & ->); exists keep, b; (split; [exact K|]); (split; [exact B|]); [|symmetry]; apply (kept_sum (fun o i => bytes_with (b o) (it_addr i) (it_size i))).
    all: try (intros o Ho; now apply K). all: try (intros o i Ht; now apply tiled_bytes). all: try (intros o i S; now rewrite S).
    all: try (exact (same_keep (counted (ac_im k)) keep (fun o => iff_refl _) K)).
    all: intros o i; apply same_count; intros x; apply same_bool; rewrite !B; reflexivity.
  - split; intros (keep & b & K & B & ->); exists keep, b; (split; [exact K|]); (split; [exact B|]); [|symmetry]; apply (kept_sum (fun o i => bytes_with b (it_addr i) (it_size i))).
    all: try (intros o Ho; now apply K). all: try (intros o i Ht; now apply tiled_bytes). all: try (intros o i S; now rewrite S).
    all: try reflexivity.
    all: exact (same_keep (fun o => counted (ac_im k) o /\ pr_name o = N) keep (fun o => iff_refl _) K).
Qed.
Lemma section_sum (f : printed -> Z) (keep : printed -> bool) : (forall o, keep (by_symbols ys o) = keep o) -> (forall o, f (by_symbols ys o) = f o) ->
  zsumf f (filter keep (ac_l k)) = zsumf f (filter keep (ac_l q)).
Proof.
  intros Ks Fs. cbn [q symbol_account ac_l]. rewrite filter_map_swap, zsumf_map, (same_filter (fun o => keep (by_symbols ys o)) keep _ Ks). apply zsumf_ext. intros o _. symmetry. apply Fs.
Qed.
Lemma type_tiled a T : lists_type a T k <-> lists_type a T q.
Proof.
  unfold lists_type, listed_type. cbn [q symbol_account ac_im ac_types].
  assert (E : forall n, type_bytes (ac_im k) (ac_types k) (ac_l k) T n <-> type_bytes (ac_im k) (ac_types k) (ac_l q) T n).
  { intros n. split; intros (keep & b & K & B & ->); exists keep, b; (split; [exact K|]); (split; [exact B|]); [|symmetry]; apply section_sum.
    all: try (exact (same_keep (counted (ac_im k)) keep (fun o => iff_refl _) K)).
    all: intros o; apply same_count; intros x; apply same_bool; rewrite !B; reflexivity. }
  split; intros (C & [H|(n & H & Hn)]); (split; [exact C|]); [now left|right; exists n|now left|right; exists n]; (split; [now apply E|exact Hn]).
Qed.
Lemma section_tiled T N : lists_section T N k <-> lists_section T N q.
Proof.
  unfold lists_section. split; intros (n & (keep & b & K & B & ->) & P).
  - eexists. split; [exists keep, b; split; [exact K|split; [exact B|reflexivity]]|]. rewrite <- section_sum; [exact P|exact (same_keep (fun o => counted (ac_im k) o /\ pr_name o = N) keep (fun o => iff_refl _) K)|reflexivity].
  - eexists. split; [exists keep, b; split; [exact K|split; [exact B|reflexivity]]|]. rewrite section_sum; [exact P|exact (same_keep (fun o => counted (ac_im k) o /\ pr_name o = N) keep (fun o => iff_refl _) K)|reflexivity].
Qed.
Lemma placed_symbol i : places i k -> it_archive i = y -> exists j, places j q /\ it_archive j = y.
Proof.
  intros P E. pose proof (tiled_size _ _ (Ti i P E)) as S. destruct P as (o & Io & Co & Ii & Z0).
  destruct (existsb (fun j => negb (it_size j =? 0)) (map (symbol_item i) (item_symbols ys i))) eqn:X.
  - apply existsb_exists in X. destruct X as (j & Ij & Sj). apply negb_true_iff, Z.eqb_neq in Sj. exists j. split.
    + exists (by_symbols ys o). split; [apply List.in_map; exact Io|]. split; [exact Co|]. split; [|exact Sj]. cbn [by_symbols pr_items]. apply in_flat_map. exists i. now split.
    + apply List.in_map_iff in Ij. destruct Ij as (z & <- & _). exact E.
  - exfalso. apply Z0. rewrite S. apply zsumf_zero. intros j Ij. destruct (Z.eq_dec (it_size j) 0) as [Sj|Sj]; [exact Sj|].
    assert (existsb (fun j => negb (it_size j =? 0)) (map (symbol_item i) (item_symbols ys i)) = true); [|congruence]. apply existsb_exists. exists j. split; [exact Ij|]. now apply negb_true_iff, Z.eqb_neq.
Qed.
Lemma placed_item j : places j q -> exists i, places i k /\ it_archive i = it_archive j.
Proof.
  intros (o' & Io & Co & Ij & Z0). apply List.in_map_iff in Io. destruct Io as (o & <- & Io). cbn [by_symbols pr_items] in Ij. apply in_flat_map in Ij. destruct Ij as (i & Ii & Ij).
  apply List.in_map_iff in Ij. destruct Ij as (z & <- & Iz). exists i. split; [|reflexivity]. exists o. split; [exact Io|]. split; [exact Co|]. split; [exact Ii|]. intros S. rewrite (empty_symbols ys i S) in Iz. destruct Iz.
Qed.
End Accounts.

(** ** with the reference *)
Record alike_for (y : str) (k q : account) : Prop := {
  al_own : forall c n, own_bytes (of_archive y) c k n <-> own_bytes (of_archive y) c q n;
  al_type : forall a T, lists_type a T k <-> lists_type a T q;
  al_section : forall T N, lists_section T N k <-> lists_section T N q;
  al_forth : forall i, places i k -> it_archive i = y -> exists j, places j q /\ it_archive j = y;
  al_back : forall j, places j q -> it_archive j = y -> exists i, places i k /\ it_archive i = y }.
Lemma tiled_alike ys k y : (forall i, places i k -> it_archive i = y -> tiled ys i) -> alike_for y k (symbol_account ys k).
Proof.
  intros Ti. split.
  - exact (own_tiled ys k y Ti).
  - exact (type_tiled ys k).
  - exact (section_tiled ys k).
  - exact (placed_symbol ys k y Ti).
  - intros j P E. destruct (placed_item ys k j P) as (i & Pi & Ei). exists i. split; [exact Pi|congruence].
Qed.
Definition alike_pair (y : str) (k q : account) (r r' : option account) : Prop :=
  alike_for y k q /\ match r, r' with None, None => True | Some k', Some q' => alike_for y k' q' | _, _ => False end.
Section Pair.
Variables (y : str) (k q : account) (r r' : option account).
Hypothesis Al : alike_pair y k q r r'.
Lemma pair_measured c v : measured k r (own_bytes (of_archive y) c) v <-> measured q r' (own_bytes (of_archive y) c) v.
Proof.
  destruct Al as (A & B). unfold measured. rewrite (al_own _ _ _ A). destruct r as [k'|], r' as [q'|]; try contradiction; [|reflexivity].
  split; intros (H & n & H1 & H2); (split; [exact H|]); exists n; (split; [|exact H2]); now apply (al_own _ _ _ B).
Qed.
Lemma pair_type a T : present k r (lists_type a T) <-> present q r' (lists_type a T).
Proof. destruct Al as (A & B). unfold present. rewrite (al_type _ _ _ A). destruct r as [k'|], r' as [q'|]; try contradiction; [|reflexivity]. now rewrite (al_type _ _ _ B). Qed.
Lemma pair_section T N : present k r (lists_section T N) <-> present q r' (lists_section T N).
Proof. destruct Al as (A & B). unfold present. rewrite (al_section _ _ _ A). destruct r as [k'|], r' as [q'|]; try contradiction; [|reflexivity]. now rewrite (al_section _ _ _ B). Qed.
Lemma pair_forth i : present k r (places i) -> it_archive i = y -> exists j, present q r' (places j) /\ it_archive j = y.
Proof.
  destruct Al as (A & B). intros [P|P] E.
  - destruct (al_forth _ _ _ A i P E) as (j & Pj & Ej). exists j. split; [now left|exact Ej].
  - destruct r as [k'|]; [|destruct P]. destruct r' as [q'|]; [|destruct B]. destruct (al_forth _ _ _ B i P E) as (j & Pj & Ej). exists j. split; [now right|exact Ej].
Qed.
Lemma pair_back j : present q r' (places j) -> it_archive j = y -> exists i, present k r (places i) /\ it_archive i = y.
Proof.
  destruct Al as (A & B). intros [P|P] E.
  - destruct (al_back _ _ _ A j P E) as (i & Pj & Ej). exists i. split; [now left|exact Ej].
  - destruct r' as [q'|]; [|destruct P]. destruct r as [k'|]; [|destruct B]. destruct (al_back _ _ _ B j P E) as (i & Pj & Ej). exists i. split; [now right|exact Ej].
Qed.
Lemma pair_entry a e : entry_right k r a (of_archive y) e -> entry_right q r' a (of_archive y) e.
Proof.
  intros [E1 E2 E3 E4 E5 E6 E7 E8]. constructor; try assumption.
  - now apply pair_measured.
  - intros T. rewrite E3. apply pair_type.
  - intros T st I. apply pair_measured. now apply E4.
  - intros T st N I. rewrite (E6 T st N I). apply pair_section.
  - intros T st N z I J. apply pair_measured. exact (E7 T st N z I J).
Qed.
End Pair.

(** ** the bytes of an archive are those of its symbols *)
Definition about (y : str) (p : str * str) : item := Item (snd p) 0 0 y (fst p) [].
Definition name_of (i : item) : str * str := (it_object i, it_name i).
Definition pair_eqb (p p' : str * str) : bool := (fst p =?= fst p') && (snd p =?= snd p').
Lemma pair_eqbP p p' : reflect (p = p') (pair_eqb p p').
Proof.
  destruct p as (a & b), p' as (a' & b'). unfold pair_eqb. cbn [fst snd]. destruct (keqP a a') as [->|N]; cbn [andb]; [destruct (keqP b b') as [->|N]|]; constructor; congruence.
Qed.
Lemma of_about y p i : of_symbol (about y p) i = of_archive y i && pair_eqb (name_of i) p.
Proof. unfold of_symbol, of_object, of_archive, pair_eqb, about, name_of. cbn [it_archive it_object it_name fst snd]. now rewrite andb_assoc. Qed.
Lemma zsumf_inp p (v : Z) ps : NoDup ps -> In p ps -> zsumf (fun p' => if pair_eqb p p' then v else 0) ps = v.
Proof.
  intros N I. induction N as [|p' ps NI N IH]; [destruct I|]. rewrite zsumf_cons. destruct (pair_eqbP p p') as [<-|Ne].
  - rewrite zsumf_zero; [lia|]. intros o Io. destruct (pair_eqbP p o) as [<-|]; [contradiction|reflexivity].
  - destruct I as [E|I]; [congruence|]. rewrite (IH I). lia.
Qed.
Lemma zsumf_symbols (f : item -> Z) y ps items : NoDup ps -> (forall i, In i items -> f i <> 0 -> it_archive i = y -> In (name_of i) ps) ->
  zsumf f (filter (of_archive y) items) = zsumf (fun p => zsumf f (filter (of_symbol (about y p)) items)) ps.
Proof.
  intros N. induction items as [|i items IH]; intros H; [symmetry; now apply zsumf_zero|].
  assert (IH' := IH (fun j J => H j (or_intror J))). clear IH.
  transitivity ((if of_archive y i then f i else 0) + zsumf f (filter (of_archive y) items)).
  { cbn [filter]. destruct (of_archive y i); [now rewrite zsumf_cons|lia]. }
  transitivity (zsumf (fun p => (if of_symbol (about y p) i then f i else 0) + zsumf f (filter (of_symbol (about y p)) items)) ps).
  2: { apply zsumf_ext. intros p _. cbn [filter]. destruct (of_symbol (about y p) i); [now rewrite zsumf_cons|lia]. }
  rewrite zsumf_plus, IH'. f_equal.
  rewrite (zsumf_ext _ (fun p => if of_archive y i && pair_eqb (name_of i) p then f i else 0)) by (intros p _; now rewrite of_about).
  unfold of_archive. destruct (keqP (it_archive i) y) as [E|Ne]; cbn [andb].
  - destruct (Z.eq_dec (f i) 0) as [F0|F0].
    + rewrite F0. symmetry. apply zsumf_zero. intros p _. destruct (pair_eqb (name_of i) p); reflexivity.
    + symmetry. apply zsumf_inp; [exact N|]. apply (H i (or_introl eq_refl) F0 E).
  - symmetry. now apply zsumf_zero.
Qed.
Lemma symbol_split y ps c k n : own_bytes (of_archive y) c k n -> NoDup ps -> (forall i, places i k -> it_archive i = y -> In (name_of i) ps) ->
  exists f, (forall p, own_bytes (of_symbol (about y p)) c k (f p)) /\ n = zsumf f ps.
Proof.
  intros H N P.
  assert (S : forall (f : printed -> item -> Z) keep, (forall o, keep o = true -> counted (ac_im k) o) -> (forall o i, it_size i = 0 -> f o i = 0) ->
    zsumf (fun o => zsumf (f o) (filter (of_archive y) (pr_items o))) (filter keep (ac_l k)) =
    zsumf (fun b => zsumf (fun o => zsumf (f o) (filter (of_symbol (about y b)) (pr_items o))) (filter keep (ac_l k))) ps).
  { intros f keep K F. rewrite <- zsumf_swap. apply zsumf_ext. intros o Io. apply filter_In in Io. destruct Io as (Io & Ko). apply zsumf_symbols; [exact N|].
    intros i Ii Fi Ex. apply P; [|exact Ex]. exists o. split; [exact Io|]. split; [now apply K|]. split; [exact Ii|]. intros Z0. apply Fi. now apply F. }
  destruct c as [|T|T M]; cbn [own_bytes] in H.
  - destruct H as (keep & K & ->). eexists. split; [intros o; exists keep; split; [exact K|reflexivity]|].
    cbv beta. apply (S (fun _ => it_size)); [intros o; apply K|]. now intros o i.
  - destruct H as (keep & b & K & B & ->). eexists. split; [intros o; exists keep, b; split; [exact K|split; [exact B|reflexivity]]|].
    cbv beta. apply (S (fun o i => bytes_with (b o) (it_addr i) (it_size i))); [intros o; apply K|]. intros o i ->. apply bytes_zero.
  - destruct H as (keep & b & K & B & ->). eexists. split; [intros o; exists keep, b; split; [exact K|split; [exact B|reflexivity]]|].
    cbv beta. apply (S (fun o i => bytes_with b (it_addr i) (it_size i))); [intros o Ko; apply K in Ko; apply Ko|]. intros o i ->. apply bytes_zero.
Qed.
Lemma measured_symbols y ps c k r v : measured k r (own_bytes (of_archive y) c) v -> NoDup ps -> (forall i, present k r (places i) -> it_archive i = y -> In (name_of i) ps) ->
  exists f, (forall p, measured k r (own_bytes (of_symbol (about y p)) c) (f p)) /\ v = (zsumf (fun p => fst (f p)) ps, zsumf (fun p => snd (f p)) ps).
Proof.
  intros (A & B) N P. destruct (symbol_split _ _ _ _ _ A N (fun i I => P i (or_introl I))) as (f & Hf & Ef). destruct v as (v1 & v2). cbn [fst snd] in *. destruct r as [k'|].
  - destruct B as (n' & A' & ->). destruct (symbol_split _ _ _ _ _ A' N (fun i I => P i (or_intror I))) as (g & Hg & Eg).
    exists (fun o => (f o, f o - g o)). cbn [fst snd]. split; [intros o; split; [apply Hf|exists (g o); split; [apply Hg|reflexivity]]|]. rewrite zsumf_minus. now subst.
  - exists (fun o => (f o, 0)). cbn [fst snd]. split; [intros o; split; [apply Hf|reflexivity]|]. rewrite (zsumf_zero (fun _ => 0)) by reflexivity. now subst.
Qed.
Lemma symbols_listed y k : (exists n, own_bytes (of_archive y) ColTotal k n) -> exists ps, forall p, In p ps <-> exists i, places i k /\ it_archive i = y /\ name_of i = p.
Proof.
  intros (n & keep & K & _). exists (map name_of (filter (fun i => of_archive y i && negb (it_size i =? 0)) (flat_map pr_items (filter keep (ac_l k))))). intros p. rewrite List.in_map_iff. split.
  - intros (i & E & I). apply filter_In in I. destruct I as (I & C). apply andb_true_iff in C. destruct C as (C1 & C2). apply in_flat_map in I. destruct I as (o & Ip & Ii). apply filter_In in Ip. destruct Ip as (Ip & Kp).
    exists i. split; [|split; [|exact E]].
    + exists o. split; [exact Ip|]. split; [now apply K|]. split; [exact Ii|]. apply negb_true_iff, Z.eqb_neq in C2. exact C2.
    + unfold of_archive in C1. destruct (keqP (it_archive i) y); [assumption|discriminate].
  - intros (i & (o & Ip & Cp & Ii & Z0) & Ex & E). exists i. split; [exact E|]. apply filter_In. split.
    + apply in_flat_map. exists o. split; [|exact Ii]. apply filter_In. split; [exact Ip|now apply K].
    + unfold of_archive. rewrite Ex, keq_refl. cbn [andb]. apply negb_true_iff, Z.eqb_neq. exact Z0.
Qed.
Lemma pair_dec (p p' : str * str) : {p = p'} + {p <> p'}.
Proof. decide equality; apply (list_eq_dec ascii_dec). Qed.
Lemma symbols_all y k r v : measured k r (own_bytes (of_archive y) ColTotal) v ->
  exists ps, NoDup ps /\ forall p, In p ps <-> exists i, present k r (places i) /\ it_archive i = y /\ name_of i = p.
Proof.
  intros (A & B). destruct (symbols_listed y k (ex_intro _ _ A)) as (os & H).
  assert (exists os', forall p, In p os' <-> exists i, match r with None => False | Some k' => places i k' end /\ it_archive i = y /\ name_of i = p) as (os' & H').
  { destruct r as [k'|]; [|exists []; intros o; split; [intros []|intros (i & [] & _)]]. destruct B as (n' & A' & _). exact (symbols_listed y k' (ex_intro _ _ A')). }
  exists (nodup pair_dec (os ++ os')). split; [apply NoDup_nodup|]. intros o. rewrite nodup_In, in_app_iff, H, H'. unfold present. split.
  - intros [(i & P & Q)|(i & P & Q)]; exists i; tauto.
  - intros (i & [P|P] & Q); [left|right]; exists i; tauto.
Qed.

(** ** the rows *)
Definition key_of (y : str) (p : str * str) : str := y ++ ":"%char :: fst p ++ ":"%char :: snd p.
Lemma key_unique y y' o z o' z' : y ++ ":"%char :: o ++ ":"%char :: z = y' ++ ":"%char :: o' ++ ":"%char :: z' ->
  ~ In ":"%char o -> ~ In ":"%char o' -> ~ In ":"%char z -> ~ In ":"%char z' -> y = y' /\ o = o' /\ z = z'.
Proof.
  intros E A A' B B'. destruct (last_unique ":"%char (y ++ ":"%char :: o) z (y' ++ ":"%char :: o') z') as (E1 & ->); [rewrite <- !app_assoc; exact E|exact B|exact B'|].
  destruct (last_unique _ _ _ _ _ E1 A A') as (-> & ->). tauto.
Qed.
Definition told (p : str * str) : Prop := ~ In ":"%char (fst p) /\ ~ In ":"%char (snd p).
Lemma zsumf_told {V} (g : str * str -> Z) (h : str * V -> Z) y ps (rows : dict str V) : NoDup ps -> Forall told ps -> NoDup (map fst rows) ->
  (forall n e, In (n, e) rows -> exists p, n = key_of y p /\ In p ps /\ h (n, e) = g p) ->
  (forall p, In p ps -> ~ In (key_of y p) (map fst rows) -> g p = 0) -> zsumf g ps = zsumf h rows.
Proof.
  intros N. revert rows. induction N as [|p ps NI N IH]; intros rows To Nr R Z0.
  - destruct rows as [|(n & e) rows]; [reflexivity|]. destruct (R n e (or_introl eq_refl)) as (o & _ & [] & _).
  - set (here := fun kv : str * V => fst kv =?= key_of y p). inversion To as [|? ? T1 T2]; subst. clear To.
    assert (Un : forall p', In p' (p :: ps) -> key_of y p' = key_of y p -> p' = p).
    { intros p' I E. assert (T' : told p') by (destruct I as [<-|I]; [exact T1|now apply (proj1 (Forall_forall _ _) T2)]). destruct p as (a & b), p' as (a' & b'), T1, T'. unfold key_of in E. cbn [fst snd] in *.
      destruct (key_unique _ _ _ _ _ _ E) as (_ & -> & ->); tauto. }
    assert (Nf : forall b : str * V -> bool, NoDup (map fst (filter b rows))).
    { intros b. clear -Nr. induction rows as [|kv rows IH]; [constructor|]. cbn [map] in Nr. inversion Nr as [|? ? A B]; subst. cbn [filter]. destruct (b kv); [|now apply IH]. cbn [map]. constructor; [|now apply IH].
      intros I. apply A. apply List.in_map_iff in I. destruct I as (q & E & I). apply filter_In in I. rewrite <- E. apply List.in_map, I. }
    rewrite (zsumf_split here h rows), zsumf_cons. f_equal.
    + destruct (filter here rows) as [|(n & e) l] eqn:F.
      * apply Z0; [now left|]. intros I. apply List.in_map_iff in I. destruct I as ((n & e) & E & I). cbn [fst] in E. subst n.
        assert (J : In (key_of y p, e) (filter here rows)) by (apply filter_In; split; [exact I|unfold here; cbn [fst]; apply keq_refl]). rewrite F in J. destruct J.
      * assert (J : In (n, e) (filter here rows)) by (rewrite F; now left). apply filter_In in J. destruct J as (J & H). unfold here in H. cbn [fst] in H. destruct (keqP n (key_of y p)) as [->|]; [|discriminate].
        destruct (R _ _ J) as (p' & E & Ip' & Hv). rewrite (Un p' Ip' (eq_sym E)) in Hv.
        assert (L : l = []).
        { destruct l as [|(n' & e') l]; [reflexivity|]. exfalso. pose proof (Nf here) as Nh.
          rewrite F in Nh. cbn [map fst] in Nh. inversion Nh as [|? ? A _]; subst. apply A. left.
          assert (I : In (n', e') (filter here rows)) by (rewrite F; right; now left). apply filter_In in I. destruct I as (_ & I). unfold here in I. cbn [fst] in I. destruct (keqP n' (key_of y p)); [assumption|discriminate]. }
        subst l. rewrite zsumf_cons, zsumf_nil, Hv. lia.
    + apply IH; [exact T2|apply Nf| |].
      * intros n e I. apply filter_In in I. destruct I as (I & H). destruct (R n e I) as (p' & -> & Io & Hv). exists p'. split; [reflexivity|]. split; [|exact Hv]. destruct Io as [<-|Io]; [|exact Io].
        unfold here in H. cbn [fst] in H. rewrite keq_refl in H. discriminate.
      * intros p' Io' Nk. apply Z0; [now right|]. intros I. apply Nk. apply List.in_map_iff in I. destruct I as (kv & E & I). apply List.in_map_iff. exists kv. split; [exact E|]. apply filter_In. split; [exact I|].
        unfold here. rewrite E. apply negb_true_iff, keq_neq. intros E2. rewrite (Un p' (or_intror Io') E2) in Io'. contradiction.
Qed.

Section SymbolRows.
Variables (x : str) (k q : account) (r r' : option account) (a : args) (archives symbols : dict str sentry).
Hypothesis Ra : entries_right false k r a archives.
Hypothesis Rs : symbols_right x q r' a symbols.
Hypothesis Ts : tells_symbols q r'.
Variables (y : str) (part : str -> bool).
Hypothesis Al : alike_pair y k q r r'.
Hypothesis Yx : after_last "/"%char y x.
Hypothesis Pt : forall n, part n = true <-> symbol_in y n.
Let rows := filter (fun kv : str * sentry => part (fst kv)) symbols.
Lemma srows_once : NoDup (map fst rows).
Proof.
  destruct Rs as (N & _ & _). unfold rows. clear -N. induction symbols as [|kv l IH]; [constructor|]. cbn [map] in N. inversion N as [|? ? A B]; subst. cbn [filter]. destruct (part (fst kv)); [|now apply IH]. cbn [map]. constructor; [|now apply IH].
  intros I. apply A. apply List.in_map_iff in I. destruct I as (z & E & I). apply filter_In in I. rewrite <- E. apply List.in_map, I.
Qed.
Lemma srow_is n e : In (n, e) rows -> exists i, present q r' (places i) /\ it_archive i = y /\ n = key_of y (name_of i) /\ entry_right q r' a (of_symbol (about y (name_of i))) e.
Proof.
  intros I. apply filter_In in I. destruct I as (I & H). cbn [fst] in H. apply Pt in H. destruct H as (o & z & E & No & Nz). destruct Rs as (_ & _ & R). destruct (R n e I) as (i & (P & _) & En & _ & Er).
  unfold symbol_key in En. rewrite En in E. destruct (Ts i P) as (To & Tn). destruct (key_unique _ _ _ _ _ _ E To No Tn Nz) as (Ex & Eo & Ez). exists i. split; [exact P|]. split; [exact Ex|]. rewrite En, Ex. split; [reflexivity|].
  replace (of_symbol (about y (name_of i))) with (of_symbol i); [exact Er|]. rewrite <- Ex. reflexivity.
Qed.
Lemma srow_there i v : present q r' (places i) -> it_archive i = y -> measured q r' (own_bytes (of_symbol (about y (name_of i))) ColTotal) v -> differs a v -> In (key_of y (name_of i)) (map fst rows).
Proof.
  intros P Ex M Df. destruct Rs as (_ & K & _). assert (I : In (key_of y (name_of i)) (map fst symbols)).
  { apply K. exists i, v. split; [split; [exact P|now rewrite Ex]|]. unfold symbol_key, key_of, name_of. cbn [fst snd]. rewrite Ex. split; [reflexivity|]. split; [|exact Df].
    replace (of_symbol i) with (of_symbol (about y (name_of i))); [exact M|]. rewrite <- Ex. reflexivity. }
  apply List.in_map_iff in I. destruct I as (kv & E & I). apply List.in_map_iff. exists kv. split; [exact E|]. apply filter_In. split; [exact I|]. apply Pt. rewrite E. exists (it_object i), (it_name i). split; [reflexivity|]. exact (Ts i P).
Qed.
Lemma sfigures c v w : listed q r' a c -> measured q r' (own_bytes (of_archive y) c) v -> measured q r' (own_bytes (of_archive y) ColTotal) w ->
  (c = ColTotal -> snd v = zsumf (fun kv => snd (col_value (snd kv) c)) rows) /\
  (shows_all a -> v = (zsumf (fun kv => fst (col_value (snd kv) c)) rows, zsumf (fun kv => snd (col_value (snd kv) c)) rows)).
Proof.
  intros Li Mv Mw. destruct (symbols_all y q r' w Mw) as (ps & No & Os).
  destruct (measured_symbols y ps c q r' v Mv No) as (f & Mf & ->). { intros i P E. apply Os. exists i. tauto. }
  destruct (measured_symbols y ps ColTotal q r' w Mw No) as (g & Mg & _). { intros i P E. apply Os. exists i. tauto. }
  assert (To : Forall told ps). { apply Forall_forall. intros p Ip. apply Os in Ip. destruct Ip as (i & P & _ & <-). exact (Ts i P). }
  assert (In_row : forall n e, In (n, e) rows -> exists p, n = key_of y p /\ In p ps /\ col_value e c = f p).
  { intros n e I. destruct (srow_is n e I) as (i & P & Ex & En & Er). exists (name_of i). split; [exact En|]. split; [apply Os; exists i; tauto|]. eapply measured_same; [|apply Mf]. apply (proj1 (row_value _ _ _ _ _ c Er)), Li. }
  assert (Fst : forall n e, In (n, e) rows -> exists p, n = key_of y p /\ In p ps /\ fst (col_value (snd (n, e)) c) = fst (f p)).
  { intros n e I. destruct (In_row n e I) as (o & En & Io & E). exists o. cbn [snd]. now rewrite E. }
  assert (Snd : forall n e, In (n, e) rows -> exists p, n = key_of y p /\ In p ps /\ snd (col_value (snd (n, e)) c) = snd (f p)).
  { intros n e I. destruct (In_row n e I) as (o & En & Io & E). exists o. cbn [snd]. now rewrite E. }
  cbn [fst snd]. split.
  - intros ->. apply (zsumf_told (fun o => snd (f o)) (fun kv => snd (col_value (snd kv) ColTotal)) y ps rows No To srows_once Snd).
    intros o Io Nk. apply Os in Io. destruct Io as (i & P & Ex & Eo). destruct (Z.eq_dec (snd (f o)) 0) as [E|E]; [exact E|]. exfalso. apply Nk. rewrite <- Eo.
    apply (srow_there i (f o) P Ex); [rewrite Eo; apply Mf|]. intros _ _. exact E.
  - intros Sa. assert (Nk : forall (h : str * str -> Z) o, In o ps -> ~ In (key_of y o) (map fst rows) -> h o = 0).
    { intros h o Io Nk. exfalso. apply Nk. apply Os in Io. destruct Io as (i & P & Ex & <-). apply (srow_there i (g (name_of i)) P Ex (Mg _)). now apply all_differs. }
    f_equal; [apply (zsumf_told (fun o => fst (f o)) (fun kv => fst (col_value (snd kv) c)) y ps rows No To srows_once Fst)|apply (zsumf_told (fun o => snd (f o)) (fun kv => snd (col_value (snd kv) c)) y ps rows No To srows_once Snd)]; intros o; apply (Nk (fun o => _)).
Qed.
Lemma sarchive_row e : In (y, e) archives -> entry_right q r' a (of_archive y) e.
Proof. intros I. apply (pair_entry y k q r r' Al). destruct Ra as (_ & _ & R). destruct (R y e I) as (i & P & E & _ & Er). cbn [row_key row_own] in *. now subst y. Qed.
Lemma sarchive_total n e : In (n, e) rows -> exists i w, present q r' (places i) /\ it_archive i = y /\ measured q r' (own_bytes (of_archive y) ColTotal) w.
Proof.
  intros I. destruct (srow_is n e I) as (i & P & Ex & _ & Er). exists i. destruct (er_size _ _ _ _ _ Er) as ((keep & K & _) & B).
  assert (A : exists w1, own_bytes (of_archive y) ColTotal q w1) by (eexists; exists keep; split; [exact K|reflexivity]). destruct A as (w1 & A). clear Al Ra. destruct r' as [k'|].
  - destruct B as (n' & (keep' & K' & _) & _). assert (A' : exists w2, own_bytes (of_archive y) ColTotal k' w2) by (eexists; exists keep'; split; [exact K'|reflexivity]). destruct A' as (w2 & A').
    exists (w1, w1 - w2). split; [exact P|]. split; [exact Ex|]. split; [exact A|]. exists w2. now split.
  - exists (w1, 0). split; [exact P|]. split; [exact Ex|]. now split.
Qed.
Lemma sarchive_there i w : present q r' (places i) -> it_archive i = y -> measured q r' (own_bytes (of_archive y) ColTotal) w -> differs a w -> In y (map fst archives).
Proof.
  intros P Ex M Df. destruct (pair_back y k q r r' Al i P Ex) as (j & Pj & Ej). destruct Ra as (_ & K & _). apply K. exists j, w. cbn [row_key row_own]. rewrite Ej. split; [exact Pj|]. split; [reflexivity|]. split; [|exact Df]. now apply (pair_measured y k q r r' Al).
Qed.
Lemma srows_add : (forall e, In (y, e) archives -> se_diff e = zsumf (fun kv => se_diff (snd kv)) rows) /\
  (~ In y (map fst archives) -> zsumf (fun kv => se_diff (snd kv)) rows = 0) /\
  (shows_all a ->
     (forall e c, In (y, e) archives -> col_value e c = (zsumf (fun kv => fst (col_value (snd kv) c)) rows, zsumf (fun kv => snd (col_value (snd kv) c)) rows)) /\
     (In y (map fst archives) <-> rows <> [])).
Proof.
  split; [|split; [|intros Sa; split; [|split]]].
  - intros e I. apply sarchive_row in I. pose proof (er_size _ _ _ _ _ I) as M. exact (proj1 (sfigures ColTotal _ _ Logic.I M M) eq_refl).
  - intros N. destruct rows as [|(n & e) l] eqn:E; [reflexivity|]. rewrite <- E. assert (I : In (n, e) rows) by (rewrite E; now left). destruct (sarchive_total n e I) as (i & w & P & Ex & M).
    pose proof (proj1 (sfigures ColTotal _ _ Logic.I M M) eq_refl) as F. cbn [col_value snd] in F. rewrite <- F. destruct (Z.eq_dec (snd w) 0) as [Z0|Z0]; [exact Z0|]. exfalso. apply N. apply (sarchive_there i w P Ex M). intros _ _. exact Z0.
  - intros e c I. apply sarchive_row in I. destruct (listed_dec _ _ _ _ _ c I) as [L|L].
    + pose proof (er_size _ _ _ _ _ I) as M. exact (proj2 (sfigures c _ _ L (proj1 (row_value _ _ _ _ _ c I) L) M) Sa).
    + rewrite (proj2 (row_value _ _ _ _ _ c I) L). f_equal; symmetry; apply zsumf_zero; intros (n & e') J; destruct (srow_is n e' J) as (i & _ & _ & _ & Er); cbn [snd]; now rewrite (proj2 (row_value _ _ _ _ _ c Er) L).
  - intros I. apply List.in_map_iff in I. destruct I as ((y' & e) & E & I). cbn [fst] in E. subst y'. pose proof (sarchive_row e I) as Er. pose proof (er_size _ _ _ _ _ Er) as M.
    destruct Ra as (_ & _ & R). destruct (R y e I) as (i & P & E & _ & _). cbn [row_key] in E. symmetry in E. destruct (pair_forth y k q r r' Al i P E) as (j & Pj & Ej).
    destruct (symbols_all y q r' _ M) as (ps & No & Os).
    destruct (measured_symbols y ps ColTotal q r' _ M No) as (g & Mg & _). { intros z Pz Ez. apply Os. exists z. tauto. }
    pose proof (srow_there j (g (name_of j)) Pj Ej (Mg _) (all_differs _ _ Sa)) as J. intros Z0. rewrite Z0 in J. destruct J.
  - intros Ne. destruct rows as [|(n & e) l] eqn:E; [congruence|]. assert (I : In (n, e) rows) by (rewrite E; now left). destruct (sarchive_total n e I) as (i & w & P & Ex & M). apply (sarchive_there i w P Ex M). now apply all_differs.
Qed.
End SymbolRows.

(** ** the commands *)
Lemma within_project ok d c x fn k q : symbols_within ok d (c_args c) x fn k q -> project_at d (c_args (report_on false c)) fn k.
Proof.
  intros (dir & name & text & crt & ys & E & B & D & F & _). exists dir, name, text, crt. split; [exact E|]. split; [exact B|]. split; [|exact F].
  unfold without_dwarf. change (a_use_dwarf (c_args (report_on false c))) with (a_use_dwarf (c_args c)). destruct (a_use_dwarf (c_args c)) as [[|]|]; [|exact D|exact D]. exfalso. destruct D as [D|(D & _)]; discriminate D.
Qed.
Lemma within_symbols ok d c x fn k q : symbols_within ok d (c_args c) x fn k q -> symbols_project d (c_args (report_details x c)) fn q.
Proof. intros (dir & name & text & crt & ys & E & B & D & F & S & C & Q & _). exists dir, name, text, crt, k, ys. repeat (split; [assumption|]). exact Q. Qed.
Lemma within_alike d c x y fn k q : symbols_within tiled d (c_args c) x fn k q -> after_last "/"%char y x -> alike_for y k q.
Proof. intros (dir & name & text & crt & ys & E & B & D & F & S & C & -> & T) Y. apply tiled_alike. intros i P Ei. apply T; [exact P|now rewrite Ei]. Qed.
Lemma both_one ok d c x k q r r' : both_reported ok d c x k q r r' -> reported d (report_on false c) k r /\ symbols_reported d (report_details x c) q r'.
Proof.
  intros (P & R & U & V). split.
  - split; [exact (within_project _ _ _ _ _ _ _ P)|]. split; [|now split]. destruct r as [k'|], r' as [q'|]; try contradiction; [|exact R]. destruct R as (fn & E & R). exists fn. split; [exact E|]. exact (within_project _ _ _ _ _ _ _ R).
  - split; [exact (within_symbols _ _ _ _ _ _ _ P)|]. split; [|now split]. destruct r as [k'|], r' as [q'|]; try contradiction; [|exact R]. destruct R as (fn & E & R). exists fn. split; [exact E|]. exact (within_symbols _ _ _ _ _ _ _ R).
Qed.
Lemma symbols_on x c q r' rows : symbols_right x q r' (c_args (report_details x c)) rows -> symbols_right x q r' (c_args (report_on false c)) rows.
Proof.
  intros (N & K & R). split; [exact N|]. split; [exact K|]. intros n e I. destruct (R n e I) as (i & P & E & A & Er). exists i. split; [exact P|]. split; [exact E|]. split; [exact A|].
  destruct Er as [E1 E2 E3 E4 E5 E6 E7 E8]. constructor; assumption.
Qed.
Lemma symbols_add d c x k q r r' o o' fs fs' s s' render encode ord pf :
  both_reported tiled d c x k q r r' -> x <> [] -> tells_symbols q r' -> a_format (c_args c) = FJson2 ->
  run_files d (get_memory_types chip_info) render encode ord pf (report_on false c) o (start fs) = (Done tt, s) ->
  run_files d (get_memory_types chip_info) render encode ord pf (report_details x c) o' (start fs') = (Done tt, s') ->
  exists archives symbols, s_printed s = [PEntries archives] /\ s_printed s' = [PEntries symbols] /\ symbols_add_up x (c_args c) archives symbols.
Proof.
  intros Bo X Tf Fo R R'. destruct (both_one _ _ _ _ _ _ _ _ Bo) as (B1 & B2).
  destruct (entries_json d (report_on false c) k r o false fs s render encode ord pf) as (ra & P & Ra & _); [exact B1|reflexivity|discriminate|discriminate|exact Fo|exact R|].
  destruct (symbols_json d (report_details x c) x q r' o' fs' s' render encode ord pf) as (rf & P' & _ & Rf & _); [exact B2|repeat split; exact X|exact Tf|exact Fo|exact R'|].
  exists ra, rf. split; [exact P|]. split; [exact P'|]. intros y part Yx Pt.
  apply (srows_add x k q r r' _ ra rf Ra (symbols_on _ _ _ _ _ Rf) Tf y part); [|exact Yx|exact Pt].
  destruct Bo as (W & W' & _). split; [exact (within_alike _ _ _ _ _ _ _ W Yx)|]. destruct r as [k'|], r' as [q'|]; try contradiction; [|exact Logic.I]. destruct W' as (fn & _ & W'). exact (within_alike _ _ _ _ _ _ _ W' Yx).
Qed.

(** an input section that is listed itself is all there is in it *)
Lemma whole_tiled ys i : 0 <= it_size i -> item_symbols ys i = [Symbol (it_name i) (it_addr i) (it_size i)] -> tiled ys i.
Proof.
  intros H E. exists [Symbol (it_name i) (it_addr i) (it_size i)]. rewrite E. split; [apply Permutation_refl|].
  apply (row_next (Symbol (it_name i) (it_addr i) (it_size i))); [exact H|]. constructor.
Qed.
(** the symbols of an archive can be told *)
Definition colons (s : str) : nat := List.length (filter (Ascii.eqb ":"%char) s).
Lemma colons_none s : colons s = 0%nat <-> ~ In ":"%char s.
Proof.
  unfold colons. induction s as [|c s IH]; [split; [intros _ []|reflexivity]|]. cbn [filter]. destruct (Ascii.eqb_spec ":"%char c) as [<-|N]; cbn [List.length].
  - split; [discriminate|]. intros H. exfalso. apply H. now left.
  - rewrite IH. split; [intros H [E|I]; [congruence|now apply H]|]. intros H I. apply H. now right.
Qed.
Lemma colons_one s : colons s = 1%nat <-> exists o z, s = o ++ ":"%char :: z /\ ~ In ":"%char o /\ ~ In ":"%char z.
Proof.
  split.
  - induction s as [|c s IH]; [discriminate|]. unfold colons. cbn [filter]. destruct (Ascii.eqb_spec ":"%char c) as [<-|N]; cbn [List.length].
    + intros [= H]. exists [], s. split; [reflexivity|]. split; [intros []|]. now apply colons_none.
    + intros H. destruct (IH H) as (o & z & -> & A & B). exists (c :: o), z. split; [reflexivity|]. split; [|exact B]. intros [E|I]; [congruence|contradiction].
  - intros (o & z & -> & A & B). apply colons_none in A, B. unfold colons in *. rewrite filter_app, app_length, A. cbn [filter]. rewrite Ascii.eqb_refl. cbn [List.length]. now rewrite B.
Qed.
Definition part_in (y n : str) : bool := match after (y ++ [":"%char]) n with Some w => Nat.eqb (colons w) 1 | None => false end.
Lemma part_in_ok y n : part_in y n = true <-> symbol_in y n.
Proof.
  unfold part_in, symbol_in. destruct (after (y ++ [":"%char]) n) as [w|] eqn:E.
  - apply after_ok in E. rewrite <- app_assoc in E. cbn [app] in E. subst n. rewrite PeanoNat.Nat.eqb_eq, colons_one. split; intros (o & z & E & H); exists o, z; (split; [|exact H]).
    + now subst w.
    + apply app_inv_head in E. now injection E as ->.
  - split; [discriminate|]. intros (o & z & -> & _). assert (Q : after (y ++ [":"%char]) (y ++ ":"%char :: o ++ ":"%char :: z) = Some (o ++ ":"%char :: z)) by (apply after_ok; rewrite <- app_assoc; reflexivity). congruence.
Qed.
