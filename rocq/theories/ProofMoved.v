(** * Code and data that are only moved *)
From Coq Require Import Ascii String List ZArith Lia Bool Permutation Sorted.
From Verif Require Import Base MemMap SpecTree SpecOps Filter SpecFilter Pipeline SpecPipe SpecBuild SpecBytes SpecShape PyStr MapFile SpecMap ProofBytes3
  ElfRead SpecElf Project SpecProject SpecEnd Chips SpecChips Deps Table SpecTable Formats Main SpecMain Command SpecCommand SpecFail SpecReport ProofDwarf4 ProofCommand3 ProofReport5 SpecAdds ProofAdds SpecSteps ProofSteps ProofTiles SpecMoved.
Import ListNotations.
Open Scope list_scope.
Open Scope Z_scope.

Lemma zsumf_pairs {A B} (R : A -> B -> Prop) (f : A -> Z) (g : B -> Z) l l' : Forall2 R l l' -> (forall x y, In x l -> R x y -> f x = g y) -> zsumf f l = zsumf g l'.
Proof.
  induction 1 as [|x y l l' Rxy _ IH]; intros H; [reflexivity|]. rewrite !zsumf_cons. f_equal; [apply H; [now left|exact Rxy]|]. apply IH. intros u v I. apply H. now right.
Qed.
Lemma filter_pairs {A B} (R : A -> B -> Prop) (p : A -> bool) (q : B -> bool) l l' : Forall2 R l l' -> (forall x y, R x y -> p x = q y) -> Forall2 R (filter p l) (filter q l').
Proof. induction 1 as [|x y l l' Rxy _ IH]; intros H; [constructor|]. cbn [filter]. rewrite <- (H x y Rxy). destruct (p x); [constructor; [exact Rxy|]|]; apply IH; exact H. Qed.
Lemma filter_perm {A} (p : A -> bool) l l' : Permutation l l' -> Permutation (filter p l) (filter p l').
Proof.
  induction 1 as [|x l l' _ IH|x y l|l l' l'' _ IH1 _ IH2]; cbn [filter]; [constructor| | |now transitivity (filter p l')].
  - destruct (p x); [now constructor|exact IH].
  - destruct (p x), (p y); try (now constructor); apply Permutation_refl.
Qed.
Lemma moved_bytes b b' a a' n : (forall j, 0 <= j < n -> b (a + j) = b' (a' + j)) -> bytes_with b a n = bytes_with b' a' n.
Proof.
  unfold bytes_with. intros H. assert (G : forall j, 0 <= j < Z.of_nat (Z.to_nat n) -> b (a + j) = b' (a' + j)) by (intros j J; apply H; lia). clear H. revert a a' G.
  induction (Z.to_nat n) as [|m IH]; intros a a' G; [reflexivity|]. cbn [count]. f_equal.
  - specialize (G 0 ltac:(lia)). rewrite !Z.add_0_r in G. now rewrite G.
  - apply IH. intros j J. specialize (G (1 + j) ltac:(lia)). now rewrite !Z.add_assoc in G.
Qed.

Section Moved.
Variables (k k' : account).
Hypothesis Mv : moved k k'.
(** sums over the output sections and over the input sections of each *)
Lemma sections_sum (f g : printed -> Z) keep keep' : (forall o o', moved_section k k' o o' -> keep o = keep' o') -> (forall o o', keep o = true -> moved_section k k' o o' -> f o = g o') ->
  zsumf f (filter keep (ac_l k)) = zsumf g (filter keep' (ac_l k')).
Proof.
  intros K H. destruct Mv as (_ & l & P & F). rewrite (zsumf_perm _ _ _ (filter_perm keep' _ _ P)). apply (zsumf_pairs (moved_section k k')).
  - exact (filter_pairs _ _ _ _ _ F K).
  - intros o o' Io. apply filter_In in Io. apply H, Io.
Qed.
Lemma items_sum N o o' own (f g : item -> Z) : moved_section k k' o o' -> pr_name o = N -> (forall i i', moved_item (ac_types k) N i i' -> own i = own i') -> (forall i i', moved_item (ac_types k) N i i' -> f i = g i') ->
  zsumf f (filter own (pr_items o)) = zsumf g (filter own (pr_items o')).
Proof.
  intros (_ & _ & _ & _ & is & P & F) <- O H. rewrite (zsumf_perm _ _ _ (filter_perm own _ _ P)). apply (zsumf_pairs (moved_item (ac_types k) (pr_name o))); [exact (filter_pairs _ _ _ _ _ F O)|]. intros i i' _. apply H.
Qed.
Lemma same_types : ac_types k' = ac_types k.
Proof. apply Mv. Qed.
Lemma keep_same keep keep' o o' : (forall o, keep o = true <-> counted (ac_im k) o) -> (forall o, keep' o = true <-> counted (ac_im k') o) -> moved_section k k' o o' -> keep o = keep' o'.
Proof. intros K K' (_ & _ & _ & C & _). apply same_bool. rewrite K, K'. exact C. Qed.
Lemma keep_same_name N keep keep' o o' : (forall o, keep o = true <-> counted (ac_im k) o /\ pr_name o = N) -> (forall o, keep' o = true <-> counted (ac_im k') o /\ pr_name o = N) -> moved_section k k' o o' -> keep o = keep' o'.
Proof. intros K K' (E & _ & _ & C & _). apply same_bool. rewrite K, K', E, C. reflexivity. Qed.
Lemma goes_same N T (b b' : Z -> bool) a a' n : (forall x, b x = true <-> byte_goes (ac_types k) N x T) -> (forall x, b' x = true <-> byte_goes (ac_types k') N x T) -> same_memory (ac_types k) N a a' n ->
  bytes_with b a n = bytes_with b' a' n.
Proof. intros B B' S. apply moved_bytes. intros j J. apply same_bool. rewrite B, B', same_types. exact (S j T J). Qed.
Variable own : item -> bool.
Hypothesis Own : forall i i', it_archive i' = it_archive i -> it_object i' = it_object i -> own i' = own i.
Lemma own_moved_item N i i' : moved_item (ac_types k) N i i' -> own i = own i'.
Proof. intros (A & B & _). symmetry. now apply Own. Qed.
Lemma own_same c n n' : own_bytes own c k n -> own_bytes own c k' n' -> n = n'.
Proof.
  destruct c as [|T|T N]; cbn [own_bytes].
  - intros (keep & K & ->) (keep' & K' & ->). apply sections_sum; [intros o o'; now apply keep_same|]. intros o o' _ M. apply (items_sum (pr_name o)); [exact M|reflexivity|exact (own_moved_item _)|].
    intros i i' (_ & _ & S & _). now rewrite S.
  - intros (keep & b & K & B & ->) (keep' & b' & K' & B' & ->). apply sections_sum; [intros o o'; now apply keep_same|]. intros o o' _ M. apply (items_sum (pr_name o)); [exact M|reflexivity|exact (own_moved_item _)|].
    intros i i' (_ & _ & S & G). rewrite S. apply (goes_same (pr_name o) T); [apply B| |exact G]. intros x. rewrite B'. destruct M as (-> & _). reflexivity.
  - intros (keep & b & K & B & ->) (keep' & b' & K' & B' & ->). apply sections_sum; [intros o o'; now apply (keep_same_name N)|]. intros o o' Ko M. apply K in Ko. destruct Ko as (_ & En). apply (items_sum N); [exact M|exact En|exact (own_moved_item _)|].
    intros i i' (_ & _ & S & G). rewrite S. now apply (goes_same N T).
Qed.
Lemma own_moved c n : own_bytes own c k n <-> own_bytes own c k' n.
Proof.
  split; intros H.
  - destruct (own_value own c k') as (n' & H'). now rewrite (own_same c n n' H H').
  - destruct (own_value own c k) as (n' & H'). now rewrite <- (own_same c n' n H' H).
Qed.
End Moved.

Section Listed.
Variables (k k' : account).
Hypothesis Mv : moved k k'.
Lemma type_moved a T : lists_type a T k <-> lists_type a T k'.
Proof.
  unfold lists_type, listed_type. rewrite (same_types k k' Mv).
  assert (E : forall n n', type_bytes (ac_im k) (ac_types k) (ac_l k) T n -> type_bytes (ac_im k') (ac_types k) (ac_l k') T n' -> n = n').
  { intros n n' (keep & b & K & B & ->) (keep' & b' & K' & B' & ->). apply (sections_sum k k' Mv); [intros o o'; now apply keep_same|]. intros o o' _ (N & S & G & _).
    rewrite S. apply (goes_same k k' Mv (pr_name o) T); [apply B| |exact G]. intros x. rewrite B', N, (same_types k k' Mv). reflexivity. }
  destruct (counted_decided (ac_im k)) as (keep & K), (counted_decided (ac_im k')) as (keep' & K'), (goes_decided (ac_types k)) as (d & D).
  assert (V : exists n, type_bytes (ac_im k) (ac_types k) (ac_l k) T n) by (eexists; exists keep, (fun o x => d (pr_name o) x T); split; [exact K|split; [intros; apply D|reflexivity]]).
  assert (V' : exists n, type_bytes (ac_im k') (ac_types k) (ac_l k') T n) by (eexists; exists keep', (fun o x => d (pr_name o) x T); split; [exact K'|split; [intros; apply D|reflexivity]]).
  destruct V as (v & V), V' as (v' & V'). pose proof (E v v' V V') as Ev.
  split; intros (C & [H|(n & H & Hn)]); (split; [exact C|]); [now left|right; exists v'|now left|right; exists v]; (split; [assumption|]).
  - rewrite <- (E n v' H V'). exact Hn.
  - rewrite (E v n V H). exact Hn.
Qed.
Lemma section_moved T N : lists_section T N k <-> lists_section T N k'.
Proof.
  unfold lists_section.
  assert (E : forall n n', name_bytes T N k n -> name_bytes T N k' n' -> n = n').
  { intros n n' (keep & b & K & B & ->) (keep' & b' & K' & B' & ->). apply (sections_sum k k' Mv); [intros o o'; now apply (keep_same_name k k' N)|]. intros o o' Ko (_ & S & G & _). apply K in Ko. destruct Ko as (_ & En). rewrite En in G.
    rewrite S. now apply (goes_same k k' Mv N T). }
  destruct (counted_decided (ac_im k)) as (keep & K), (counted_decided (ac_im k')) as (keep' & K'), (goes_decided (ac_types k)) as (d & D), (goes_decided (ac_types k')) as (d' & D').
  assert (V : exists n, name_bytes T N k n) by (eexists; exists (fun o => keep o && (pr_name o =?= N)), (fun x => d N x T); split; [intros o; rewrite andb_true_iff, K, keq_eq; reflexivity|split; [intros; apply D|reflexivity]]).
  assert (V' : exists n, name_bytes T N k' n) by (eexists; exists (fun o => keep' o && (pr_name o =?= N)), (fun x => d' N x T); split; [intros o; rewrite andb_true_iff, K', keq_eq; reflexivity|split; [intros; apply D'|reflexivity]]).
  destruct V as (v & V), V' as (v' & V'). split; intros (n & H & Hn).
  - exists v'. split; [exact V'|]. now rewrite <- (E n v' H V').
  - exists v. split; [exact V|]. now rewrite (E v n V H).
Qed.
Lemma places_moved i : places i k -> exists i', places i' k' /\ it_archive i' = it_archive i /\ it_object i' = it_object i.
Proof.
  intros (o & Io & Co & Ii & S). destruct Mv as (_ & l & P & F). destruct (Forall2_In_l _ _ _ _ F Io) as (o' & Io' & _ & _ & _ & C & is & Pi & Fi). destruct (Forall2_In_l _ _ _ _ Fi Ii) as (i' & Ii' & A & B & Z & _).
  exists i'. split; [|now split]. exists o'. split; [exact (Permutation_in _ (Permutation_sym P) Io')|]. split; [now apply C|]. split; [exact (Permutation_in _ (Permutation_sym Pi) Ii')|]. now rewrite Z.
Qed.
Lemma places_back i' : places i' k' -> exists i, places i k /\ it_archive i = it_archive i' /\ it_object i = it_object i'.
Proof.
  intros (o' & Io & Co & Ii & S). destruct Mv as (_ & l & P & F). apply (Permutation_in _ P) in Io. destruct (Forall2_In_r _ _ _ _ F Io) as (o & Io' & _ & _ & _ & C & is & Pi & Fi).
  apply (Permutation_in _ Pi) in Ii. destruct (Forall2_In_r _ _ _ _ Fi Ii) as (i & Ii' & A & B & Z & _).
  exists i. split; [|now split]. exists o. split; [exact Io'|]. split; [now apply C|]. split; [exact Ii'|]. now rewrite <- Z.
Qed.
End Listed.

Lemma row_own_names files j i i' : it_archive i' = it_archive i -> it_object i' = it_object i -> row_own files j i' = row_own files j i.
Proof. intros A B. destruct files; cbn [row_own]; unfold of_object, of_archive; now rewrite A, ?B. Qed.

(** ** the reports *)
Section Same.
Variables (files : bool) (k k' : account) (r : option account) (a : args).
Hypothesis Mv : moved k k'.
Lemma measured_moved j c v : measured k r (own_bytes (row_own files j) c) v <-> measured k' r (own_bytes (row_own files j) c) v.
Proof. unfold measured. rewrite (own_moved k k' Mv (row_own files j) (row_own_names files j)). reflexivity. Qed.
Lemma present_moved P : (P k <-> P k') -> present k r P <-> present k' r P.
Proof. intros H. unfold present. now rewrite H. Qed.
Lemma listed_moved c : listed k r a c <-> listed k' r a c.
Proof.
  destruct c as [|T|T N]; cbn [listed]; [reflexivity| |].
  - apply present_moved, type_moved, Mv.
  - rewrite (present_moved (lists_type a T)) by apply type_moved, Mv. rewrite (present_moved (lists_section T N)) by apply section_moved, Mv. reflexivity.
Qed.
Lemma same_figures j e e' c : entry_right k r a (row_own files j) e -> entry_right k' r a (row_own files j) e' -> col_value e' c = col_value e c.
Proof.
  intros E E'. destruct (row_value _ _ _ _ _ c E) as (A & B), (row_value _ _ _ _ _ c E') as (A' & B'). destruct (listed_dec _ _ _ _ _ c E) as [L|L].
  - specialize (A L). assert (L' : listed k' r a c) by now apply listed_moved. specialize (A' L'). apply (measured_same _ _ _ _ _ _ A'). now apply measured_moved.
  - rewrite (B L). apply B'. intros L'. apply L. now apply listed_moved.
Qed.
End Same.
Lemma file_label files i i' b b' : row_key files i = row_key files i' -> it_archive i' = it_archive i -> it_object i' = it_object i -> after_last "/"%char (row_file files i) b -> after_last "/"%char (row_file files i') b' -> b' = b.
Proof. intros _ A B. destruct files; cbn [row_file]; rewrite ?A, ?B; intros H H'; eapply after_last_unique; eassumption. Qed.
Lemma key_names files i j : (files = true -> ~ In ":"%char (it_object i) /\ ~ In ":"%char (it_object j)) -> row_key files i = row_key files j -> row_file files i = row_file files j.
Proof. intros H E. unfold row_file, row_key in *. destruct files; [|exact E]. destruct (H eq_refl) as (A & B). now destruct (last_unique _ _ _ _ _ E A B) as (_ & ->). Qed.
Lemma key_moved files i i' : it_archive i' = it_archive i -> it_object i' = it_object i -> row_key files i' = row_key files i /\ row_own files i' = row_own files i /\ row_file files i' = row_file files i.
Proof. intros A B. destruct files; cbn [row_key row_own row_file]; rewrite A, ?B; auto. Qed.
Lemma rows_moved files k k' r a rows rows' : (forall i, present k r (places i) -> exists i', present k' r (places i') /\ it_archive i' = it_archive i /\ it_object i' = it_object i) ->
  (forall j c v, measured k r (own_bytes (row_own files j) c) v <-> measured k' r (own_bytes (row_own files j) c) v) ->
  (forall j e e' c, entry_right k r a (row_own files j) e -> entry_right k' r a (row_own files j) e' -> col_value e' c = col_value e c) ->
  tells_files files k' r -> entries_right files k r a rows -> entries_right files k' r a rows' -> rows_in rows rows'.
Proof.
  intros Pl Ms Fg Tf (N & K & R) (N' & K' & R') n e I. destruct (R n e I) as (i & P & En & Ab & Er).
  assert (Df : exists j v, present k r (places j) /\ n = row_key files j /\ measured k r (own_bytes (row_own files j) ColTotal) v /\ differs a v) by (apply K; exact (List.in_map fst _ _ I)).
  destruct Df as (j & v & Pj & Ej & Mj & Dv). destruct (Pl i P) as (i' & Pi' & Ai & Bi). destruct (Pl j Pj) as (j' & Pj' & Aj & Bj). destruct (key_moved files _ _ Ai Bi) as (Ki & Oi & Fi). destruct (key_moved files _ _ Aj Bj) as (Kj & Oj & Fj).
  assert (In' : In n (map fst rows')). { apply K'. exists j', v. split; [exact Pj'|]. rewrite Kj, Oj. split; [exact Ej|]. split; [now apply Ms|exact Dv]. }
  apply List.in_map_iff in In'. destruct In' as ((n' & e') & E & I'). cbn [fst] in E. subst n'. exists e'. split; [exact I'|]. destruct (R' n e' I') as (i2 & P2 & E2 & Ab2 & Er2).
  assert (T2 : files = true -> ~ In ":"%char (it_object i') /\ ~ In ":"%char (it_object i2)) by (intros F; split; now apply (Tf F)).
  assert (Kk : row_key files i' = row_key files i2) by congruence. split.
  - rewrite <- (key_names files i' i2 T2 Kk), Fi in Ab2. eapply after_last_unique; eassumption.
  - intros c. apply (Fg i); [exact Er|]. rewrite <- Oi, (key_own files i' i2 T2 Kk). exact Er2.
Qed.
Lemma moved_same files d c fn k k' r o o' fs fs' s s' render encode ord pf :
  reported d c k r -> reported d (with_input c fn) k' r -> moved k k' -> asked files (c_args c) -> (given (a_archive_details (c_args c)) = true -> a_use_dwarf (c_args c) <> Some true) ->
  tells_files files k r -> a_format (c_args c) = FJson2 ->
  run_files d (get_memory_types chip_info) render encode ord pf c o (start fs) = (Done tt, s) ->
  run_files d (get_memory_types chip_info) render encode ord pf (with_input c fn) o' (start fs') = (Done tt, s') ->
  exists rows rows', s_printed s = [PEntries rows] /\ s_printed s' = [PEntries rows'] /\ rows_in rows rows' /\ rows_in rows' rows.
Proof.
  intros Rp Rp' Mv As Dw Tf Fo R R'.
  assert (Tf' : tells_files files k' r).
  { intros F i [P|P]; [|apply (Tf F); now right]. destruct (places_back k k' Mv i P) as (i0 & P0 & _ & <-). apply (Tf F). now left. }
  destruct (entries_json d c k r o files fs s render encode ord pf Rp As Dw Tf Fo R) as (rows & P & E & _).
  destruct (entries_json d (with_input c fn) k' r o' files fs' s' render encode ord pf Rp' As Dw Tf' Fo R') as (rows' & P' & E' & _).
  exists rows, rows'. split; [exact P|]. split; [exact P'|]. split.
  - apply (rows_moved files k k' r (c_args c)); [|apply (measured_moved files k k' r Mv)|apply (same_figures files k k' r (c_args c) Mv)|exact Tf'|exact E|exact E'].
    intros i [Pi|Pi]; [|exists i; split; [now right|now split]]. destruct (places_moved k k' Mv i Pi) as (i' & Pi' & H). exists i'. split; [now left|exact H].
  - apply (rows_moved files k' k r (c_args c)); [| | |exact Tf|exact E'|exact E].
    + intros i [Pi|Pi]; [|exists i; split; [now right|now split]]. destruct (places_back k k' Mv i Pi) as (i' & Pi' & H). exists i'. split; [now left|exact H].
    + intros j c0 v. symmetry. apply (measured_moved files k k' r Mv).
    + intros j e e' c0 X Y. symmetry. exact (same_figures files k k' r (c_args c) Mv j e' e c0 Y X).
Qed.
Lemma moved_nothing files d c k k' o fs s render encode ord pf :
  reported d c k (Some k') -> moved k k' -> asked files (c_args c) -> (given (a_archive_details (c_args c)) = true -> a_use_dwarf (c_args c) <> Some true) ->
  tells_files files k (Some k') -> a_format (c_args c) = FJson2 ->
  run_files d (get_memory_types chip_info) render encode ord pf c o (start fs) = (Done tt, s) ->
  exists rows, s_printed s = [PEntries rows] /\ (a_show_unchanged (c_args c) = false -> rows = []) /\
    forall n e c, In (n, e) rows -> snd (col_value e c) = 0.
Proof.
  intros Rp Mv As Dw Tf Fo R. destruct (entries_json d c k (Some k') o files fs s render encode ord pf Rp As Dw Tf Fo R) as (rows & P & (N & K & E) & _).
  assert (Z0 : forall j c v, measured k (Some k') (own_bytes (row_own files j) c) v -> snd v = 0).
  { intros j c0 v (A & n' & B & ->). rewrite (own_same k k' Mv (row_own files j) (row_own_names files j) c0 _ _ A B). lia. }
  exists rows. split; [exact P|]. split.
  - intros U. destruct rows as [|(n & e) rows]; [reflexivity|]. exfalso.
    destruct (proj1 (K n) (or_introl eq_refl)) as (i & v & _ & _ & M & Df). apply Df; [|exact U|exact (Z0 _ _ _ M)].
    destruct Rp as (_ & (fn & -> & Pa) & _). exact (project_given _ _ _ _ Pa).
  - intros n e c0 I. destruct (E n e I) as (i & _ & _ & _ & Er). destruct (row_value _ _ _ _ _ c0 Er) as (A & B). destruct (listed_dec _ _ _ _ _ c0 Er) as [L|L]; [exact (Z0 _ _ _ (A L))|now rewrite (B L)].
Qed.
