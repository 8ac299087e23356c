From Coq Require Import Ascii String List ZArith Bool Lia Sorting.Sorted Permutation.
From Verif Require Import Base MemMap SpecTree Pipeline PyStr SpecPipe SpecBuild SpecBytes ProofBytes ProofBytes3 ProofExpand ProofGet Project SpecProject SpecShape ProofShape SpecOwner ProofOwner SpecLto ProofLto1.
Import ListNotations.
Open Scope list_scope.
Open Scope Z_scope.

(** ** sorted without repetition *)
Lemma ss_in {A} (R R' : A -> A -> Prop) l : (forall x y, In x l -> In y l -> R x y -> R' x y) -> StronglySorted R l -> StronglySorted R' l.
Proof.
  intros H S0. induction S0 as [|a l S0 IH F]; constructor.
  - apply IH. intros x y Ix Iy. apply H; now right.
  - rewrite Forall_forall in *. intros y Iy. apply H; [now left|now right|auto].
Qed.
Lemma ss_strict {A} (key : A -> Z) l : StronglySorted (ordered key false) l -> NoDup (map key l) -> StronglySorted (fun x y => key x < key y) l.
Proof.
  induction 1 as [|a l S0 IH F]; cbn [map]; intros N; [constructor|]. inversion N as [|? ? N1 N2]; subst. constructor; [auto|].
  rewrite Forall_forall in *. intros y Iy. specialize (F y Iy). unfold ordered in F. assert (key a <> key y) by (intros E; apply N1; rewrite E; now apply List.in_map). lia.
Qed.
Lemma nodup_flat {A B} (g : A -> list B) (ka : A -> Z) (kb : B -> Z) (p : A -> bool) l :
  (forall a, In a l -> (length (g a) <= 1)%nat /\ forall b, In b (g a) -> kb b = ka a) -> NoDup (map ka l) -> NoDup (map kb (flat_map g (filter p l))).
Proof.
  intros H. induction l as [|a l IH]; cbn [map filter flat_map]; intros N; [constructor|]. inversion N as [|? ? N1 N2]; subst.
  assert (IH' : NoDup (map kb (flat_map g (filter p l)))) by (apply IH; [intros x Ix; apply H; now right|exact N2]).
  destruct (p a); [|exact IH']. cbn [flat_map]. rewrite map_app. destruct (H a (or_introl eq_refl)) as (L1 & K).
  destruct (g a) as [|b [|c r]]; cbn [length] in L1; [exact IH'| |lia]. cbn [map app]. constructor; [|exact IH'].
  intros I. apply List.in_map_iff in I. destruct I as (b' & E & I). apply in_flat_map in I. destruct I as (a' & Ia & Ib). apply filter_In in Ia. destruct Ia as (Ia & _).
  rewrite (proj2 (H a' (or_intror Ia)) b' Ib) in E. rewrite (K b (or_introl eq_refl)) in E. apply N1. rewrite <- E. now apply List.in_map.
Qed.

Section Expand.
Variables (symbols : dict Z cusym) (comps : list component).
Hypotheses (Ok : symbols_ok comps (map usym_of symbols)) (Va : forall p, In p symbols -> cu_value (snd p) = fst p).

Definition longest := py_sorted (fun c => Z.of_nat (length (comp_path c))) true comps.
Definition owner (y : usym) : option (str * str) :=
  match find_symbol_component longest (us_path y) with Some c => Some (comp_archive c, basename (us_path y)) | None => None end.

Lemma owner_some p c : In p symbols -> find_symbol_component longest (cu_name (snd p)) = Some c -> innermost comps (cu_name (snd p)) c.
Proof.
  intros Ip F. destruct (find_longest _ _ _ _ (py_sorted_sorted _ true comps) F) as (Ic & Pc & M). apply py_sorted_In in Ic. apply startswith_ok in Pc.
  split; [exact Ic|]. split; [exact (so_dirs _ _ Ok (usym_of p) c (List.in_map _ _ _ Ip) Ic Pc)|]. intros c' I' W'.
  enough (Z.of_nat (length (comp_path c')) <= Z.of_nat (length (comp_path c))) by lia.
  apply M; [now apply py_sorted_In|]. apply startswith_ok. now apply within_start.
Qed.
Lemma owner_none y : find_symbol_component longest (us_path y) = None -> ~ in_component comps y.
Proof.
  intros F (c & Ic & W). unfold find_symbol_component in F. pose proof (find_none _ _ F c) as N. cbn beta in N.
  assert (startswith (comp_path c) (us_path y) = true) by (apply startswith_ok; now apply within_start).
  rewrite N in *; [discriminate|]. now apply py_sorted_In.
Qed.
Lemma owners_ok : owners comps owner (map usym_of symbols).
Proof.
  intros y Iy. apply List.in_map_iff in Iy. destruct Iy as (p & <- & Ip). unfold owner. cbn [usym_of us_path].
  destruct (find_symbol_component longest (cu_name (snd p))) as [c|] eqn:F; [|exact (owner_none (usym_of p) F)].
  exists c. split; [now apply owner_some|]. split; [reflexivity|]. apply basename_after.
Qed.

(** ** the symbols that are offered *)
Definition offer (p : Z * cusym) : list (Z * asym) :=
  match find_symbol_component longest (cu_name (snd p)) with
  | Some c => [(fst p, ASym (cu_sname (snd p)) (cu_value (snd p)) (cu_size (snd p)) (comp_archive c) (basename (cu_name (snd p))))]
  | None => []
  end.
Lemma sized_sym p : In p symbols -> 0 < cu_size (snd p) /\ cu_name (snd p) <> [].
Proof. intros Ip. exact (so_size _ _ Ok (usym_of p) (List.in_map _ _ _ Ip)). Qed.
Lemma offered_eq : archive_symbols symbols comps = py_sorted fst false (flat_map offer symbols).
Proof.
  unfold archive_symbols. fold longest. f_equal.
  assert (E : filter (fun kv => negb (cu_size (snd kv) =? 0) && negb (cu_name (snd kv) =?= [])) symbols = symbols).
  { pose proof sized_sym as H. clear Ok Va. induction symbols as [|p q IH]; [reflexivity|]. cbn [filter]. destruct (H p (or_introl eq_refl)) as (H1 & H2).
    replace (cu_size (snd p) =? 0) with false by (symmetry; apply Z.eqb_neq; lia). destruct (keqP (cu_name (snd p)) []); [contradiction|]. cbn [negb andb].
    f_equal. apply IH. intros x Ix. apply H. now right. }
  rewrite E. reflexivity.
Qed.
Lemma offered_In q : In q (archive_symbols symbols comps) <-> exists p c, In p symbols /\ find_symbol_component longest (cu_name (snd p)) = Some c /\
  q = (fst p, ASym (cu_sname (snd p)) (cu_value (snd p)) (cu_size (snd p)) (comp_archive c) (basename (cu_name (snd p)))).
Proof.
  rewrite offered_eq, py_sorted_In, in_flat_map. unfold offer. split.
  - intros (p & Ip & J). destruct (find_symbol_component longest (cu_name (snd p))) as [c|] eqn:F; [|destruct J]. destruct J as [<-|[]]. eauto.
  - intros (p & c & Ip & F & ->). exists p. split; [exact Ip|]. rewrite F. now left.
Qed.
Lemma offered_sized : Forall sized (archive_symbols symbols comps).
Proof.
  apply Forall_forall. intros q Iq. apply offered_In in Iq. destruct Iq as (p & c & Ip & F & ->). split; cbn; [now apply Va|]. now apply sized_sym.
Qed.
Lemma some_in p c : In p symbols -> find_symbol_component longest (cu_name (snd p)) = Some c -> in_component comps (usym_of p).
Proof. intros Ip F. destruct (owner_some p c Ip F) as (Ic & W & _). now exists c. Qed.
Lemma in_some p : in_component comps (usym_of p) -> exists c, find_symbol_component longest (cu_name (snd p)) = Some c.
Proof. intros I. destruct (find_symbol_component longest (cu_name (snd p))) as [c|] eqn:F; [now exists c|]. destruct (owner_none (usym_of p) F I). Qed.
Lemma offered_sorted : StronglySorted behind (archive_symbols symbols comps).
Proof.
  assert (N : NoDup (map fst (archive_symbols symbols comps))).
  { rewrite offered_eq. eapply Permutation_NoDup; [apply Permutation_map, py_sorted_perm|].
    pose proof (so_once _ _ Ok) as N. rewrite map_map in N.
    assert (N' : NoDup (map (@fst Z cusym) symbols)) by exact N.
    pose proof (nodup_flat offer fst fst (fun _ => true) symbols) as G.
    replace (filter (fun _ : Z * cusym => true) symbols) with symbols in G by (clear; induction symbols as [|p q IH]; cbn; congruence).
    apply G; [|exact N']. intros p Ip. unfold offer. destruct (find_symbol_component _ _); cbn [length]; (split; [lia|]); [intros b [<-|[]]; reflexivity|intros b []]. }
  apply ss_in with (R := fun p q : Z * asym => fst p < fst q).
  - intros q q' Iq Iq' Lt. apply offered_In in Iq, Iq'. destruct Iq as (p & c & Ip & F & ->), Iq' as (p' & c' & Ip' & F' & ->). unfold behind. cbn [fst snd av_size] in *.
    exact (so_apart _ _ Ok (usym_of p) (usym_of p') (List.in_map _ _ _ Ip) (List.in_map _ _ _ Ip') (some_in _ _ Ip F) (some_in _ _ Ip' F') Lt).
  - apply ss_strict; [|exact N]. rewrite offered_eq. apply py_sorted_sorted.
Qed.
Lemma ready_ok i : 0 <= i_size i -> i_archive i = EXE -> followed comps (map usym_of symbols) i -> ready (archive_symbols symbols comps) i.
Proof.
  intros Z0 A ((y & Iy & Cy & Ey) & H). split; [exact offered_sorted|]. split; [exact offered_sized|]. split; [exact Z0|]. split; [exact A|].
  split.
  - apply List.in_map_iff in Iy. destruct Iy as (p & <- & Ip). destruct (in_some p Cy) as (c & F).
    eexists. split; [apply offered_In; exists p, c; split; [exact Ip|]; split; [exact F|reflexivity]|]. exact Ey.
  - intros q Iq B. apply offered_In in Iq. destruct Iq as (p & c & Ip & F & ->). cbn [fst snd av_size] in *.
    exact (H (usym_of p) (List.in_map _ _ _ Ip) (some_in _ _ Ip F) B).
Qed.

(** ** sums *)
Lemma offered_sum P f i :
  zsumf (sweight P f) (filter (inb i) (archive_symbols symbols comps)) = owned_bytes owner (map usym_of symbols) P f i.
Proof.
  unfold owned_bytes. rewrite !zsumf_filter, offered_eq. rewrite <- (zsumf_perm _ _ _ (py_sorted_perm fst false _)). rewrite zsumf_flat_map, zsumf_map.
  apply zsumf_ext. intros p Ip. unfold offer, owner. cbn [usym_of us_path us_addr us_size].
  destruct (find_symbol_component longest (cu_name (snd p))) as [c|]; [|rewrite zsumf_nil, andb_false_r; reflexivity].
  rewrite zsumf_cons, zsumf_nil, Z.add_0_r. unfold sweight, sbytes, inb, starts_in. cbn [usym_of fst snd av_archive av_object av_size us_addr].
  destruct ((i_addr i <=? fst p) && (fst p <? i_addr i + i_size i)); [|reflexivity]. cbn [andb]. reflexivity.
Qed.
Lemma given_ok P f i : item_weight P f (archive_symbols symbols comps) i = given_bytes owner (map usym_of symbols) P f i.
Proof.
  unfold item_weight, given_bytes, left_over, weight. fold EXE. destruct (i_archive i =?= EXE); [|reflexivity].
  rewrite <- !offered_sum. reflexivity.
Qed.
Definition suited (i : isection) : Prop := 0 <= i_size i /\ 0 <= i_fill i /\ (optimised i -> followed comps (map usym_of symbols) i).
Lemma osec_given P f s : Forall suited (o_isecs s) ->
  zsumf (weight P f) (o_isecs (expand_osec (archive_symbols symbols comps) s)) = zsumf (given_bytes owner (map usym_of symbols) P f) (o_isecs s).
Proof.
  intros F. rewrite Forall_forall in F. rewrite expand_osec_weight.
  - apply zsumf_ext. intros i _. apply given_ok.
  - intros i Ii E. destruct (F i Ii) as (Z0 & _ & Fo). apply ready_ok; auto.
Qed.
Lemma osec_all (Q : isection -> Prop) s : Forall suited (o_isecs s) ->
  (forall j g, Q j -> 0 <= g -> Q (refill j g)) ->
  (forall i, In i (o_isecs s) -> i_archive i <> EXE -> Q i) ->
  (forall i j, In i (o_isecs s) -> i_archive i = EXE -> i_archive j = EXE -> i_object j = i_object i -> i_addr i <= i_addr j -> 0 <= i_size j -> i_addr j + i_size j <= i_addr i + i_size i -> 0 <= i_fill j -> Q j) ->
  (forall i p, In i (o_isecs s) -> i_archive i = EXE -> In p (archive_symbols symbols comps) -> sized p -> inb i p = true -> fst p + av_size (snd p) <= i_addr i + i_size i -> Q (isec_of_asym (snd p))) ->
  Forall Q (o_isecs (expand_osec (archive_symbols symbols comps) s)).
Proof.
  intros F Qf H1 H2 H3. rewrite Forall_forall in F. apply expand_osec_all; try assumption.
  intros i Ii. destruct (F i Ii) as (Z0 & Fi & Fo). split; [exact Fi|]. intros E. apply ready_ok; auto.
Qed.
Lemma expanded_in s : isecs_in s -> Forall suited (o_isecs s) -> isecs_in (expand_osec (archive_symbols symbols comps) s).
Proof.
  intros In0 F. unfold isecs_in in *. cbn [expand_osec set_isecs o_addr o_size]. rewrite Forall_forall in In0.
  apply osec_all; [exact F| | | |].
  - intros j g (A & _ & B) G. cbn [refill i_size i_fill i_addr]. auto.
  - intros i Ii _. now apply In0.
  - intros i j Ii _ _ _ A B C D. specialize (In0 i Ii). lia.
  - intros i p Ii _ Ip (V & Sz) B En. specialize (In0 i Ii). apply inb_spec in B. cbn [isec_of_asym i_size i_fill i_addr]. lia.
Qed.
Lemma expanded_parts s : Forall suited (o_isecs s) ->
  Forall (fun j => i_size j <> 0 -> exists i, In i (o_isecs s) /\ has_part owner (map usym_of symbols) i (i_archive j) (i_object j)) (o_isecs (expand_osec (archive_symbols symbols comps) s)).
Proof.
  intros F. apply osec_all; [exact F| | | |].
  - intros j g H _. exact H.
  - intros i Ii _ N. exists i. split; [exact Ii|]. left. auto.
  - intros i j Ii E1 E2 Eo A B C D N. exists i. split; [exact Ii|]. left. split; [congruence|]. split; [congruence|]. lia.
  - intros i p Ii E1 Ip _ B _ N. exists i. split; [exact Ii|]. right. split; [exact E1|]. apply offered_In in Ip. destruct Ip as (q & c & Iq & Fc & ->).
    exists (usym_of q). split; [now apply List.in_map|]. split; [exact B|]. unfold owner. cbn [usym_of us_path]. now rewrite Fc.
Qed.
Lemma expanded_listed d T s entry : Forall suited (o_isecs s) ->
  listed_as d T (expand_osec (archive_symbols symbols comps) s) entry -> listed_optimised owner (map usym_of symbols) d T s entry.
Proof.
  intros F. unfold listed_as, listed_optimised. cbn [expand_osec set_isecs o_name o_addr o_size]. destruct entry as [x|]; [|auto].
  intros (A & B & C & D & E). split; [exact A|]. split; [exact B|]. split; [|split].
  - intros a. rewrite C. unfold archive_bytes_with. rewrite zsumf_filter. rewrite <- osec_given by exact F. reflexivity.
  - intros a o. rewrite D. unfold object_bytes_with. rewrite zsumf_filter. rewrite <- osec_given by exact F. reflexivity.
  - pose proof (expanded_parts s F) as Pa. rewrite Forall_forall in Pa.
    intros a y G. destruct (E a y G) as ((i & Ii & <- & N) & E2). split.
    + destruct (Pa i Ii N) as (i0 & I0 & H). eauto.
    + intros o z G2. destruct (E2 o z G2) as (i' & Ii' & <- & <- & N'). exact (Pa i' Ii' N').
Qed.
End Expand.

(** ** at [get] *)
Lemma get_expanded w ls ud ma ea m mf' mf e pd : get w ls ud ma ea = Ok (m, mf') -> map_file_of w ma mf -> w_elf w = Ok (Some e) -> w_proj_desc w = Some pd -> wants_dwarf ud w true ->
  exists mf2, get w ls (Some false) (Some (MapFile (mf_target mf) (mf_regions mf) (expand_input_sections (mf_sections mf) (pd_components pd) e))) ea = Ok (m, mf2).
Proof.
  intros E Lm Le Lp Df. apply wants_flag in Df. unfold get in E. rewrite (load_of _ _ _ Lm) in E. cbn [bind] in E. rewrite Le, Lp, Df in E. cbn [bind] in E.
  unfold get. cbn [load_mapfile bind]. rewrite Le, Lp. cbn [bind dwarf_flag mf_target mf_regions mf_sections].
  assert (Pt : pick_target (Some pd) (MapFile (mf_target mf) (mf_regions mf) (expand_input_sections (mf_sections mf) (pd_components pd) e)) = pick_target (Some pd) mf) by reflexivity.
  rewrite Pt. destruct (pick_target (Some pd) mf); [|discriminate]. cbn [bind] in *. destruct (w_memory_types w _); [|discriminate]. cbn [bind] in *.
  destruct (build _ _ _ _ _); [|discriminate]. cbn [bind] in *. injection E as <- _. eexists. reflexivity.
Qed.
Lemma filter_map_comm {A B} (g : A -> B) (p : B -> bool) l : filter p (map g l) = map g (filter (fun x => p (g x)) l).
Proof. induction l as [|x l IH]; [reflexivity|]. cbn [map filter]. destruct (p (g x)); cbn [map]; now rewrite IH. Qed.

Lemma optimised_bytes w ls ud ma ea m mf' mf e pd types :
  get w ls ud ma ea = Ok (m, mf') -> map_file_of w ma mf -> w_elf w = Ok (Some e) -> w_proj_desc w = Some pd -> w_memory_types w (m_target m) = Ok types ->
  wants_dwarf ud w true -> windows_separate types -> Forall (fun r => 0 <= r_length r) (mf_regions mf) ->
  (forall p, In p (elf_cusyms e) -> cu_value (snd p) = fst p) ->
  let syms := map usym_of (elf_cusyms e) in
  symbols_ok (pd_components pd) syms ->
  Forall (fun s => kept (Some e) s -> optimised_section (mf_regions mf) types (pd_components pd) syms s) (mf_sections mf) ->
  exists keep d own, (forall s, keep s = true <-> kept (Some e) s) /\ (forall n a T, d n a T = true <-> byte_goes types n a T) /\ owners (pd_components pd) own syms /\
    (NoDup (map o_name (filter keep (mf_sections mf))) ->
     forall T t, dget T (m_types m) = Some t ->
      (forall s, In s (mf_sections mf) -> kept (Some e) s -> listed_optimised own syms d T s (dget (o_name s) (t_sections t))) /\
      (forall n x, dget n (t_sections t) = Some x -> exists s, In s (mf_sections mf) /\ kept (Some e) s /\ o_name s = n)).
Proof.
  intros E Lm Le Lp Ty Df Sep Rl Va syms So F. destruct (get_expanded _ _ _ _ _ _ _ _ _ _ E Lm Le Lp Df) as (mf2 & E2).
  set (L := archive_symbols (elf_cusyms e) (pd_components pd)).
  assert (Su : forall s, optimised_section (mf_regions mf) types (pd_components pd) syms s -> Forall (suited (elf_cusyms e) (pd_components pd)) (o_isecs s)).
  { intros s (_ & _ & _ & Is & Fo). unfold isecs_in in Is. rewrite Forall_forall in *. intros i Ii. specialize (Is i Ii). specialize (Fo i Ii). unfold suited. tauto. }
  destruct (section_bytes_ok w ls (Some false) (Some (MapFile (mf_target mf) (mf_regions mf) (expand_input_sections (mf_sections mf) (pd_components pd) e))) ea m mf2 _ (Some e) types E2 eq_refl Le Ty) as (keep & d & K & B & U).
  - now left.
  - exact Sep.
  - exact Rl.
  - cbn [mf_sections mf_regions]. unfold expand_input_sections. apply Forall_map. eapply Forall_impl; [|exact F]. intros s Fs Ks. cbn beta in Fs.
    assert (Ks' : kept (Some e) s) by (eapply keep_name_size; [| |exact Ks]; reflexivity). specialize (Fs Ks'). pose proof (Su s Fs) as Ss. destruct Fs as (F1 & F2 & F3 & F4 & F5).
    split; [exact F1|]. split; [exact F2|]. split; [exact F3|]. apply expanded_in; assumption.
  - exists keep, d, (owner (pd_components pd)). split; [exact K|]. split; [exact B|]. split; [now apply owners_ok|].
    intros N T t Gt. cbn [mf_sections] in U. unfold expand_input_sections in U. fold L in U.
    assert (Kx : forall s, keep (expand_osec L s) = keep s) by (intros s; apply eq_true_iff_eq; rewrite !K; split; apply keep_name_size; reflexivity).
    destruct U with (T := T) (t := t) as (U1 & U2); [|exact Gt|].
    + rewrite filter_map_comm, map_map. erewrite filter_ext; [exact N|exact Kx].
    + split.
      * intros s Is Ks. apply expanded_listed; [assumption|assumption| |].
        -- apply Su. rewrite Forall_forall in F. auto.
        -- apply (U1 (expand_osec L s)); [now apply List.in_map|]. eapply keep_name_size; [| |exact Ks]; reflexivity.
      * intros n x G. destruct (U2 n x G) as (s & Is & Ks & <-). apply List.in_map_iff in Is. destruct Is as (s0 & <- & I0). exists s0. split; [exact I0|].
        split; [|reflexivity]. eapply keep_name_size; [| |exact Ks]; reflexivity.
Qed.
