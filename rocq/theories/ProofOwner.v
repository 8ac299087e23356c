From Coq Require Import Ascii String List ZArith Bool Lia Sorting.Sorted.
From Verif Require Import Base MemMap SpecTree Pipeline PyStr SpecPipe SpecBuild ProofGet Project SpecProject ProofProject1 ProofProject2 SpecOwner.
Import ListNotations.
Open Scope list_scope.
Open Scope Z_scope.

Lemma startswith_ok p s : startswith p s = true <-> same_start p s.
Proof.
  unfold same_start. revert s. induction p as [|c p IH]; intros s; cbn [startswith].
  - split; [now exists s|reflexivity].
  - destruct s as [|x s]; cbn [app].
    + split; [discriminate|intros (r & E); discriminate].
    + rewrite andb_true_iff, IH. split.
      * intros (E & r & ->). apply keq_eq in E. subst. now exists r.
      * intros (r & E). injection E as -> ->. split; [apply keq_refl|now exists r].
Qed.
Lemma within_start d f : within d f -> same_start d f.
Proof. intros (r & ->). now exists ("/"%char :: r). Qed.

Section Sorted.
Context {A : Type} (key : A -> Z) (P : A -> bool).
Lemma find_longest l x : StronglySorted (ordered key true) l -> find P l = Some x ->
  In x l /\ P x = true /\ forall y, In y l -> P y = true -> key y <= key x.
Proof.
  induction 1 as [|a l S0 IH F]; [discriminate|]. cbn [find]. destruct (P a) eqn:Pa.
  - intros [= <-]. split; [now left|]. split; [exact Pa|]. intros y [->|I] _; [lia|]. rewrite Forall_forall in F. specialize (F y I).
    unfold ordered in F. lia.
  - intros E. destruct (IH E) as (I & Px & M). split; [now right|]. split; [exact Px|]. intros y [->|J] Py; [congruence|]. now apply M.
Qed.
End Sorted.

Lemma owner_ok symbols comps a s :
  In (a, s) symbols -> cu_size s <> 0 -> cu_name s <> [] ->
  (forall c, In c comps -> same_start (comp_path c) (cu_name s) -> within (comp_path c) (cu_name s)) ->
  (exists c, In c comps /\ within (comp_path c) (cu_name s)) ->
  exists c, innermost comps (cu_name s) c /\
    In (a, ASym (cu_sname s) (cu_value s) (cu_size s) (comp_archive c) (basename (cu_name s))) (archive_symbols symbols comps).
Proof.
  intros I Sz Nm H (c0 & I0 & W0). unfold archive_symbols. set (srt := py_sorted _ true comps).
  destruct (find_symbol_component srt (cu_name s)) as [c|] eqn:F.
  - exists c. destruct (find_longest _ _ _ _ (py_sorted_sorted _ true comps) F) as (Ic & Pc & M).
    apply py_sorted_In in Ic. apply startswith_ok in Pc. split.
    + split; [exact Ic|]. split; [now apply H|]. intros c' I' W'. enough (Z.of_nat (length (comp_path c')) <= Z.of_nat (length (comp_path c))) by lia.
      apply M; [now apply py_sorted_In|]. apply startswith_ok. now apply within_start.
    + apply py_sorted_In. apply in_flat_map. exists (a, s). split; [|cbn [fst snd]; rewrite F; now left].
      apply filter_In. split; [exact I|]. cbn [snd]. apply Z.eqb_neq in Sz. rewrite Sz. cbn [negb andb].
      destruct (keqP (cu_name s) []); [contradiction|reflexivity].
  - exfalso. unfold find_symbol_component in F. pose proof (find_none _ _ F c0) as N. cbn beta in N.
    assert (startswith (comp_path c0) (cu_name s) = true) by (apply startswith_ok; now apply within_start).
    rewrite N in *; [discriminate|]. now apply py_sorted_In.
Qed.
Lemma no_owner_ok symbols comps a y :
  In (a, y) (archive_symbols symbols comps) ->
  exists s c, In (a, s) symbols /\ cu_size s <> 0 /\ In c comps /\ same_start (comp_path c) (cu_name s) /\
    y = ASym (cu_sname s) (cu_value s) (cu_size s) (comp_archive c) (basename (cu_name s)).
Proof.
  unfold archive_symbols. intros I. apply py_sorted_In, in_flat_map in I. destruct I as ([a' s] & I & J). cbn [fst snd] in J.
  destruct (find_symbol_component _ _) as [c|] eqn:F; [|contradiction]. destruct J as [J|[]]. injection J as <- <-.
  apply filter_In in I. destruct I as (I & K). cbn [snd] in K. apply andb_true_iff in K. destruct K as (K & _).
  apply find_some in F. destruct F as (Ic & St). apply py_sorted_In in Ic. exists s, c. repeat split; try assumption.
  - intros E. rewrite E in K. discriminate.
  - now apply startswith_ok.
Qed.

(** ** what the sections of link time optimisation are expanded to *)
Definition from_sym (y : asym) (j : isection) : Prop :=
  i_name j = av_name y /\ i_addr j = av_value y /\ i_size j = av_size y /\ i_archive j = av_archive y /\ i_object j = av_object y.
Definition origin (symbols : dict Z asym) (l : list isection) (j : isection) : Prop :=
  (exists i, In i l /\ i_archive j = i_archive i /\ i_object j = i_object i) \/ exists a y, In (a, y) symbols /\ from_sym y j.
Lemma set_last_fill_In f l j : In j (set_last_fill f l) -> exists i, In i l /\ i_name j = i_name i /\ i_addr j = i_addr i /\ i_size j = i_size i /\
  i_archive j = i_archive i /\ i_object j = i_object i.
Proof.
  unfold set_last_fill. destruct (rev l) as [|x r] eqn:E; [intros []|]. intros I. apply in_app_or in I. destruct I as [I|[<-|[]]].
  - exists j. split; [|auto 6]. apply in_rev. rewrite E. right. now apply in_rev.
  - exists x. split; [|cbn; auto 6]. apply in_rev. rewrite E. now left.
Qed.
Lemma set_last_fill_origin all l f acc j : (forall i, In i acc -> origin all l i) -> In j (set_last_fill f acc) -> origin all l j.
Proof.
  intros H I. destruct (set_last_fill_In _ _ _ I) as (i & Ii & N & A & Z0 & R & O). destruct (H i Ii) as [(i0 & I0 & R0 & O0)|(a & y & Iy & F)].
  - left. exists i0. split; [exact I0|]. now rewrite R, O.
  - right. exists a, y. split; [exact Iy|]. unfold from_sym in *. now rewrite N, A, Z0, R, O.
Qed.
Lemma expand_isec_origin all l : forall symbols i acc,
  (forall a y, In (a, y) symbols -> In (a, y) all) -> (exists i0, In i0 l /\ i_archive i = i_archive i0 /\ i_object i = i_object i0) -> i_archive i = EXE ->
  (forall j, In j acc -> origin all l j) -> forall j, In j (expand_isec symbols i acc) -> origin all l j.
Proof.
  induction symbols as [|[a y] symbols IH]; intros i acc Sub Hi He Ha j I; cbn [expand_isec] in I; [now apply Ha|].
  assert (Sub' : forall a' y', In (a', y') symbols -> In (a', y') all) by (intros; apply Sub; now right).
  assert (Oy : origin all l (isec_of_asym y)) by (right; exists a, y; split; [apply Sub; now left|repeat split]).
  destruct (a <? i_addr i); [now apply IH in I|]. destruct ((a =? i_addr i) && _).
  { eapply IH; [exact Sub'| | | |exact I]; try assumption. intros j' J. apply in_app_or in J. destruct J as [J|[<-|[]]]; [now apply Ha|exact Oy]. }
  destruct (a <? i_addr i + i_size i).
  { eapply IH; [exact Sub'| | | |exact I]; try assumption. intros j' J. apply in_app_or in J. destruct J as [J|[<-|[<-|[]]]]; [now apply Ha| |exact Oy].
    left. destruct Hi as (i0 & I0 & A0 & O0). exists i0. split; [exact I0|]. cbn [resize_isec i_archive i_object]. now rewrite <- He. }
  destruct (negb (i_size i =? 0) || _).
  - apply in_app_or in I. destruct I as [I|[<-|[]]]; [now apply Ha|now left].
  - exact (set_last_fill_origin all l _ _ _ Ha I).
Qed.
Lemma expand_osec_origin symbols s j : In j (o_isecs (expand_osec symbols s)) -> origin symbols (o_isecs s) j.
Proof.
  unfold expand_osec. cbn [set_isecs o_isecs].
  assert (G : forall l acc, (forall i, In i l -> In i (o_isecs s)) -> (forall j, In j acc -> origin symbols (o_isecs s) j) ->
    In j (fold_left (fun acc i => if negb (i_archive i =?= EXE) then acc ++ [i] else expand_isec symbols i acc) l acc) -> origin symbols (o_isecs s) j).
  { induction l as [|i l IH]; intros acc Sub Ha I; cbn [fold_left] in I; [now apply Ha|].
    refine (IH _ _ _ I); [intros; apply Sub; now right|]. destruct (keqP (i_archive i) EXE) as [E|E]; cbn [negb].
    - intros j' J. refine (expand_isec_origin symbols (o_isecs s) symbols i acc _ _ E Ha j' J); [auto|]. exists i. split; [apply Sub; now left|auto].
    - intros j' J. apply in_app_or in J. destruct J as [J|[<-|[]]]; [now apply Ha|]. left. exists i. split; [apply Sub; now left|auto]. }
  apply G; [auto|intros ? []].
Qed.

(** ** at [get] *)
Lemma get_owner w ls ud m mf' mf e pd :
  get w ls ud None None = Ok (m, mf') -> w_mapfile w = Ok mf -> w_elf w = Ok (Some e) -> w_proj_desc w = Some pd -> wants_dwarf ud w true ->
  (forall a s c, In (a, s) (elf_cusyms e) -> In c (pd_components pd) -> same_start (comp_path c) (cu_name s) -> within (comp_path c) (cu_name s)) ->
  forall s i, In s (mf_sections mf') -> In i (o_isecs s) ->
    (exists s0 i0, In s0 (mf_sections mf) /\ o_name s0 = o_name s /\ In i0 (o_isecs s0) /\ i_archive i = i_archive i0 /\ i_object i = i_object i0) \/
    (exists a y c, In (a, y) (elf_cusyms e) /\ innermost (pd_components pd) (cu_name y) c /\ i_archive i = comp_archive c /\
       i_object i = basename (cu_name y) /\ i_name i = cu_sname y /\ i_addr i = cu_value y /\ i_size i = cu_size y).
Proof.
  intros E Lm Le Lp Df H s i Is Ii. apply wants_flag in Df. unfold get in E. rewrite Lm in E. cbn [load_mapfile bind] in E. rewrite Le, Lp, Df in E. cbn [bind] in E.
  destruct (pick_target _ _); [|discriminate]. cbn [bind] in E. destruct (w_memory_types w _); [|discriminate]. cbn [bind] in E.
  destruct (build _ _ _ _ _); [|discriminate]. cbn [bind] in E. injection E as _ E. rewrite <- E in Is. cbn [mf_sections] in Is.
  unfold after_filter in Is. apply List.in_map_iff in Is. destruct Is as (s1 & Es & I1).
  unfold expand_input_sections in I1. apply List.in_map_iff in I1. destruct I1 as (s0 & E0 & I0).
  assert (Nm : o_name s = o_name s0) by (subst s; destruct (keep_section _ _); subst s1; reflexivity).
  assert (Ii1 : In i (o_isecs s1)).
  { subst s. destruct (keep_section _ _); [|exact Ii]. cbn in Ii. apply filter_In in Ii. apply Ii. }
  rewrite <- E0 in Ii1. apply expand_osec_origin in Ii1. destruct Ii1 as [(i0 & J & A & O)|(ad & ay & J & F)].
  { left. exists s0, i0. auto. }
  right. unfold archive_symbols in J. apply py_sorted_In, in_flat_map in J. destruct J as ([a' cu] & J & K). cbn [fst snd] in K.
  destruct (find_symbol_component _ _) as [c|] eqn:Fc; [|contradiction]. destruct K as [K|[]]. injection K as <- <-.
  apply filter_In in J. destruct J as (J & _). exists a', cu, c. split; [exact J|].
  destruct (find_longest _ _ _ _ (py_sorted_sorted _ true (pd_components pd)) Fc) as (Ic & Pc & M). apply py_sorted_In in Ic. apply startswith_ok in Pc.
  split; [|unfold from_sym in F; cbn in F; tauto]. split; [exact Ic|]. split; [now apply (H a' cu c)|]. intros c' I' W'.
  enough (Z.of_nat (length (comp_path c')) <= Z.of_nat (length (comp_path c))) by lia.
  apply M; [now apply py_sorted_In|]. apply startswith_ok. now apply within_start.
Qed.

(** ** the components of the description *)
Lemma lstrip_under p l : proper p -> lstrip_slash (under [] (p :: l)) = p ++ flat_map (fun q => slash :: q) l.
Proof.
  intros (Np & _ & _ & Ns). unfold under. cbn [flat_map app lstrip_slash]. change ("/"%char =?= slash) with true. cbn iota.
  destruct p as [|c p]; [contradiction|]. cbn [app lstrip_slash]. destruct (keqP c slash) as [->|_]; [exfalso; apply Ns; now left|reflexivity].
Qed.
Lemma path_parts_under l : Forall proper l -> path_parts (under [] l) = l.
Proof.
  intros F. unfold path_parts. destruct l as [|p l]; [reflexivity|]. rewrite lstrip_under by now inversion F.
  assert (E : pieces (p ++ flat_map (fun q => slash :: q) l) = p :: l).
  { assert (U : pieces (slash :: p ++ flat_map (fun q => slash :: q) l) = [] :: p :: l) by exact (pieces_under (p :: l) F).
    cbn [pieces] in U. change (slash =?= slash) with true in U. cbn iota in U. now injection U. }
  rewrite E. clear E. induction F as [|q r (N1 & N2 & _) F IH]; [reflexivity|]. cbn [filter].
  lazymatch goal with |- context [if negb ?a && negb ?b then _ else _] => destruct a eqn:Ea; [apply keq_eq in Ea; contradiction|]; destruct b eqn:Eb; [apply keq_eq in Eb; contradiction|] end.
  cbn [negb andb]. rewrite IH. reflexivity.
Qed.
Lemma as_posix_directory d : directory d -> d <> [] -> as_posix d = d.
Proof.
  intros (l & F & ->) N. assert (Nl : l <> []) by (intros ->; now apply N).
  unfold as_posix. rewrite path_root_under, path_parts_under by assumption. cbn [app]. now rewrite join_slash_under.
Qed.
Lemma strip_parts_app b l : strip_parts b (b ++ l) = Some l.
Proof. induction b as [|x b IH]; [destruct l; reflexivity|]. cbn [app strip_parts]. now rewrite keq_refl. Qed.
Lemma relative_to_under b parts : directory b -> b <> [] -> Forall proper parts -> parts <> [] -> relative_to (under b parts) b = Ok (relative_path parts).
Proof.
  intros (l & F & ->) N Fp Np. assert (Nl : l <> []) by (intros ->; now apply N).
  assert (Fa : Forall proper (l ++ parts)) by (apply Forall_app; now split).
  unfold relative_to. rewrite under_under, !path_root_under, keq_refl by first [assumption | destruct l; [contradiction|discriminate]].
  rewrite !path_parts_under, strip_parts_app by assumption. destruct parts; [contradiction|]. exact (f_equal Ok (eq_sym (relative_join _))).
Qed.
Lemma load_component_ok b j l : directory b -> b <> [] -> component_entry b j l -> load_component b j = Ok l.
Proof.
  intros D N [o dir parts F Dr Dd Nd Fp Np|o F]; unfold load_component, jindex; rewrite F; cbn [bind].
  - cbn [jtrue]. destruct (under b parts) eqn:U; [destruct b; [contradiction|discriminate U]|]. cbn [jstr bind]. rewrite Dr. cbn [bind jstr].
    rewrite <- U, relative_to_under by assumption. cbn [bind]. rewrite (as_posix_directory dir Dd Nd), U. reflexivity.
  - reflexivity.
Qed.
Lemma load_components_ok o info b ls : dget (list_ascii_of_string "build_component_info") o = Some (JObj info) ->
  dget (list_ascii_of_string "build_dir") o = Some (JStr b) -> directory b -> b <> [] ->
  Forall2 (fun kv l => component_entry b (snd kv) l) info ls -> load_components (JObj o) = Ok (concat ls).
Proof.
  intros I B D N F. unfold load_components, jindex. rewrite I. cbn [bind]. rewrite B. cbn [bind jstr]. rewrite as_posix_directory by assumption.
  assert (M : mapM (fun kv => load_component b (snd kv)) info = Ok ls).
  { clear I. induction F as [|[k j] l info ls E F IH]; [reflexivity|]. cbn [mapM snd] in *. rewrite (load_component_ok _ _ _ D N E). cbn [bind]. now rewrite IH. }
  rewrite M. reflexivity.
Qed.
