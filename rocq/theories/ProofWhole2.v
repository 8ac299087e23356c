From Coq Require Import Ascii String List ZArith Lia Bool Permutation Sorted.
From Verif Require Import Base MemMap SpecTree SpecOps Filter SpecFilter ProofFilter Pipeline SpecPipe SpecBuild SpecBytes SpecShape ProofOps ProofTrim ProofDiff ProofDiff2 ProofSummary ProofSummary2 ProofSummary3 Fixtures ProofBuild ProofStrip PyStr MapFile SpecMap
  ElfRead SpecElf Project SpecProject SpecEnd Chips SpecChips ProofChips ProofShape Deps Table SpecTable ProofTable ProofTable3 Formats ProofFormats Main SpecMain ProofMain ProofMain4 ProofMain5 Command SpecCommand SpecFail SpecReport
  ProofCommand1 ProofCommand2 ProofCommand3 ProofCommand4 ProofCommand5 ProofCommand6 ProofReport1 ProofReport2 ProofReport3 ProofReport4 ProofReport5 ProofReport6 SpecSyms SpecSymbols ProofSymbols1 ProofSymbols2 ProofSymbols3 SpecWhole ProofWhole1.
Import ListNotations.
Open Scope list_scope.
Open Scope Z_scope.

(** ** bytes there are not listed with 0 *)
Lemma present_not_zero k r (g : account -> Z -> Prop) z : (forall v, measured k r g v <-> v = z) -> present k r (fun q => exists n, g q n /\ 0 < n) -> z <> (0, 0).
Proof.
  intros H P E. subst z. destruct r as [k'|].
  - assert (Z0 : measured k (Some k') g (0, 0)) by now apply H. destruct Z0 as (A & n' & B & C). cbn in A, C. destruct P as [(n & G & Po)|(n & G & Po)].
    + assert (X : measured k (Some k') g (n, n - n')) by (split; [exact G|]; exists n'; now split). apply H in X. injection X as X _. lia.
    + assert (X : measured k (Some k') g (0, 0 - n)) by (split; [exact A|]; exists n; now split). apply H in X. injection X as X. lia.
  - destruct P as [(n & G & Po)|[]]. assert (X : measured k None g (n, 0)) by (now split). apply H in X. injection X as X. lia.
Qed.
Section Final.
Variables (a : args) (k : account) (r : option account) (M : memmap) (fu : str -> Z * Z) (fn : str -> str -> Z * Z) (fo : (item -> bool) -> str -> str -> Z * Z).
Hypothesis F : final a k r M fu fn fo.
Lemma archive_there T N x : present k r (has_bytes (of_archive x) T N) -> look M T [N; x] <> None.
Proof.
  intros P E. apply (present_not_zero k r (own_bytes (of_archive x) (ColSect T N)) (fo (of_archive x) T N)); [apply (f_sect_is _ _ _ _ _ _ _ F)|exact P|].
  rewrite <- (f_archive _ _ _ _ _ _ _ F), E. reflexivity.
Qed.
Lemma object_there T N x o : present k r (has_bytes (of_object x o) T N) -> look M T [N; x; o] <> None.
Proof.
  intros P E. apply (present_not_zero k r (own_bytes (of_object x o) (ColSect T N)) (fo (of_object x o) T N)); [apply (f_sect_is _ _ _ _ _ _ _ F)|exact P|].
  rewrite <- (f_object _ _ _ _ _ _ _ F), E. reflexivity.
Qed.
Lemma archive_is T N x e : look M T [N; x] = Some e -> measured k r (own_bytes (of_archive x) (ColSect T N)) (e_size e, e_diff e).
Proof. intros L. apply (f_sect_is _ _ _ _ _ _ _ F). rewrite <- (f_archive _ _ _ _ _ _ _ F), L. reflexivity. Qed.
Lemma object_is T N x o e : look M T [N; x; o] = Some e -> measured k r (own_bytes (of_object x o) (ColSect T N)) (e_size e, e_diff e).
Proof. intros L. apply (f_sect_is _ _ _ _ _ _ _ F). rewrite <- (f_object _ _ _ _ _ _ _ F), L. reflexivity. Qed.

Lemma raw_ok : below (fun N i => present k r (in_section N i)) M -> raw_right k r a M.
Proof.
  intros B. split.
  - apply F.
  - apply (f_image _ _ _ _ _ _ _ F).
  - apply (f_listed _ _ _ _ _ _ _ F).
  - intros T t E. split; [apply (f_used_is _ _ _ _ _ _ _ F), (f_used _ _ _ _ _ _ _ F), E|]. apply (f_total _ _ _ _ _ _ _ F), E.
  - apply (f_section _ _ _ _ _ _ _ F).
  - intros T N e E. apply (f_name_is _ _ _ _ _ _ _ F), (f_name _ _ _ _ _ _ _ F), E.
  - intros T N x e E. split; [now apply archive_is|]. exact (bl_archive _ _ B _ _ _ _ E).
  - apply archive_there.
  - intros T N x o e E. split; [now apply object_is|]. exact (bl_object _ _ B _ _ _ _ _ E).
  - apply object_there.
  - apply (f_label _ _ _ _ _ _ _ F).
Qed.
End Final.
Lemma raw_symbols_ok a q r M fo : sfinal a q r M fo -> raw_symbols_right q r M.
Proof.
  intros F. split.
  - intros T N x o y e L. assert (P : exists i, present q r (places i) /\ it_archive i = x /\ it_object i = o /\ it_name i = y).
    { apply (sf_places _ _ _ _ _ F). exists T, N. congruence. }
    destruct P as (i & P & <- & <- & <-). exists i. split; [exact P|]. do 3 (split; [reflexivity|]). apply (sf_sect_is _ _ _ _ _ F). rewrite <- (sf_symbol _ _ _ _ _ F), L. reflexivity.
  - intros T N i P E. apply (present_not_zero q r (own_bytes (of_symbol i) (ColSect T N)) (fo (of_symbol i) T N)); [apply (sf_sect_is _ _ _ _ _ F)|exact P|].
    rewrite <- (sf_symbol _ _ _ _ _ F), E. reflexivity.
Qed.

(** C121 *)
Lemma raw_report d c k r o files s render encode ord pf :
  reported d c k r -> a_use_dwarf (c_args c) <> Some true -> a_format (c_args c) = FRaw ->
  run_files d (get_memory_types chip_info) render encode ord pf c o (start files) = (Done tt, s) ->
  exists M, s_printed s = [PRaw M] /\ raw_right k r (c_args c) M /\
    forall q rq, symbols_reported d c q rq -> raw_symbols_right q rq M.
Proof.
  intros Rp Nd Fm R. pose proof Rp as (_ & _ & Au & Ad). destruct (command_shows _ _ _ _ _ _ _ _ _ R Au Ad) as (M & x & s1 & s2 & So & _ & _ & P1 & Sh & P2 & _).
  exists M. split; [|split].
  - rewrite P2. unfold show in Sh. change (a_format (final_args (c_args c))) with (a_format (c_args c)) in Sh. rewrite Fm in Sh. unfold raw_show in Sh.
    change (a_archive_dependencies (final_args (c_args c))) with (a_archive_dependencies (c_args c)) in Sh. rewrite Ad in Sh. apply print_done in Sh. rewrite Sh, P1. reflexivity.
  - destruct (final_of _ _ _ _ _ Rp (fun _ => Nd) So) as ((fu & fn & fo & F) & B & _). eapply raw_ok; eassumption.
  - intros q rq Rq. destruct (sfinal_of _ _ _ _ _ Rq ltac:(unfold load_symbols; rewrite Fm; apply orb_true_r) So) as (fo & F). eapply raw_symbols_ok. exact F.
Qed.

(** ** a level of the tree *)
Section Level.
  Context {V : Type}.
  Variables (tr so : V -> V) (key : V -> Z) (rev : bool) (p : V -> bool) (d : dict str V).
  Hypothesis W : wf_dict d.
  Hypothesis K1 : forall v, key (so v) = key v.
  Let d' := dmap so (sort_dict_by_key key rev (dmap tr (filter (fun kv => p (snd kv)) d))).
  Lemma level_once : NoDup (map fst d').
  Proof.
    unfold d'. pose proof (sorted_from_sort key rev so (fun v v' => v' = so v) (dmap tr (filter (fun kv => p (snd kv)) d)) ltac:(reflexivity)) as S1.
    eapply Permutation_NoDup; [apply (sorted_from_keys _ _ _ _ _ S1)|]. unfold dmap. rewrite map_map. cbn [fst]. now apply NoDup_map_filter.
  Qed.
  Lemma level_in n v' : In (n, v') d' <-> exists v, dget n d = Some v /\ p v = true /\ v' = so (tr v).
  Proof.
    unfold d'. pose proof (sorted_from_sort key rev so (fun v v' => v' = so v) (dmap tr (filter (fun kv => p (snd kv)) d)) ltac:(reflexivity)) as S1. split.
    - intros I. destruct (sorted_from_r _ _ _ _ _ S1 _ _ I) as (v & I1 & ->). unfold dmap in I1. apply List.in_map_iff in I1. destruct I1 as ((n0 & v0) & E & I1). cbn in E. injection E as -> <-.
      apply filter_In in I1. destruct I1 as (I1 & C). exists v0. split; [now apply In_dget|]. now split.
    - intros (v & G & C & ->). assert (I : In (n, tr v) (dmap tr (filter (fun kv => p (snd kv)) d))).
      { unfold dmap. apply List.in_map_iff. exists (n, v). split; [reflexivity|]. apply filter_In. split; [now apply dget_In|exact C]. }
      destruct (sorted_from_l _ _ _ _ _ S1 _ _ I) as (v' & I' & ->). exact I'.
  Qed.
  Lemma level_order : StronglySorted (fun x y => if rev then key (snd y) <= key (snd x) else key (snd x) <= key (snd y)) d'.
  Proof.
    unfold d'. pose proof (sorted_from_sort key rev so (fun v v' => v' = so v) (dmap tr (filter (fun kv => p (snd kv)) d)) ltac:(reflexivity)) as S1.
    apply (sorted_from_order _ _ _ _ _ S1 key). intros v v' ->. now rewrite K1.
  Qed.
End Level.
Lemma sorted_map {X Y} (R : Y -> Y -> Prop) (g : X -> Y) l : StronglySorted (fun x y => R (g x) (g y)) l -> StronglySorted R (map g l).
Proof.
  induction 1 as [|x l S IH H]; cbn; constructor; [exact IH|]. apply Forall_forall. intros y I. apply List.in_map_iff in I. destruct I as (z & <- & I). rewrite Forall_forall in H. now apply H.
Qed.

(** ** the tree *)
Definition of_obj (kv : str * obj) : tobject := TObject (fst kv) (n_size (snd kv), n_diff (snd kv)).
Definition of_arch (kv : str * arch) : tarchive := TArchive (fst kv) (n_size (snd kv), n_diff (snd kv)) (map of_obj (n_sub (snd kv))).
Definition of_sect (kv : str * sect) : tsection := TSection (fst kv) (n_size (snd kv), n_diff (snd kv)) (map of_arch (n_sub (snd kv))).
Definition of_type (kv : str * mtype) : ttype := TType (fst kv) (t_used (snd kv), t_used_diff (snd kv)) (t_size (snd kv), t_size_diff (snd kv)) (map of_sect (t_sections (snd kv))).

Lemma flat_map_concat {A B} (f : A -> list B) l : flat_map f l = concat (map f l).
Proof. induction l as [|x l IH]; [reflexivity|]. cbn. now rewrite IH. Qed.
Lemma forall2_maps {A B C} (R : B -> C -> Prop) (f : A -> B) (g : A -> C) l : (forall x, In x l -> R (f x) (g x)) -> Forall2 R (map f l) (map g l).
Proof. induction l as [|x l IH]; intros H; constructor; [apply H; now left|apply IH; intros; apply H; now right]. Qed.

Section Tree.
Variables (a : args) (k : account) (r : option account) (M : memmap) (fu : str -> Z * Z) (fn : str -> str -> Z * Z) (fo : (item -> bool) -> str -> str -> Z * Z).
Hypothesis F : final a k r M fu fn fo.
Hypothesis B : below (fun N i => present k r (in_section N i)) M.
Hypothesis Ns : no_symbols M.
Hypothesis Au : a_unify a = false.
Hypothesis Ad : a_archive_dependencies a = false.
Hypothesis Dt : given (a_archive_details a) = false.
Let f := final_args a.
Let W : wf_map M := f_wf _ _ _ _ _ _ _ F.

Lemma tree_diff : a_diff f = a_diff a.
Proof. unfold f. cbn. unfold conflict_diff. now rewrite Ad. Qed.
Lemma tree_details : given (a_archive_details f) = false. Proof. exact Dt. Qed.
Lemma tree_archives : a_archives f = a_archives a. Proof. reflexivity. Qed.
Lemma label_file N x b : label [N; x] b -> file_shown a x (shown f x b).
Proof.
  intros Lb. unfold file_shown, shown, f. cbn [final_args a_abbrev set_use_dwarf set_abbrev]. cbn [without_conflicts a_no_abbrev]. unfold conflict_abbrev. rewrite Au.
  destruct (a_no_abbrev a); cbn [andb negb]; [reflexivity|exact Lb].
Qed.
Lemma tells_label n z z' : tells a n (z, z') (tree_label f n z z').
Proof. unfold tells, tree_label. eexists. split; [reflexivity|]. rewrite <- tree_diff. apply num_cell_text. Qed.

(** the dictionaries on the way down *)
Lemma wf_t T t : dget T (m_types M) = Some t -> wf_type t.
Proof. intros E. destruct W as (_ & H). rewrite Forall_forall in H. apply dget_In in E. apply (H _ E). Qed.
Lemma wf_s (t : mtype) N s : wf_type t -> dget N (t_sections t) = Some s -> wf_sect s.
Proof. intros (_ & H) E. rewrite Forall_forall in H. apply dget_In in E. apply (H _ E). Qed.
Lemma wf_x (s : sect) x y : wf_sect s -> dget x (n_sub s) = Some y -> wf_arch y.
Proof. intros (_ & H) E. rewrite Forall_forall in H. apply dget_In in E. apply (H _ E). Qed.

Definition tree_at (T N x : str) (y : arch) : Prop :=
  exists t s, dget T (m_types M) = Some t /\ dget N (t_sections t) = Some s /\ dget x (n_sub s) = Some y.
Lemma look_arch_at T N x y : tree_at T N x y -> look M T [N; x] = Some (entry_of_node y).
Proof. intros (t & s & E1 & E2 & E3). unfold look. rewrite E1. cbn [look_dict]. rewrite E2. unfold look_sect, look_arch, look_node, look_dict. now rewrite E3. Qed.
Lemma look_obj_at T N x y o : tree_at T N x y -> look M T [N; x; o] = option_map entry_of_node (dget o (n_sub y)).
Proof.
  intros (t & s & E1 & E2 & E3). unfold look. rewrite E1. cbn [look_dict]. rewrite E2. unfold look_sect, look_arch, look_obj, look_node, look_dict. rewrite E3.
  destruct (dget o (n_sub y)); reflexivity.
Qed.
Lemma bare_at T N x y o z : tree_at T N x y -> dget o (n_sub y) = Some z -> n_sub z = [].
Proof.
  intros (t & s & E1 & E2 & E3) E4. destruct (n_sub z) as [|[n v] q] eqn:E5; [reflexivity|]. exfalso. pose proof (Ns T N x o n) as L. unfold look in L. rewrite E1 in L. cbn [look_dict] in L. rewrite E2 in L.
  unfold look_sect, look_arch, look_obj, look_node, look_dict in L. rewrite E3, E4, E5 in L. cbn [dget] in L. rewrite keq_refl in L. discriminate L.
Qed.

(** the object files of an archive *)
Lemma objects_ok T N x y : tree_at T N x y -> wf_arch y -> objects_right k r a T N x (map of_obj (n_sub (sort_arch f (trim_arch f y)))).
Proof.
  intros A Wy. unfold objects_right. cbn [sort_arch trim_arch n_sub]. unfold trim_depth_of. rewrite tree_details, tree_archives. destruct (a_archives a) eqn:Ar; [reflexivity|].
  set (d' := dmap (sort_obj f) _).
  assert (D : d' = dmap (sort_obj f) (sort_dict_by_key (node_key f) (a_sort_reverse f) (dmap (trim_obj f) (filter (fun kv => changed f (n_diff (snd kv))) (n_sub y))))).
  { unfold d'. destruct (a_files f); reflexivity. }
  clearbody d'.
  assert (L1 : NoDup (map fst d')) by (rewrite D; exact (level_once (trim_obj f) (sort_obj f) (node_key f) (a_sort_reverse f) (fun z => changed f (n_diff z)) (n_sub y) (proj1 Wy))).
  assert (L2 : forall n v', In (n, v') d' <-> exists v, dget n (n_sub y) = Some v /\ changed f (n_diff v) = true /\ v' = sort_obj f (trim_obj f v)) by (rewrite D; exact (level_in (trim_obj f) (sort_obj f) (node_key f) (a_sort_reverse f) (fun z => changed f (n_diff z)) (n_sub y) (proj1 Wy))).
  assert (L3 : StronglySorted (fun x y => if a_sort_reverse f then node_key f (snd y) <= node_key f (snd x) else node_key f (snd x) <= node_key f (snd y)) d') by (rewrite D; exact (level_order (trim_obj f) (sort_obj f) (node_key f) (a_sort_reverse f) (fun z => changed f (n_diff z)) (n_sub y) ltac:(reflexivity))).
  assert (Of : forall q, In q d' -> exists z, dget (fst q) (n_sub y) = Some z /\ changed f (n_diff z) = true /\ to_value (of_obj q) = (n_size z, n_diff z)).
  { intros [o v] I. apply L2 in I. destruct I as (z & E & C & ->). exists z. repeat split; assumption. }
  split; [split; [|split]|split].
  - rewrite map_map. exact L1.
  - apply Forall_forall. intros q I. apply List.in_map_iff in I. destruct I as (q0 & <- & I). destruct (Of q0 I) as (z & _ & C & ->). now apply changed_differs.
  - apply sorted_map. exact L3.
  - apply Forall_forall. intros q I. apply List.in_map_iff in I. destruct I as (q0 & <- & I). destruct (Of q0 I) as (z & E & _ & Ev). rewrite Ev. cbn [of_obj to_name].
    pose proof (look_obj_at T N x y (fst q0) A) as L. rewrite E in L. cbn [option_map] in L. split; [exact (object_is _ _ _ _ _ _ _ F _ _ _ _ _ L)|]. exact (bl_object _ _ B _ _ _ _ _ L).
  - intros n v P Mv Dv. rewrite map_map. cbn [of_obj to_name]. pose proof (object_there _ _ _ _ _ _ _ F _ _ _ _ P) as L. rewrite (look_obj_at T N x y n A) in L.
    destruct (dget n (n_sub y)) as [z|] eqn:E; [|contradiction L; reflexivity].
    pose proof (look_obj_at T N x y n A) as L0. rewrite E in L0. cbn [option_map] in L0.
    apply (f_sect_is _ _ _ _ _ _ _ F) in Mv. rewrite <- (f_object _ _ _ _ _ _ _ F), L0 in Mv. cbn [esize ediff entry_of_node e_size e_diff] in Mv. subst v.
    apply changed_differs in Dv; [|exact Ad]. change n with (fst (n, sort_obj f (trim_obj f z))). apply List.in_map. apply L2. exists z. repeat split; assumption.
Qed.

(** the archives of a section *)
Lemma archives_ok2 T N t s : dget T (m_types M) = Some t -> dget N (t_sections t) = Some s -> archives_right k r a T N (map of_arch (n_sub (sort_sect f (trim_sect f s)))).
Proof.
  intros Et Es. pose proof (wf_s _ _ _ (wf_t _ _ Et) Es) as Ws. cbn [sort_sect trim_sect n_sub].
  set (d' := dmap (sort_arch f) _).
  assert (D : d' = dmap (sort_arch f) (sort_dict_by_key (node_key f) (a_sort_reverse f) (dmap (trim_arch f) (filter (fun kv => changed f (n_diff (snd kv))) (n_sub s))))).
  { unfold d', trim_depth_of. rewrite tree_details. destruct (a_archives f), (a_files f); reflexivity. }
  clearbody d'.
  assert (L1 : NoDup (map fst d')) by (rewrite D; exact (level_once (trim_arch f) (sort_arch f) (node_key f) (a_sort_reverse f) (fun z => changed f (n_diff z)) (n_sub s) (proj1 Ws))).
  assert (L2 : forall n v', In (n, v') d' <-> exists v, dget n (n_sub s) = Some v /\ changed f (n_diff v) = true /\ v' = sort_arch f (trim_arch f v)) by (rewrite D; exact (level_in (trim_arch f) (sort_arch f) (node_key f) (a_sort_reverse f) (fun z => changed f (n_diff z)) (n_sub s) (proj1 Ws))).
  assert (L3 : StronglySorted (fun x y => if a_sort_reverse f then node_key f (snd y) <= node_key f (snd x) else node_key f (snd x) <= node_key f (snd y)) d') by (rewrite D; exact (level_order (trim_arch f) (sort_arch f) (node_key f) (a_sort_reverse f) (fun z => changed f (n_diff z)) (n_sub s) ltac:(reflexivity))).
  assert (At : forall x y, dget x (n_sub s) = Some y -> tree_at T N x y) by (intros x y E; exists t, s; now repeat split).
  assert (Of : forall q, In q d' -> exists y, dget (fst q) (n_sub s) = Some y /\ changed f (n_diff y) = true /\ snd q = sort_arch f (trim_arch f y) /\ ta_value (of_arch q) = (n_size y, n_diff y)).
  { intros [x v] I. apply L2 in I. destruct I as (y & E & C & ->). exists y. repeat split; assumption. }
  split; [split; [split; [|split]|split]|].
  - rewrite map_map. exact L1.
  - apply Forall_forall. intros q I. apply List.in_map_iff in I. destruct I as (q0 & <- & I). destruct (Of q0 I) as (z & _ & C & _ & ->). now apply changed_differs.
  - apply sorted_map. exact L3.
  - apply Forall_forall. intros q I. apply List.in_map_iff in I. destruct I as (q0 & <- & I). destruct (Of q0 I) as (z & E & _ & _ & Ev). rewrite Ev. cbn [of_arch ta_name].
    pose proof (look_arch_at T N _ _ (At _ _ E)) as L. split; [exact (archive_is _ _ _ _ _ _ _ F _ _ _ _ L)|]. exact (bl_archive _ _ B _ _ _ _ L).
  - intros n v P Mv Dv. rewrite map_map. cbn [of_arch ta_name]. pose proof (archive_there _ _ _ _ _ _ _ F _ _ _ P) as L.
    destruct (dget n (n_sub s)) as [y|] eqn:E.
    + pose proof (look_arch_at T N _ _ (At _ _ E)) as L0.
      apply (f_sect_is _ _ _ _ _ _ _ F) in Mv. rewrite <- (f_archive _ _ _ _ _ _ _ F), L0 in Mv. cbn [esize ediff entry_of_node e_size e_diff] in Mv. subst v.
      apply changed_differs in Dv; [|exact Ad]. change n with (fst (n, sort_arch f (trim_arch f y))). apply List.in_map. apply L2. exists y. repeat split; assumption.
    + exfalso. apply L. unfold look. rewrite Et. cbn [look_dict]. rewrite Es. unfold look_sect, look_node, look_dict. now rewrite E.
  - apply Forall_forall. intros q I. apply List.in_map_iff in I. destruct I as (q0 & <- & I). destruct (Of q0 I) as (y & E & _ & Eq & _). cbn [of_arch ta_name ta_objects]. rewrite Eq.
    apply objects_ok; [now apply At|eapply wf_x; eassumption].
Qed.

(** a memory type *)
Lemma type_ok2 T t : dget T (m_types M) = Some t -> ttype_right k r a (of_type (T, sort_type f (trim_type f t))).
Proof.
  intros Et. pose proof (wf_t _ _ Et) as Wt.
  pose proof (level_once (trim_sect f) (sort_sect f) (node_key f) (a_sort_reverse f) (fun z => changed f (n_diff z)) (t_sections t) (proj1 Wt)) as L1.
  pose proof (level_in (trim_sect f) (sort_sect f) (node_key f) (a_sort_reverse f) (fun z => changed f (n_diff z)) (t_sections t) (proj1 Wt)) as L2.
  pose proof (level_order (trim_sect f) (sort_sect f) (node_key f) (a_sort_reverse f) (fun z => changed f (n_diff z)) (t_sections t) ltac:(reflexivity)) as L3.
  cbv beta zeta in L1, L2, L3.
  split; cbn [of_type fst snd tt_name tt_used tt_total tt_sections sort_type trim_type t_used t_used_diff t_size t_size_diff t_sections];
    set (d' := dmap (sort_sect f) _) in *; clearbody d';
    (assert (Of : forall q, In q d' -> exists y, dget (fst q) (t_sections t) = Some y /\ changed f (n_diff y) = true /\ snd q = sort_sect f (trim_sect f y) /\ ts_value (of_sect q) = (n_size y, n_diff y));
    [intros [x v] I; apply L2 in I; destruct I as (y & E & C & ->); exists y; repeat split; assumption|]).
  - apply (f_used_is _ _ _ _ _ _ _ F), (f_used _ _ _ _ _ _ _ F), Et.
  - pose proof (f_total _ _ _ _ _ _ _ F _ _ Et) as X. exact (proj1 X).
  - intros X. apply (f_total _ _ _ _ _ _ _ F _ _ Et). exact X.
  - split; [|split].
    + rewrite map_map. exact L1.
    + apply Forall_forall. intros q I. apply List.in_map_iff in I. destruct I as (q0 & <- & I). destruct (Of q0 I) as (z & _ & C & _ & ->). now apply changed_differs.
    + apply sorted_map. exact L3.
  - intros N v. split.
    + intros (q & I & <- & <-). apply List.in_map_iff in I. destruct I as (q0 & <- & I). destruct (Of q0 I) as (s & E & C & _ & Ev). rewrite Ev. cbn [of_sect ts_name].
      assert (Lk : look M T [fst q0] = Some (entry_of_node s)) by (unfold look; rewrite Et; cbn [look_dict]; rewrite E; reflexivity).
      split; [apply (f_section _ _ _ _ _ _ _ F); congruence|]. split; [|now apply changed_differs]. apply (f_name_is _ _ _ _ _ _ _ F). apply (f_name _ _ _ _ _ _ _ F) in Lk. exact Lk.
    + intros (P & Mv & Dv). apply (f_section _ _ _ _ _ _ _ F) in P. destruct (look M T [N]) as [e|] eqn:Lk; [|congruence]. apply (f_name_is _ _ _ _ _ _ _ F) in Mv.
      pose proof (f_name _ _ _ _ _ _ _ F _ _ _ Lk) as Ne. unfold look in Lk. rewrite Et in Lk. cbn [look_dict] in Lk. destruct (dget N (t_sections t)) as [s|] eqn:E; [|discriminate]. cbn in Lk. injection Lk as <-.
      rewrite <- Ne in Mv. subst v. apply changed_differs in Dv; [|exact Ad]. exists (of_sect (N, sort_sect f (trim_sect f s))). split; [|now split]. apply List.in_map. apply L2. exists s. repeat split; assumption.
  - apply Forall_forall. intros q I. apply List.in_map_iff in I. destruct I as (q0 & <- & I). destruct (Of q0 I) as (s & E & _ & Eq & _). cbn [of_sect ts_name ts_archives]. rewrite Eq. eapply archives_ok2; eassumption.
Qed.

Let m' := sort (trim M f) f.
Lemma types_in T t' : In (T, t') (m_types m') <-> exists t, dget T (m_types M) = Some t /\ changed f (t_used_diff t) = true /\ t' = sort_type f (trim_type f t).
Proof. apply (level_in (trim_type f) (sort_type f) (type_key f) (a_sort_reverse f) (fun t => changed f (t_used_diff t)) (m_types M) (proj1 W)). Qed.

Lemma tree_is_right : tree_right k r a (map of_type (m_types m')).
Proof.
  pose proof (level_once (trim_type f) (sort_type f) (type_key f) (a_sort_reverse f) (fun t => changed f (t_used_diff t)) (m_types M) (proj1 W)) as L1.
  pose proof (level_order (trim_type f) (sort_type f) (type_key f) (a_sort_reverse f) (fun t => changed f (t_used_diff t)) (m_types M) ltac:(reflexivity)) as L3.
  split; [split; [|split]|split].
  - rewrite map_map. exact L1.
  - apply Forall_forall. intros q I. apply List.in_map_iff in I. destruct I as ((T & t') & <- & I). apply types_in in I. destruct I as (t & E & C & ->). now apply changed_differs.
  - apply sorted_map. exact L3.
  - intros T. rewrite map_map. cbn [of_type tt_name]. split.
    + intros I. apply List.in_map_iff in I. destruct I as ((T0 & t') & E & I). cbn in E. subst T0. apply types_in in I. destruct I as (t & E & C & _).
      split; [apply (f_listed _ _ _ _ _ _ _ F); congruence|]. exists (t_used t, t_used_diff t). split; [apply (f_used_is _ _ _ _ _ _ _ F), (f_used _ _ _ _ _ _ _ F), E|]. now apply changed_differs.
    + intros (P & v & Mv & Dv). apply (f_listed _ _ _ _ _ _ _ F) in P. destruct (dget T (m_types M)) as [t|] eqn:E; [|congruence].
      apply (f_used_is _ _ _ _ _ _ _ F) in Mv. rewrite <- (f_used _ _ _ _ _ _ _ F T t E) in Mv. subst v. apply changed_differs in Dv; [|exact Ad].
      change T with (fst (T, sort_type f (trim_type f t))). apply List.in_map. apply types_in. exists t. repeat split; assumption.
  - apply Forall_forall. intros q I. apply List.in_map_iff in I. destruct I as ((T & t') & <- & I). apply types_in in I. destruct I as (t & E & C & ->). now apply type_ok2.
Qed.

(** the lines *)
Lemma object_said T N x y q : tree_at T N x y -> wf_arch y -> In q (n_sub (sort_arch f (trim_arch f y))) -> object_lines a (of_obj q) (tree_obj f q).
Proof.
  intros A Wy I. destruct q as [o v].
  assert (H : exists z, dget o (n_sub y) = Some z /\ v = sort_obj f (trim_obj f z)).
  { cbn [sort_arch trim_arch n_sub] in I. unfold trim_depth_of in I. rewrite tree_details, tree_archives in I. destruct (a_archives a) eqn:Ar; [destruct I|].
    assert (I' : In (o, v) (dmap (sort_obj f) (sort_dict_by_key (node_key f) (a_sort_reverse f) (dmap (trim_obj f) (filter (fun kv => changed f (n_diff (snd kv))) (n_sub y)))))) by (destruct (a_files f); exact I).
    apply (level_in (trim_obj f) (sort_obj f) (node_key f) (a_sort_reverse f) (fun z => changed f (n_diff z)) (n_sub y) (proj1 Wy)) in I'. destruct I' as (z & E & _ & ->). eauto. }
  destruct H as (z & E & ->). pose proof (bare_at _ _ _ _ _ _ A E) as Bz. pose proof (look_obj_at T N x y o A) as L. rewrite E in L. cbn [option_map] in L. apply (f_label _ _ _ _ _ _ _ F) in L.
  unfold tree_obj, tree_node. cbn [fst snd]. eexists _, _. split; [|split].
  - cbn [sort_obj trim_obj n_sub n_abbrev n_size n_diff]. rewrite Bz. destruct (trim_depth_of f); reflexivity.
  - cbn [of_obj to_name fst]. apply (label_file N). exact L.
  - apply tells_label.
Qed.
Lemma archive_said T N t s q : dget T (m_types M) = Some t -> dget N (t_sections t) = Some s -> In q (n_sub (sort_sect f (trim_sect f s))) -> archive_lines a (of_arch q) (tree_arch f q).
Proof.
  intros Et Es I. pose proof (wf_s _ _ _ (wf_t _ _ Et) Es) as Ws. destruct q as [x v].
  assert (H : exists y, dget x (n_sub s) = Some y /\ v = sort_arch f (trim_arch f y)).
  { cbn [sort_sect trim_sect n_sub] in I. unfold trim_depth_of in I. rewrite tree_details in I.
    assert (I' : In (x, v) (dmap (sort_arch f) (sort_dict_by_key (node_key f) (a_sort_reverse f) (dmap (trim_arch f) (filter (fun kv => changed f (n_diff (snd kv))) (n_sub s)))))) by (destruct (a_archives f), (a_files f); exact I).
    apply (level_in (trim_arch f) (sort_arch f) (node_key f) (a_sort_reverse f) (fun z => changed f (n_diff z)) (n_sub s) (proj1 Ws)) in I'. destruct I' as (z & E & _ & ->). eauto. }
  destruct H as (y & E & ->). assert (A : tree_at T N x y) by (exists t, s; now repeat split). pose proof (look_arch_at _ _ _ _ A) as L. apply (f_label _ _ _ _ _ _ _ F) in L.
  unfold tree_arch, tree_node. cbn [fst snd]. rewrite flat_map_concat. eexists _, _, _. split; [reflexivity|]. split; [|split].
  - cbn [of_arch ta_name fst]. apply (label_file N). exact L.
  - apply tells_label.
  - cbn [of_arch ta_objects fst snd]. apply forall2_maps. intros q I'. eapply object_said; [exact A|eapply wf_x; eassumption|exact I'].
Qed.
Lemma section_said T t q : dget T (m_types M) = Some t -> In q (t_sections (sort_type f (trim_type f t))) -> section_lines a (of_sect q) (tree_sect f q).
Proof.
  intros Et I. destruct q as [N v]. cbn [sort_type trim_type t_sections] in I.
  apply (level_in (trim_sect f) (sort_sect f) (node_key f) (a_sort_reverse f) (fun z => changed f (n_diff z)) (t_sections t) (proj1 (wf_t _ _ Et))) in I. destruct I as (s & Es & _ & ->).
  assert (L : look M T [N] = Some (entry_of_node s)) by (unfold look; rewrite Et; cbn [look_dict]; rewrite Es; reflexivity). apply (f_label _ _ _ _ _ _ _ F) in L.
  unfold tree_sect, tree_node. cbn [fst snd]. rewrite flat_map_concat. eexists _, _, _. split; [reflexivity|]. split; [|split].
  - cbn [of_sect ts_name fst]. unfold shown. apply label_shown; [exact L|exact Au].
  - apply tells_label.
  - cbn [of_sect ts_archives fst snd]. apply forall2_maps. intros q I'. eapply archive_said; eassumption.
Qed.
Lemma type_said q : In q (m_types m') -> type_lines a (of_type q) (tree_type f q).
Proof.
  intros I. destruct q as [T t']. apply types_in in I. destruct I as (t & Et & _ & ->). unfold tree_type. cbn zeta. cbn [fst snd]. rewrite flat_map_concat.
  eexists (T ++ " "%char :: num_cell (given (a_diff f)) (t_used t) (t_used_diff t)), _, _. split; [rewrite <- app_assoc; reflexivity|].
  cbn [of_type fst snd tt_name tt_used tt_total tt_sections sort_type trim_type t_used t_used_diff t_size t_size_diff]. split; [|split].
  - rewrite tree_diff. eexists. split; [reflexivity|]. apply num_cell_text.
  - destruct (t_size t =? 0); [reflexivity|]. rewrite tree_diff. eexists. split; [reflexivity|]. apply num_cell_text.
  - apply forall2_maps. intros q I'. eapply section_said; eassumption.
Qed.
Lemma tree_is_said : exists lines, tree_lines M f = (0%nat, list_ascii_of_string "Memory Types") :: concat lines /\ Forall2 (type_lines a) (map of_type (m_types m')) lines.
Proof.
  exists (map (tree_type f) (m_types m')). split; [unfold tree_lines; cbn zeta; now rewrite flat_map_concat|]. apply forall2_maps. apply type_said.
Qed.
End Tree.

(** C122 *)
Lemma tree_report d c k r o files s render encode ord pf :
  reported d c k r -> a_format (c_args c) = FTree -> given (a_archive_details (c_args c)) = false ->
  run_files d (get_memory_types chip_info) render encode ord pf c o (start files) = (Done tt, s) ->
  exists types lines, s_printed s = [PTree ((0%nat, list_ascii_of_string "Memory Types") :: concat lines)] /\
    Forall2 (type_lines (c_args c)) types lines /\ tree_right k r (c_args c) types.
Proof.
  intros Rp Fm Dt R. pose proof Rp as (_ & _ & Au & Ad). destruct (command_shows _ _ _ _ _ _ _ _ _ R Au Ad) as (M & x & s1 & s2 & So & _ & _ & P1 & Sh & P2 & _).
  assert (Da : dwarf_aside (c_args c)) by (intros [X|X]; congruence).
  destruct (final_of _ _ _ _ _ Rp Da So) as ((fu & fn & fo & F) & B & Nb).
  assert (Ns : no_symbols M) by (apply Nb; unfold load_symbols; rewrite Dt, Fm; reflexivity).
  destruct (tree_is_said (c_args c) k r M fu fn fo F Ns Au Ad Dt) as (lines & El & Fl).
  eexists _, lines. split; [|split; [exact Fl|]].
  - rewrite P2. unfold show in Sh. change (a_format (final_args (c_args c))) with (a_format (c_args c)) in Sh. rewrite Fm in Sh. unfold tree_show in Sh.
    change (a_archive_dependencies (final_args (c_args c))) with (a_archive_dependencies (c_args c)) in Sh. rewrite Ad in Sh. apply print_done in Sh. rewrite Sh, P1, El. reflexivity.
  - eapply tree_is_right; eassumption.
Qed.
