From Coq Require Import Ascii String List ZArith Lia Bool Permutation Sorted.
From Verif Require Import Base MemMap SpecTree SpecOps Filter Pipeline SpecPipe SpecBuild SpecBytes SpecShape ProofOps ProofTrim ProofDiff ProofUnify ProofUnifyDiff ProofSummary ProofSummary2 ProofSummary3 Fixtures PyStr MapFile SpecMap
  ElfRead SpecElf Project SpecProject SpecEnd Chips SpecChips ProofChips ProofShape Deps Table SpecTable Formats Main SpecMain ProofMain ProofMain4 ProofMain5 Command SpecCommand SpecFail SpecReport SpecMerge
  ProofBytes ProofCommand1 ProofCommand2 ProofCommand3 ProofCommand4 ProofReport1 ProofReport2 ProofReport3 ProofReport5 ProofMerge1 ProofMerge2.
Import ListNotations.
Open Scope list_scope.
Open Scope Z_scope.

Section Unified.
Variables (a : args) (k : account) (r : option account) (M : memmap) (fu : str -> Z * Z) (fn : str -> str -> Z * Z) (fo : (item -> bool) -> str -> str -> Z * Z).
Hypothesis F : final a k r M fu fn fo.
Let W : wf_map M := f_wf _ _ _ _ _ _ _ F.
Definition names_of (T : str) : list str := match dget T (m_types M) with Some t => keys (t_sections t) | None => [] end.
Definition labelled (T B : str) : list str := filter (fun N => abbrev N =?= B) (names_of T).
Definition label_value (T B : str) : Z * Z := psum (fn T) (labelled T B).
Definition base_value (X T B : str) : Z * Z := psum (fo (own_base X) T) (labelled T B).

Lemma names_once T : NoDup (names_of T).
Proof. exact (nodup_sections _ _ _ _ _ _ _ F T). Qed.
Lemma names_present T N : present k r (lists_section T N) <-> In N (names_of T).
Proof. exact (sections_present _ _ _ _ _ _ _ F T N). Qed.
Lemma labelled_once T B : NoDup (labelled T B).
Proof. apply NoDup_filter, names_once. Qed.
Lemma labelled_in T B N : In N (labelled T B) <-> In N (names_of T) /\ abbrev N = B.
Proof. unfold labelled. now rewrite filter_In, keq_iff. Qed.

(** what is counted of the project and of the reference *)
Lemma both_figures T : exists ns os ns' os', figures T k ns os /\ forall k', r = Some k' -> figures T k' ns' os'.
Proof.
  pose proof (proj2 (f_used_is _ _ _ _ _ _ _ F T (fu T)) eq_refl) as (H1 & H2). destruct (figures_of _ _ _ H1) as (ns & os & H). clear H1. destruct r as [k'|].
  - destruct H2 as (n & H2 & _). destruct (figures_of _ _ _ H2) as (ns' & os' & H'). exists ns, os, ns', os'. split; [exact H|]. intros q E. injection E as <-. exact H'.
  - exists ns, os, ns, os. split; [exact H|discriminate].
Qed.
Lemma own_unlisted own T N : ~ In N (names_of T) -> fo own T N = (0, 0).
Proof.
  intros Ni. assert (C : forall n, present k r (lists_section T n) -> In n (names_of T)) by (intros n; apply names_present).
  pose proof (f_type_is _ _ _ _ _ _ _ F own T (names_of T) (names_once T) C) as H1.
  assert (D : NoDup (N :: names_of T)) by (constructor; [exact Ni|apply names_once]).
  pose proof (f_type_is _ _ _ _ _ _ _ F own T (N :: names_of T) D (fun n P => or_intror (C n P))) as H2.
  pose proof (proj1 (H2 _) (proj2 (H1 _) eq_refl)) as E. unfold psum in E. rewrite !zsumf_cons in E. injection E as E1 E2. destruct (fo own T N) as [u v]. cbn [fst snd] in E1, E2. f_equal; lia.
Qed.
Lemma label_is T B v : measured k r (label_bytes T B) v <-> v = label_value T B.
Proof.
  destruct (both_figures T) as (ns & os & ns' & os' & G & G').
  assert (Fn : forall N, fn T N = pair r (ns (fun y => y =?= N)) (ns' (fun y => y =?= N))).
  { intros N. symmetry. apply (f_name_is _ _ _ _ _ _ _ F T N). apply (measured_pair k r (name_bytes T N) _ _ (fg_name _ _ _ _ G N) (fun k' E => fg_name _ _ _ _ (G' k' E) N)). reflexivity. }
  rewrite (measured_pair k r (label_bytes T B) _ _ (fg_label _ _ _ _ G B) (fun k' E => fg_label _ _ _ _ (G' k' E) B)).
  assert (E : pair r (ns (fun y => abbrev y =?= B)) (ns' (fun y => abbrev y =?= B)) = label_value T B); [|now rewrite E].
  unfold label_value. rewrite (psum_ext _ _ _ (fun N _ => Fn N)), <- pair_sum. apply pair_ext.
  - apply (fg_names _ _ _ _ G); [apply labelled_once|intros x Ix; apply labelled_in in Ix; apply keq_iff, Ix|].
    intros x Px Nx. apply keq_iff in Px. pose proof (fg_nonneg _ _ _ _ G (fun y => y =?= x)) as Nn. destruct (Z.eq_dec (ns (fun y => y =?= x)) 0) as [E|E]; [exact E|]. exfalso. apply Nx. apply labelled_in. split; [|exact Px].
    apply names_present. left. exists (ns (fun y => y =?= x)). split; [now apply (fg_name _ _ _ _ G)|lia].
  - intros Nr. assert (X : exists k', r = Some k') by (destruct r as [k'|]; [eauto|congruence]). destruct X as (k' & Er). specialize (G' k' Er).
    apply (fg_names _ _ _ _ G'); [apply labelled_once|intros x Ix; apply labelled_in in Ix; apply keq_iff, Ix|].
    intros x Px Nx. apply keq_iff in Px. pose proof (fg_nonneg _ _ _ _ G' (fun y => y =?= x)) as Nn. destruct (Z.eq_dec (ns' (fun y => y =?= x)) 0) as [E|E]; [exact E|]. exfalso. apply Nx. apply labelled_in. split; [|exact Px].
    apply names_present. unfold present. right. rewrite Er. exists (ns' (fun y => y =?= x)). split; [now apply (fg_name _ _ _ _ G')|lia].
Qed.
Lemma own_pair T ns os ns' os' : figures T k ns os -> (forall k', r = Some k' -> figures T k' ns' os') ->
  forall own N, fo own T N = pair r (os own (fun y => y =?= N)) (os' own (fun y => y =?= N)).
Proof.
  intros G G' own N. symmetry. apply (f_sect_is _ _ _ _ _ _ _ F own T N). apply (measured_pair k r (own_bytes own (ColSect T N)) _ _ (fg_own _ _ _ _ G own N) (fun k' E => fg_own _ _ _ _ (G' k' E) own N)). reflexivity.
Qed.
Lemma base_is X T B v : measured k r (base_bytes X (ColSect T B)) v <-> v = base_value X T B.
Proof.
  destruct (both_figures T) as (ns & os & ns' & os' & G & G'). pose proof (own_pair T ns os ns' os' G G' (own_base X)) as Fo.
  rewrite (measured_pair k r (base_bytes X (ColSect T B)) _ _ (fg_base _ _ _ _ G X B) (fun k' E => fg_base _ _ _ _ (G' k' E) X B)).
  assert (E : pair r (os (own_base X) (fun y => abbrev y =?= B)) (os' (own_base X) (fun y => abbrev y =?= B)) = base_value X T B); [|now rewrite E].
  assert (Z0 : forall x, (abbrev x =?= B) = true -> ~ In x (labelled T B) -> fo (own_base X) T x = (0, 0)).
  { intros x Px Nx. apply own_unlisted. intros I. apply Nx. apply labelled_in. split; [exact I|now apply keq_iff]. }
  unfold base_value. rewrite (psum_ext _ _ _ (fun N _ => Fo N)), <- pair_sum. apply pair_ext.
  - apply (fg_owns _ _ _ _ G); [apply labelled_once|intros x Ix; apply labelled_in in Ix; apply keq_iff, Ix|].
    intros x Px Nx. specialize (Z0 x Px Nx). rewrite Fo in Z0. apply pair_zero in Z0. apply Z0.
  - intros Nr. assert (G2 : exists k', figures T k' ns' os') by (destruct r as [k'|]; [exists k'; now apply G'|congruence]). destruct G2 as (k' & G2).
    apply (fg_owns _ _ _ _ G2); [apply labelled_once|intros x Ix; apply labelled_in in Ix; apply keq_iff, Ix|].
    intros x Px Nx. specialize (Z0 x Px Nx). rewrite Fo in Z0. apply pair_zero in Z0. now apply Z0.
Qed.
(** the archives of a section by base name *)
Lemma archives_base T N X L : NoDup L -> (forall x, In x L -> basename x = X) -> (forall x, basename x = X -> ~ In x L -> look M T [N; x] = None) ->
  fo (own_base X) T N = psum (fun x => fo (of_archive x) T N) L.
Proof.
  intros D HL Hz. destruct (both_figures T) as (ns & os & ns' & os' & G & G'). pose proof (own_pair T ns os ns' os' G G') as Fo.
  assert (Z0 : forall x, basename x = X -> ~ In x L -> fo (of_archive x) T N = (0, 0)).
  { intros x Px Nx. rewrite <- (f_archive _ _ _ _ _ _ _ F T N x), (Hz x Px Nx). reflexivity. }
  rewrite (psum_ext _ _ _ (fun x _ => Fo (of_archive x) N)), <- pair_sum, Fo. apply pair_ext.
  - apply (fg_archives _ _ _ _ G); [exact D|exact HL|]. intros x Px Nx. specialize (Z0 x Px Nx). rewrite Fo in Z0. apply pair_zero in Z0. apply Z0.
  - intros Nr. assert (G2 : exists k', figures T k' ns' os') by (destruct r as [k'|]; [exists k'; now apply G'|congruence]). destruct G2 as (k' & G2).
    apply (fg_archives _ _ _ _ G2); [exact D|exact HL|]. intros x Px Nx. specialize (Z0 x Px Nx). rewrite Fo in Z0. apply pair_zero in Z0. now apply Z0.
Qed.

(** ** the unified map *)
Lemma section_label T t N s : dget T (m_types M) = Some t -> In (N, s) (t_sections t) -> dget N (t_sections t) = Some s /\ n_abbrev s = abbrev N /\ look M T [N] = Some (entry_of_node s) /\ wf_dict (n_sub s) /\ forall x ar, dget x (n_sub s) = Some ar -> n_abbrev ar = basename x /\ look M T [N; x] = Some (entry_of_node ar).
Proof.
  intros Et Is. assert (Wt : wf_type t). { destruct W as (_ & W2). rewrite Forall_forall in W2. apply dget_In in Et. exact (W2 _ Et). }
  assert (Es : dget N (t_sections t) = Some s) by (apply In_dget; [apply Wt|exact Is]).
  assert (L : look M T [N] = Some (entry_of_node s)) by (unfold look; rewrite Et; cbn [look_dict]; rewrite Es; reflexivity).
  split; [exact Es|]. split. { apply (f_label _ _ _ _ _ _ _ F) in L. apply label_abbrev in L. now symmetry. }
  split; [exact L|]. split. { destruct Wt as (_ & W3). rewrite Forall_forall in W3. specialize (W3 _ Is). apply W3. }
  intros x ar Ex. assert (L2 : look M T [N; x] = Some (entry_of_node ar)) by (unfold look; rewrite Et; cbn [look_dict]; rewrite Es; cbn; rewrite Ex; reflexivity).
  split; [|exact L2]. apply (f_label _ _ _ _ _ _ _ F) in L2. cbn [label entry_of_node e_abbrev] in L2. eapply after_last_unique; [exact L2|apply basename_after].
Qed.
Lemma with_label_names T t B : dget T (m_types M) = Some t -> map fst (with_label B (t_sections t)) = labelled T B.
Proof.
  intros Et. unfold labelled, names_of, with_label, keys. rewrite Et. assert (H : incl (t_sections t) (t_sections t)) by apply incl_refl. revert H. generalize (t_sections t) at 1 3 4. intros d. induction d as [|[N s] d IH]; intros I; [reflexivity|].
  cbn [filter map fst snd]. destruct (section_label T t N s Et (I _ (or_introl eq_refl))) as (_ & -> & _). assert (IH' := IH (fun y Y => I y (or_intror Y))). destruct (abbrev N =?= B); cbn [map fst]; now rewrite IH'.
Qed.
Lemma name_sums T B : (zsumf e_size (with_apath M T [B]), zsumf e_diff (with_apath M T [B])) = label_value T B.
Proof.
  destruct (dget T (m_types M)) as [t|] eqn:Et.
  - rewrite (with_apath1 _ _ _ _ Et), !zsumf_map. unfold label_value, psum. rewrite <- (with_label_names T t B Et), !zsumf_map.
    f_equal; apply zsumf_ext; intros [N s] I; apply filter_In in I; destruct I as (I & _); destruct (section_label T t N s Et I) as (_ & _ & L & _); cbn [fst snd]; rewrite <- (f_name _ _ _ _ _ _ _ F _ _ _ L); reflexivity.
  - unfold with_apath, label_value, labelled, names_of. rewrite Et. reflexivity.
Qed.
Lemma base_sums T B X : (zsumf e_size (with_apath M T [B; X]), zsumf e_diff (with_apath M T [B; X])) = base_value X T B.
Proof.
  destruct (dget T (m_types M)) as [t|] eqn:Et.
  - rewrite (with_apath2 _ _ _ _ _ Et), !zsumf_flat_map. unfold base_value. unfold psum at 1. rewrite <- (with_label_names T t B Et), !zsumf_map.
    assert (H : forall N s, In (N, s) (t_sections t) -> fo (own_base X) T N = psum (fun kx : str * arch => (n_size (snd kx), n_diff (snd kx))) (with_base X (n_sub s))).
    { intros N s I. destruct (section_label T t N s Et I) as (Es & _ & _ & Wd & H).
      rewrite (archives_base T N X (map fst (with_base X (n_sub s)))).
      - unfold psum. rewrite !zsumf_map. f_equal; apply zsumf_ext; intros [x ar] Ix; apply filter_In in Ix; destruct Ix as (Ix & _); apply In_dget in Ix; try exact Wd; destruct (H x ar Ix) as (_ & L); cbn [fst snd]; rewrite <- (f_archive _ _ _ _ _ _ _ F T N x), L; reflexivity.
      - apply NoDup_map_filter. exact Wd.
      - intros x Ix. apply List.in_map_iff in Ix. destruct Ix as ([x0 ar] & E & Ix). cbn [fst] in E. subst x0. apply filter_In in Ix. destruct Ix as (Ix & Ex). cbn [snd] in Ex. apply keq_iff in Ex. apply In_dget in Ix; [|exact Wd]. destruct (H x ar Ix) as (E & _). congruence.
      - intros x Ex Nx. unfold look. rewrite Et. cbn [look_dict]. rewrite Es. cbn. destruct (dget x (n_sub s)) as [ar|] eqn:Ed; [|reflexivity]. exfalso. apply Nx. apply List.in_map_iff. exists (x, ar). split; [reflexivity|].
        apply filter_In. split; [now apply dget_In|]. cbn [snd]. apply keq_iff. destruct (H x ar Ed) as (E & _). congruence. }
    f_equal; apply zsumf_ext; intros [N s] I; apply filter_In in I; destruct I as (I & _); cbn [fst snd]; rewrite (H N s I), zsumf_map; reflexivity.
  - unfold with_apath, base_value, labelled, names_of. rewrite Et. reflexivity.
Qed.
Lemma found_label T B : look (unify M) T [B] <> None <-> exists N, abbrev N = B /\ look M T [N] <> None.
Proof.
  rewrite unify_found. destruct (dget T (m_types M)) as [t|] eqn:Et.
  - rewrite (with_apath1 _ _ _ _ Et). split.
    + intros H. destruct (with_label B (t_sections t)) as [|[N s] q] eqn:E; [exfalso; apply H; reflexivity|]. assert (I : In (N, s) (with_label B (t_sections t))) by (rewrite E; now left).
      apply filter_In in I. destruct I as (I & Eb). apply keq_iff in Eb. destruct (section_label T t N s Et I) as (_ & E1 & E2 & _). exists N. cbn [snd] in Eb. split; congruence.
    + intros (N & Eb & L) H. unfold look in L. rewrite Et in L. cbn [look_dict] in L. destruct (dget N (t_sections t)) as [s|] eqn:Es; [|now apply L]. apply dget_In in Es. destruct (section_label T t N s Et Es) as (_ & E1 & _).
      apply map_eq_nil in H. assert (I : In (N, s) (with_label B (t_sections t))) by (apply filter_In; split; [exact Es|]; apply keq_iff; cbn [snd]; congruence). rewrite H in I. exact I.
  - unfold with_apath. rewrite Et. split; [intros X; congruence|]. intros (N & _ & L). unfold look in L. rewrite Et in L. congruence.
Qed.
Lemma found_base T B X : look (unify M) T [B; X] <> None <-> exists N x, abbrev N = B /\ basename x = X /\ look M T [N; x] <> None.
Proof.
  rewrite unify_found. destruct (dget T (m_types M)) as [t|] eqn:Et.
  - rewrite (with_apath2 _ _ _ _ _ Et). split.
    + intros H. destruct (flat_map _ (with_label B (t_sections t))) as [|e q] eqn:E; [exfalso; apply H; reflexivity|].
      assert (I : In e (flat_map (fun kv => map (fun kx => entry_of_node (snd kx)) (with_base X (n_sub (snd kv)))) (with_label B (t_sections t)))) by (rewrite E; now left).
      apply in_flat_map in I. destruct I as ([N s] & I & I2). apply List.in_map_iff in I2. destruct I2 as ([x ar] & _ & I2). cbn [snd] in I2. apply filter_In in I, I2. destruct I as (I & Eb), I2 as (I2 & Ex). apply keq_iff in Eb, Ex. cbn [snd] in Eb, Ex.
      destruct (section_label T t N s Et I) as (_ & E1 & _ & Wd & H2). apply In_dget in I2; [|exact Wd]. destruct (H2 x ar I2) as (E2 & L). exists N, x. split; [congruence|]. split; congruence.
    + intros (N & x & Eb & Ex & L) H. unfold look in L. rewrite Et in L. cbn [look_dict] in L. destruct (dget N (t_sections t)) as [s|] eqn:Es; [|now apply L]. cbn in L. destruct (dget x (n_sub s)) as [ar|] eqn:Ea; [|now apply L]. apply dget_In in Es.
      destruct (section_label T t N s Et Es) as (_ & E1 & _ & _ & H2). destruct (H2 x ar Ea) as (E2 & _).
      assert (I : In (entry_of_node ar) (flat_map (fun kv => map (fun kx => entry_of_node (snd kx)) (with_base X (n_sub (snd kv)))) (with_label B (t_sections t)))); [|rewrite H in I; exact I].
      apply in_flat_map. exists (N, s). split; [apply filter_In; split; [exact Es|]; apply keq_iff; cbn [snd]; congruence|]. apply List.in_map_iff. exists (x, ar). split; [reflexivity|]. apply filter_In. split; [now apply dget_In|]. apply keq_iff. cbn [snd]. congruence.
  - unfold with_apath. rewrite Et. split; [intros Y; congruence|]. intros (N & x & _ & _ & L). unfold look in L. rewrite Et in L. congruence.
Qed.
Lemma psum_labels {v : str -> Z * Z} T Bs : NoDup Bs -> (forall B, present k r (lists_label T B) -> In B Bs) -> psum v (names_of T) = psum (fun B => psum v (labelled T B)) Bs.
Proof.
  intros D C. assert (E : forall g : str -> Z, zsumf g (names_of T) = zsumf (fun B => zsumf g (labelled T B)) Bs).
  { intros g. transitivity (zsumf g (filter (fun N => (fun _ => true) (abbrev N)) (names_of T))); [now rewrite filter_true|]. rewrite (zsum_parts abbrev g (fun _ => true) Bs); [reflexivity|exact D|reflexivity|].
    intros N I _ Ni. exfalso. apply Ni. apply C. apply names_present in I. destruct I as [I|I]; [left; exists N; split; [now apply label_abbrev|exact I]|]. right. destruct r as [k'|]; [|exact I]. exists N. split; [now apply label_abbrev|exact I]. }
  unfold psum. rewrite !E. reflexivity.
Qed.
Lemma measured_ext {f g : account -> Z -> Prop} : (forall q n, f q n <-> g q n) -> forall v, measured k r f v <-> measured k r g v.
Proof. intros H v. unfold measured. rewrite H. destruct r as [k'|]; [|tauto]. split; intros (H1 & n & H2 & H3); (split; [exact H1|]); exists n; (split; [now apply H|exact H3]). Qed.

Lemma unified_final : ufinal a k r (unify M) fu label_value base_value.
Proof.
  assert (Ty : forall T t', dget T (m_types (unify M)) = Some t' -> exists t, dget T (m_types M) = Some t /\ t_size t' = t_size t /\ t_size_diff t' = t_size_diff t /\ t_used t' = t_used t /\ t_used_diff t' = t_used_diff t).
  { intros T t' E. destruct (unify_totals M T) as (H & _). rewrite E in H. destruct (dget T (m_types M)) as [t|]; [|discriminate]. injection H as H1 H2 H3 H4. exists t. now repeat split. }
  split.
  - apply wf_unify, W.
  - intros T t' E. destruct (Ty T t' E) as (t & Et & _ & _ & -> & ->). apply (f_used _ _ _ _ _ _ _ F T t Et).
  - apply (f_used_is _ _ _ _ _ _ _ F).
  - intros T. rewrite <- (f_listed _ _ _ _ _ _ _ F). destruct (unify_totals M T) as (H & _). destruct (dget T (m_types (unify M))), (dget T (m_types M)); try discriminate; split; congruence.
  - intros T B e E. destruct (unify_size M T [B]) as (E1 & E2). rewrite E in E1, E2. cbn [esize ediff] in E1, E2. rewrite E1, E2. apply name_sums.
  - apply label_is.
  - intros T B. rewrite found_label. split.
    + intros (N & Eb & L). apply (f_section _ _ _ _ _ _ _ F) in L. destruct L as [L|L]; [left; exists N; split; [now apply label_abbrev|exact L]|]. right. destruct r as [k'|]; [|exact L]. exists N. split; [now apply label_abbrev|exact L].
    + intros [(N & Lb & L)|L].
      * exists N. apply label_abbrev in Lb. split; [exact Lb|]. apply (f_section _ _ _ _ _ _ _ F). now left.
      * assert (X : exists k', r = Some k') by (destruct r as [k'|]; [eauto|contradiction]). destruct X as (k' & Er). rewrite Er in L. destruct L as (N & Lb & L). exists N. apply label_abbrev in Lb. split; [exact Lb|]. apply (f_section _ _ _ _ _ _ _ F). right. now rewrite Er.
  - intros T B x. destruct (unify_size M T [B; x]) as (-> & ->). apply base_sums.
  - apply base_is.
  - intros x T Bs D C v. rewrite (measured_ext (fun q n => base_total x (ColType T) q n Logic.I)).
    rewrite (f_type_is _ _ _ _ _ _ _ F (own_base x) T (names_of T) (names_once T)) by (intros N; apply names_present). unfold base_value. now rewrite (psum_labels T Bs D C).
  - intros x Ts Bs D C H v. rewrite (measured_ext (fun q n => base_total x ColTotal q n Logic.I)).
    rewrite (f_all_is _ _ _ _ _ _ _ F (own_base x) Ts names_of D C) by (intros T _; split; [apply names_once|intros N; apply names_present]).
    assert (E : psum (fun T => psum (fo (own_base x) T) (names_of T)) Ts = psum (fun T => psum (base_value x T) (Bs T)) Ts); [|now rewrite E].
    apply psum_ext. intros T IT. destruct (H T IT) as (H1 & H2). unfold base_value. apply (psum_labels T (Bs T) H1 H2).
  - intros x. split.
    + intros (T & B & L). apply found_base in L. destruct L as (N & y & _ & Ey & L). destruct (proj1 (f_places_archive _ _ _ _ _ _ _ F y) (ex_intro _ T (ex_intro _ N L))) as (i & P & Ei). exists i. split; [exact P|]. apply base_basename. congruence.
    + intros (i & P & Eb). apply base_basename in Eb. destruct (proj2 (f_places_archive _ _ _ _ _ _ _ F (it_archive i)) (ex_intro _ i (conj P eq_refl))) as (T & N & L). exists T, (abbrev N). apply found_base. exists N, (it_archive i). now repeat split.
  - intros T B e E. pose proof (unify_look M T [B]) as H. rewrite E in H. destruct H as (_ & _ & _ & q & Q). destruct q as [|y [|z q]]; try discriminate Q. now injection Q.
  - intros T B x e E. pose proof (unify_look M T [B; x]) as H. rewrite E in H. destruct H as (_ & _ & _ & q & Q). destruct q as [|y [|z [|w q]]]; try discriminate Q. now injection Q.
  - intros T t' E. destruct (Ty T t' E) as (t & Et & -> & -> & _ & _). apply (f_total _ _ _ _ _ _ _ F T t Et).
  - apply (f_image _ _ _ _ _ _ _ F).
Qed.
End Unified.
