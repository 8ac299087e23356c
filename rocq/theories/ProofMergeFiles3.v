From Coq Require Import Ascii String List ZArith Lia Bool Permutation Sorted.
From Verif Require Import Base MemMap SpecTree SpecOps Filter SpecFilter ProofFilter Pipeline SpecPipe SpecBuild SpecBytes SpecShape ProofOps ProofTrim ProofDiff ProofDiff2 ProofSummary ProofSummary2 ProofSummary3 Fixtures PyStr MapFile SpecMap
  ElfRead SpecElf Project SpecProject SpecEnd Chips SpecChips ProofChips ProofShape Deps Table SpecTable ProofTable ProofTable3 Formats ProofFormats Main SpecMain ProofMain ProofMain4 ProofMain5 Command SpecCommand SpecFail SpecReport
  ProofProject1 ProofCommand1 ProofCommand2 ProofCommand3 ProofCommand4 ProofCommand5 ProofCommand6 ProofReport1 ProofReport2 ProofReport3 ProofReport4 ProofReport5 ProofReport6 ProofUnify SpecMerge ProofMerge1 ProofMerge2 ProofMerge3 ProofMerge4 ProofMerge5
  SpecMergeFiles ProofMergeFiles1 ProofMergeFiles2.
Import ListNotations.
Open Scope list_scope.
Open Scope Z_scope.

Section Rows.
Variables (a : args) (k : account) (r : option account) (M : memmap) (fu : str -> Z * Z) (fn : str -> str -> Z * Z) (fo : (item -> bool) -> str -> str -> Z * Z).
Hypothesis F : final a k r M fu fn fo.
Hypothesis Au : a_unify a = true.
Hypothesis Ad : a_archive_dependencies a = false.
Let f := final_args a.
Let U := unify M.
Let G := unified_final a k r M fu fn fo F.
Let WU : wf_map U := u_wf _ _ _ _ _ _ _ G.
Let Ts := keys (m_types U).
Let Ns (T : str) : list str := match dget T (m_types U) with Some t => keys (t_sections t) | None => [] end.
Let base : dict str sentry := get_object_files_summary U f.
Let l := flat_map (g_obj true) (walk U DObjects).

Lemma f_total_is Y v : measured k r (file_bytes Y ColTotal) v <-> v = psum (fun T => psum (fo (own_file Y) T) (names_of M T)) Ts.
Proof.
  rewrite (measured_ext _ _ _ _ _ _ _ F (fun q n => file_total Y ColTotal q n Logic.I)). apply (f_all_is _ _ _ _ _ _ _ F).
  - apply (m_nodup_types _ _ _ _ _ _ _ G).
  - intros T. apply (m_types_present _ _ _ _ _ _ _ G).
  - intros T _. split; [apply (names_once _ _ _ _ _ _ _ F)|intros N; apply (names_present _ _ _ _ _ _ _ F)].
Qed.
Lemma f_type_is' Y T v : measured k r (file_bytes Y (ColType T)) v <-> v = psum (fo (own_file Y) T) (names_of M T).
Proof.
  rewrite (measured_ext _ _ _ _ _ _ _ F (fun q n => file_total Y (ColType T) q n Logic.I)). apply (f_type_is _ _ _ _ _ _ _ F); [apply (names_once _ _ _ _ _ _ _ F)|intros N; apply (names_present _ _ _ _ _ _ _ F)].
Qed.
Lemma f_unique Y c v w : measured k r (file_bytes Y c) v -> measured k r (file_bytes Y c) w -> v = w.
Proof.
  destruct c as [|T|T N].
  - rewrite !f_total_is. congruence.
  - rewrite !f_type_is'. congruence.
  - rewrite !(file_is _ _ _ _ _ _ _ F). congruence.
Qed.

(** what is added to the rows *)
Lemma In_l c : In c l -> exists X e, look U (c_t c) [c_s c; X; c_name c] = Some e /\ e_size e = c_size c /\ e_diff e = c_diff c /\ c_abbrev c = basename (c_name c) /\
  exists w, In w (walk U DObjects) /\ In c (g_obj true w) /\ wkey w = (c_t c, [c_s c; X; c_name c]).
Proof.
  intros I. apply in_flat_map in I. destruct I as (w & Iw & Ic).
  destruct (walk_shape _ _ _ Iw) as (_ & _ & _ & Sh & _). destruct (Sh eq_refl) as (s & x & o & Es & Ex & Eo & Ey).
  pose proof (chain_look_obj U w s x o WU (walk_chain _ _ _ Iw) Es Ex Eo) as L. pose proof (u_object M _ _ _ _ _ L) as E. cbn [entry_of_node e_abbrev] in E.
  assert (Ic2 := Ic). unfold g_obj in Ic. rewrite Es, Ex, Eo in Ic. destruct Ic as [<-|[]]. cbn [c_t c_s c_name c_size c_diff c_abbrev] in *.
  exists (fst x), (entry_of_node (snd o)). rewrite E. split; [exact L|]. split; [reflexivity|]. split; [reflexivity|]. split; [reflexivity|].
  exists w. split; [exact Iw|]. split; [rewrite E in Ic2; exact Ic2|]. unfold wkey, w_path. now rewrite Es, Ex, Eo, Ey.
Qed.
Lemma l_complete T B X Y e : look U T [B; X; Y] = Some e -> exists c, In c l /\ ckey c = (Y, (T, B)).
Proof.
  intros E. pose proof (u_object M _ _ _ _ _ E) as Ea. destruct (look_walk U DObjects T [B; X; Y] e) as (w & Iw & Ek & Ee); try assumption; try reflexivity; try discriminate.
  destruct (walk_shape _ _ _ Iw) as (_ & _ & _ & Sh & _). destruct (Sh eq_refl) as (s' & x' & o' & Es & Ex & Eo & Ey).
  unfold wkey, w_path in Ek. rewrite Es, Ex, Eo, Ey in Ek. injection Ek as K1 K2 K3 K4. unfold w_entry in Ee. rewrite Es, Ex, Eo, Ey in Ee. injection Ee as Ee. rewrite <- Ee in Ea. cbn [entry_of_node e_abbrev] in Ea.
  exists (Contrib (n_abbrev (snd o')) (basename (fst o')) (fst (w_type w)) (fst s') (n_size (snd o')) (n_diff (snd o'))). split.
  - apply in_flat_map. exists w. split; [assumption|]. unfold g_obj. rewrite Es, Ex, Eo. left. reflexivity.
  - unfold ckey. cbn [c_name c_t c_s]. rewrite K1, K2. f_equal. exact Ea.
Qed.
Lemma one_path T B X Y : (forall X', look U T [B; X'; Y] <> None -> X' = X) -> NoDup (map ckey (filter (of_sect Y T B) l)).
Proof.
  intros O. unfold l. rewrite ProofOps.filter_flat_map. apply (NoDup_flat_keys (fun w => filter (of_sect Y T B) (g_obj true w)) ckey wkey).
  - intros w. unfold g_obj. destruct (w_sect w), (w_arch w), (w_obj w); cbn [filter length]; try lia. destruct (of_sect _ _ _ _); cbn; lia.
  - assert (H : forall w c, In w (walk U DObjects) -> In c (filter (of_sect Y T B) (g_obj true w)) -> wkey w = (T, [B; X; Y])).
    { intros w c Iw Ic. apply filter_In in Ic. destruct Ic as (Ic & Os). unfold of_sect in Os. apply andb_true_iff in Os. destruct Os as (Os & O3). apply andb_true_iff in Os. destruct Os as (O1 & O2). apply keq_true in O1, O2, O3.
      destruct (walk_shape _ _ _ Iw) as (_ & _ & _ & Sh & _). destruct (Sh eq_refl) as (s & x & o & Es & Ex & Eo & Ey).
      pose proof (chain_look_obj U w s x o WU (walk_chain _ _ _ Iw) Es Ex Eo) as L. pose proof (u_object M _ _ _ _ _ L) as E. cbn [entry_of_node e_abbrev] in E.
      unfold g_obj in Ic. rewrite Es, Ex, Eo in Ic. destruct Ic as [<-|[]]. cbn [c_t c_s c_name] in *. subst T B. rewrite E in O1. subst Y.
      unfold wkey, w_path. rewrite Es, Ex, Eo, Ey. rewrite (O (fst x)); [reflexivity|]. rewrite L. discriminate. }
    intros w v c c' Iw Iv Ic Ic' _. now rewrite (H w c Iw Ic), (H v c' Iv Ic').
  - apply walk_nodup. exact WU.
Qed.
Lemma one_value (g : contrib -> Z) (h : SpecTree.entry -> Z) T B X Y : (forall X', look U T [B; X'; Y] <> None -> X' = X) ->
  (forall c, In c l -> exists X' e, look U (c_t c) [c_s c; X'; c_name c] = Some e /\ g c = h e) ->
  lastval g 0 (filter (of_sect Y T B) l) = match look U T [B; X; Y] with Some e => h e | None => 0 end.
Proof.
  intros O H. pose proof (one_path T B X Y O) as D.
  assert (K : forall c, In c (filter (of_sect Y T B) l) -> In c l /\ ckey c = (Y, (T, B))).
  { intros c Ic. apply filter_In in Ic. destruct Ic as (Ic & Os). split; [exact Ic|]. unfold of_sect in Os. apply andb_true_iff in Os. destruct Os as (Os & O3). apply andb_true_iff in Os. destruct Os as (O1 & O2). apply keq_true in O1, O2, O3. unfold ckey. congruence. }
  destruct (filter (of_sect Y T B) l) as [|c [|c' q]] eqn:Ef.
  - unfold lastval. cbn. destruct (look U T [B; X; Y]) as [e|] eqn:L; [|reflexivity]. exfalso. destruct (l_complete _ _ _ _ _ L) as (c & I & E).
    assert (J : In c (filter (of_sect Y T B) l)) by (apply filter_In; split; [exact I|]; unfold ckey in E; injection E as <- <- <-; apply of_sect_self). rewrite Ef in J. exact J.
  - unfold lastval. cbn. destruct (K c (or_introl eq_refl)) as (Ic & Ek). destruct (H c Ic) as (X' & e & L & Eg). pose proof Ek as Ek'. unfold ckey in Ek'. injection Ek' as E1 E2 E3.
    assert (EX : X' = X) by (apply O; rewrite <- E1, <- E2, <- E3, L; discriminate). rewrite Eg. rewrite <- E1, <- E2, <- E3, <- EX, L. reflexivity.
  - exfalso. destruct (K c (or_introl eq_refl)) as (_ & E1), (K c' (or_intror (or_introl eq_refl))) as (_ & E2). cbn [map] in D. inversion D as [|? ? N _]; subst. apply N. left. congruence.
Qed.

Lemma raw_right Y e : dget Y (object_files_summary_raw U f) = Some e -> (exists i, present k r (places i) /\ file_name i Y) /\ fentry_right k r a Y e.
Proof.
  intros E. rewrite objects_collect in E. change (a_unify f) with (a_unify a) in E. rewrite Au in E. fold l in E.
  assert (Kn : Forall (known (get_summary_memory_types U)) l) by (apply lobj_known; exact WU).
  destruct (totals_generic U l Y e (fun T => obj_row U true T Y) WU Kn) as (Kt & Sz & Sd & Ht);
    [intros T; apply objects_type_sum; [exact WU|]; intros w s x o Es Ex Eo; unfold g_obj; rewrite Es, Ex, Eo; repeat constructor|intros T; apply objects_type_sum; [exact WU|]; intros w s x o Es Ex Eo; unfold g_obj; rewrite Es, Ex, Eo; repeat constructor|exact E|].
  destruct (collect_ok (get_summary_memory_types U) l) as [_ C]. specialize (C Y). rewrite E in C. destruct C as (Ca & _ & _ & Ck & C).
  assert (Pr : forall c, In c l -> exists i, present k r (places i) /\ file_name i (c_name c)).
  { intros c I. destruct (In_l c I) as (X & e0 & L & _). assert (Nl : look U (c_t c) [c_s c; X; c_name c] <> None) by congruence. assert (X0 : exists t, dget (c_t c) (m_types M) = Some t).
    { unfold look in L. destruct (dget (c_t c) (m_types U)) as [t'|] eqn:Eu; [|discriminate]. exact (u_types M _ _ Eu). }
    destruct X0 as (t & Et). apply (look_u M _ t) in Nl; [|exact Et]. destruct (file_present _ _ _ _ _ _ _ F _ t _ _ _ Et Nl) as (i & P & _ & Fn). eauto. }
  assert (Nm : exists c, In c l /\ c_name c = Y /\ se_abbrev e = basename Y).
  { destruct (filter (of_name Y) l) as [|c q] eqn:Ef; [discriminate Ca|]. cbn in Ca. injection Ca as Ca. assert (I : In c (filter (of_name Y) l)) by (rewrite Ef; now left). apply filter_In in I. destruct I as (I & En). apply keq_true in En.
    exists c. split; [exact I|]. split; [exact En|]. destruct (In_l c I) as (_ & _ & _ & _ & _ & Ab & _). congruence. }
  destruct Nm as (c0 & I0 & En0 & Ab). destruct (Pr c0 I0) as (i0 & P0 & Fn0). rewrite En0 in Fn0. split; [eauto|].
  assert (Wt : wf_dict (se_types e)) by (unfold wf_dict; rewrite Kt; apply WU).
  assert (Ty : forall T st, In (T, st) (se_types e) -> (st_size st, st_diff st) = psum (fo (own_file Y) T) (names_of M T) /\ keys (st_sections st) = Ns T /\
    forall B q, dget B (st_sections st) = Some q -> ss_size q = lastval c_size 0 (filter (of_sect Y T B) l) /\ ss_diff q = lastval c_diff 0 (filter (of_sect Y T B) l) /\ ss_abbrev q = B).
  { intros T st I. apply In_dget in I; [|exact Wt]. split. { destruct (Ht T st I) as (-> & ->). apply (row_sums _ _ _ _ _ _ _ F). }
    specialize (C T). rewrite I, summary_mts, dget_dmap in C by exact WU. destruct (dget T (m_types U)) as [t'|] eqn:Eu; [|contradiction]. cbn [option_map] in C. destruct C as (C1 & _ & _ & C2). cbn [st_sections] in C1, C2.
    split. { rewrite C1. unfold Ns. rewrite Eu. apply keys_dmap. }
    intros B q Eq. specialize (C2 B). rewrite Eq, dget_dmap in C2. destruct (dget B (t_sections t')) as [s|] eqn:Es; [|contradiction]. cbn [option_map] in C2. destruct C2 as (A1 & A2 & A3). cbn [ss_abbrev ss_size ss_diff] in A1, A2, A3.
    split; [exact A2|]. split; [exact A3|]. rewrite A1. assert (L : look U T [B] = Some (entry_of_node s)) by (unfold look; rewrite Eu; cbn [look_dict]; rewrite Es; reflexivity). exact (u_label _ _ _ _ _ _ _ G _ _ _ L). }
  split.
  - rewrite Ab. apply file_basename in Fn0. rewrite <- Fn0. apply basename_plain. apply (basename_after (it_object i0)).
  - apply f_total_is. unfold psum at 1. rewrite Sz, Sd. f_equal; apply (zsumf_sections _ _ _ _ Wt Kt); intros T st Et; apply dget_In in Et; destruct (Ty T st Et) as (E1 & _); rewrite <- E1; reflexivity.
  - exact Wt.
  - intros T. change (map fst (se_types e)) with (keys (se_types e)). rewrite Kt. symmetry. apply (m_types_present _ _ _ _ _ _ _ G).
  - intros T st I. apply f_type_is'. apply (Ty T st I).
  - intros T st I. destruct (Ty T st I) as (_ & Ek & _). change (NoDup (keys (st_sections st))). rewrite Ek. apply (m_nodup_sections _ _ _ _ _ _ _ G).
  - intros T st B I. destruct (Ty T st I) as (_ & Ek & _). change (map fst (st_sections st)) with (keys (st_sections st)). rewrite Ek. symmetry. apply (m_sections_present _ _ _ _ _ _ _ G).
  - intros T st B q (X & O) I Iq. destruct (Ty T st I) as (_ & Ek & H). assert (Ws : wf_dict (st_sections st)) by (unfold wf_dict; rewrite Ek; apply (m_nodup_sections _ _ _ _ _ _ _ G)). apply In_dget in Iq; [|exact Ws].
    destruct (H B q Iq) as (-> & -> & _). apply (file_is _ _ _ _ _ _ _ F). rewrite <- (section_sums _ _ _ _ _ _ _ F T B X Y O).
    assert (Ox : forall X', look U T [B; X'; Y] <> None -> X' = X).
    { intros X' L. assert (X0 : exists t, dget T (m_types M) = Some t). { unfold look in L. destruct (dget T (m_types U)) as [t'|] eqn:Eu; [|congruence]. exact (u_types M _ _ Eu). }
      destruct X0 as (t & Et). apply (look_u M _ t) in L; [|exact Et]. destruct (file_present _ _ _ _ _ _ _ F _ t _ _ _ Et L) as (i & P & Bn & Fn). specialize (O i P Fn). apply base_basename in O, Bn. congruence. }
    rewrite (one_value c_size e_size T B X Y Ox), (one_value c_diff e_diff T B X Y Ox); [reflexivity| |].
    + intros c Ic. destruct (In_l c Ic) as (X2 & e2 & L2 & E2 & E3 & _). exists X2, e2. split; [exact L2|congruence].
    + intros c Ic. destruct (In_l c Ic) as (X2 & e2 & L2 & E2 & E3 & _). exists X2, e2. split; [exact L2|congruence].
  - intros T st B q I Iq. destruct (Ty T st I) as (_ & Ek & H). assert (Ws : wf_dict (st_sections st)) by (unfold wf_dict; rewrite Ek; apply (m_nodup_sections _ _ _ _ _ _ _ G)). apply In_dget in Iq; [|exact Ws]. apply (H B q Iq).
Qed.
Lemma raw_complete T B X Y : look U T [B; X; Y] <> None -> dget Y (object_files_summary_raw U f) <> None.
Proof.
  intros L. rewrite objects_collect. change (a_unify f) with (a_unify a). rewrite Au. fold l. apply collect_keys. destruct (look U T [B; X; Y]) as [e|] eqn:E; [|congruence]. destruct (l_complete _ _ _ _ _ E) as (c & I & Ec).
  exists c. split; [exact I|]. unfold ckey in Ec. congruence.
Qed.
Lemma f_wf_base : wf_dict base.
Proof. unfold base, get_object_files_summary. apply wf_rem_unchanged. rewrite objects_collect. apply wf_collect. Qed.
Lemma base_get y : dget y base = match dget y (object_files_summary_raw U f) with Some e => if changed f (se_diff e) then Some e else None | None => None end.
Proof. unfold base, get_object_files_summary. apply rem_unchanged_get. rewrite objects_collect. apply wf_collect. Qed.
Lemma f_base_row y e : In (y, e) base -> (exists i, present k r (places i) /\ file_name i y) /\ fentry_right k r a y e /\ differs a (se_size e, se_diff e).
Proof.
  intros I. apply In_dget in I; [|apply f_wf_base]. rewrite base_get in I. destruct (dget y (object_files_summary_raw U f)) as [e'|] eqn:E; [|discriminate]. destruct (changed f (se_diff e')) eqn:C; [|discriminate]. injection I as ->.
  destruct (raw_right y e E) as (H1 & H2). split; [exact H1|]. split; [exact H2|]. apply (counts_differs a Ad (se_diff e)); [reflexivity|]. now apply changed_counts.
Qed.
Lemma f_base_has i y v : present k r (places i) -> file_name i y -> measured k r (file_bytes y ColTotal) v -> differs a v -> In y (keys base).
Proof.
  intros P Fi Mv Dv. rewrite <- dget_keys, base_get. apply file_basename in Fi.
  destruct (proj2 (f_places_object _ _ _ _ _ _ _ F (it_archive i) (it_object i))) as (T & N & L); [eauto|].
  assert (Lu : look U T [abbrev N; basename (it_archive i); y] <> None).
  { destruct (dget T (m_types M)) as [t|] eqn:Et; [|unfold look in L; rewrite Et in L; congruence]. apply (look_u M T t _ Et).
    unfold look in L. rewrite Et in L. cbn [look_dict] in L. destruct (dget N (t_sections t)) as [s|] eqn:Es; [|now destruct L]. cbn in L. destruct (dget (it_archive i) (n_sub s)) as [ar|] eqn:Ea; [|now destruct L]. cbn in L. destruct (dget (it_object i) (n_sub ar)) as [ob|] eqn:Eo; [|now destruct L].
    pose proof (dget_In _ _ _ Es) as Is. destruct (section_label _ _ _ _ _ _ _ F T t N s Et Is) as (_ & E1 & _ & _ & H2). destruct (H2 _ _ Ea) as (E2 & _). destruct (archive_objects _ _ _ _ _ _ _ F T t N s _ ar Et Es Ea) as (_ & H3). destruct (H3 _ _ Eo) as (E3 & _).
    rewrite <- E1, <- E2, <- Fi, <- E3. apply List.in_map_iff. exists ([n_abbrev s; n_abbrev ar; n_abbrev ob], entry_of_node ob). split; [reflexivity|].
    unfold aents_type. apply in_flat_map. exists (N, s). split; [exact Is|]. right. apply List.in_map_iff. exists ([n_abbrev ar; n_abbrev ob], entry_of_node ob). split; [reflexivity|].
    apply in_flat_map. exists (it_archive i, ar). split; [now apply dget_In|]. right. apply List.in_map_iff. exists ([n_abbrev ob], entry_of_node ob). split; [reflexivity|].
    apply in_flat_map. exists (it_object i, ob). split; [now apply dget_In|]. now left. }
  apply raw_complete in Lu. destruct (dget y (object_files_summary_raw U f)) as [e|] eqn:E; [|congruence]. destruct (raw_right y e E) as (_ & R).
  assert (C : changed f (se_diff e) = true).
  { apply changed_counts. apply (counts_differs a Ad (se_diff e) v); [|exact Dv]. now rewrite (f_unique _ _ _ _ Mv (fe_size _ _ _ _ _ R)). }
  rewrite C. discriminate.
Qed.
Lemma f_sorted_right y e e' : sorted_sentry f e e' -> fentry_right k r a y e -> fentry_right k r a y e'.
Proof.
  intros (Ea & Sz & Sd & S1) [R0 R1 R2 R3 R4 R5 R6 R7 R8]. split.
  - congruence.
  - now rewrite <- Sz, <- Sd.
  - eapply Permutation_NoDup; [apply (sorted_from_keys _ _ _ _ _ S1)|exact R2].
  - intros T. rewrite <- R3. split; apply Permutation_in; [apply Permutation_sym|]; apply (sorted_from_keys _ _ _ _ _ S1).
  - intros T st I. destruct (sorted_from_r _ _ _ _ _ S1 _ _ I) as (st0 & I0 & <- & <- & _). now apply R4.
  - intros T st I. destruct (sorted_from_r _ _ _ _ _ S1 _ _ I) as (st0 & I0 & _ & _ & S2). eapply Permutation_NoDup; [apply (sorted_from_keys _ _ _ _ _ S2)|]. eapply R5, I0.
  - intros T st N I. destruct (sorted_from_r _ _ _ _ _ S1 _ _ I) as (st0 & I0 & _ & _ & S2). rewrite <- (R6 T st0 N I0). split; apply Permutation_in; [apply Permutation_sym|]; apply (sorted_from_keys _ _ _ _ _ S2).
  - intros T st N q O I Iq. destruct (sorted_from_r _ _ _ _ _ S1 _ _ I) as (st0 & I0 & _ & _ & S2). destruct (sorted_from_r _ _ _ _ _ S2 _ _ Iq) as (q0 & Iq0 & ->). eapply R7; eassumption.
  - intros T st N q I Iq. destruct (sorted_from_r _ _ _ _ _ S1 _ _ I) as (st0 & I0 & _ & _ & S2). destruct (sorted_from_r _ _ _ _ _ S2 _ _ Iq) as (q0 & Iq0 & ->). eapply R8; eassumption.
Qed.
Lemma merged_files : fentries_right k r a (get_summary_sorted base f) /\ entries_sorted a (get_summary_sorted base f).
Proof.
  pose proof (summary_sort_ok base f) as S1. pose proof f_wf_base as Wb. split.
  - split; [|split].
    + eapply Permutation_NoDup; [apply (sorted_from_keys _ _ _ _ _ S1)|exact Wb].
    + intros n. split.
      * intros I. apply (Permutation_in _ (Permutation_sym (sorted_from_keys _ _ _ _ _ S1))) in I. apply List.in_map_iff in I. destruct I as ((n0 & e) & E & I). cbn in E. subst n0.
        destruct (f_base_row _ _ I) as ((i & P & E) & R & D). exists i, (se_size e, se_diff e). split; [exact P|]. split; [exact E|]. split; [apply R|exact D].
      * intros (i & v & P & Bn & Mv & Dv). apply (Permutation_in _ (sorted_from_keys _ _ _ _ _ S1)). eapply f_base_has; eassumption.
    + intros n e I. destruct (sorted_from_r _ _ _ _ _ S1 _ _ I) as (e0 & I0 & So). destruct (f_base_row _ _ I0) as (_ & R & _). eapply f_sorted_right; eassumption.
  - split.
    + apply (sorted_from_order _ _ _ _ _ S1 (fun e => pick (a_sort_diff a) (se_size e, se_diff e))). intros v v' (_ & E1 & E2 & _). unfold pick. cbn [fst snd]. rewrite <- E1, <- E2. reflexivity.
    + apply Forall_forall. intros (n & e) I. destruct (sorted_from_r _ _ _ _ _ S1 _ _ I) as (e0 & I0 & _ & _ & _ & S2). cbn [snd]. split.
      * apply (sorted_from_order _ _ _ _ _ S2 (fun e => pick (a_sort_diff a) (st_size e, st_diff e))). intros v v' (E1 & E2 & _). unfold pick. cbn [fst snd]. rewrite <- E1, <- E2. reflexivity.
      * apply Forall_forall. intros (T & st) It. destruct (sorted_from_r _ _ _ _ _ S2 _ _ It) as (st0 & It0 & _ & _ & S3). cbn [snd].
        apply (sorted_from_order _ _ _ _ _ S3 (fun e => pick (a_sort_diff a) (ss_size e, ss_diff e))). intros v v' <-. reflexivity.
Qed.

(** ** as a table *)
Lemma f_filtered ps : asked_filter a ps -> exists keep, get_summary_filtered base f = filter keep base /\ forall kv, keep kv = true <-> selected ps (se_abbrev (snd kv)).
Proof.
  unfold asked_filter, selected. destruct ps as [q|]; intros As.
  - destruct As as (E & Fp). destruct (written_filter_ok se_abbrev base f q E Fp) as (keep & Ek & H). exists keep. split; [exact Ek|]. intros (n & e). specialize (H n e). pose proof (merged_abbrev a Au) as Af. fold f in Af. rewrite Af in H. exact H.
  - exists (fun _ => true). split; [|intros; split; [auto|reflexivity]]. unfold get_summary_filtered, summary_filtered. change (a_filter f) with (a_filter a). rewrite As. now rewrite filter_true.
Qed.
Lemma f_value_is e y c : fentry_right k r a y e -> (of_section c -> one_archive k r y) -> In c (cols U) -> measured k r (file_bytes y c) (col_value e c).
Proof.
  intros R O I. destruct c as [|T|T N]; cbn [col_value].
  - apply R.
  - apply col_type in I. apply (m_types_present _ _ _ _ _ _ _ G) in I. apply (fe_types _ _ _ _ _ R) in I. apply In_key_dget in I. destruct I as (st & E). rewrite E. apply dget_In in E. now apply (fe_type _ _ _ _ _ R).
  - destruct (m_col_sect _ _ _ _ _ _ _ G T N I) as (z & L). assert (Tp : In T (keys (m_types U))).
    { unfold look in L. fold U in L. destruct (dget T (m_types U)) eqn:E; [|discriminate]. eapply dget_Some_key, E. }
    apply (m_types_present _ _ _ _ _ _ _ G) in Tp. apply (fe_types _ _ _ _ _ R) in Tp. apply In_key_dget in Tp. destruct Tp as (st & E). rewrite E. apply dget_In in E.
    assert (Np : present k r (lists_label T N)) by (apply (u_section _ _ _ _ _ _ _ G); congruence).
    apply (fe_sections _ _ _ _ _ R T st N E) in Np. apply In_key_dget in Np. destruct Np as (q & Eq). rewrite Eq. apply dget_In in Eq. exact (fe_section _ _ _ _ _ R T st N q (O Logic.I) E Eq).
Qed.
Definition f_is_row (kv : str * sentry) (y : str) : Prop := fst kv = y /\ fentry_right k r a y (snd kv).
Lemma merged_files_table ps tb : asked_filter a ps -> is_report U f (list_ascii_of_string "Object File") (get_summary_filtered base f) (TOk tb) ->
  exists ys, ftable_names k r a ps ys /\
    (ys = [] -> tb_headers tb = [list_ascii_of_string "Object File"; list_ascii_of_string "Total Size"] /\ tb_rows tb = []) /\
    (ys <> [] -> exists groups titles i c, mcolumns_right k r a groups /\ tb_headers tb = list_ascii_of_string "Object File" :: titles /\ Forall2 mcolumn_title (columns groups) titles /\
       Forall2 (ftable_row k r a (columns groups)) ys (tb_rows tb) /\
       names_column (tb_headers tb) (a_sort a) (S i) /\ nth_error (columns groups) i = Some c /\
       ((of_section c -> forall y, In y ys -> one_archive k r y) -> StronglySorted (fun x y => forall v w, measured k r (file_bytes x c) v -> measured k r (file_bytes y c) w ->
         in_order (a_sort_reverse a) (pick (a_sort_diff a) v) (pick (a_sort_diff a) w)) ys)).
Proof.
  intros As Rp. destruct (f_filtered ps As) as (keep & Ek & Hk). set (d := get_summary_filtered base f) in *. pose proof f_wf_base as Wb.
  assert (Rows : forall rows, Permutation d rows -> Forall2 f_is_row rows (map fst rows)).
  { intros rows P. assert (H : forall q, incl q rows -> Forall2 f_is_row q (map fst q)); [|apply H, incl_refl].
    induction q as [|[n e] q IH]; intros I; [constructor|]. cbn [map]. constructor; [|apply IH; intros x X; apply I; now right]. split; [reflexivity|].
    assert (Ie : In (n, e) d) by (apply (Permutation_in _ (Permutation_sym P)), I; now left). rewrite Ek in Ie. apply filter_In in Ie. destruct Ie as (Ie & _). apply (f_base_row _ _ Ie). }
  assert (Items : forall rows, Permutation d rows -> ftable_names k r a ps (map fst rows)).
  { intros rows P. split.
    - eapply Permutation_NoDup; [apply Permutation_map, P|]. rewrite Ek. apply NoDup_map_filter. exact Wb.
    - intros n. split.
      + intros I. apply (Permutation_in _ (Permutation_sym (Permutation_map fst P))) in I. apply List.in_map_iff in I. destruct I as ((n0 & e) & E & I). cbn [fst] in E. subst n0.
        rewrite Ek in I. apply filter_In in I. destruct I as (I & Kp). apply Hk in Kp. destruct (f_base_row n e I) as ((i & Pi & Bn) & R & D). cbn [snd] in Kp. rewrite (fe_name _ _ _ _ _ R) in Kp.
        exists i, (se_size e, se_diff e). split; [exact Pi|]. split; [exact Bn|]. split; [apply R|]. split; [exact D|exact Kp].
      + intros (i & v & Pi & Bn & Mv & Dv & Se). pose proof (f_base_has i n v Pi Bn Mv Dv) as I. apply List.in_map_iff in I. destruct I as ((n0 & e) & E & I). cbn [fst] in E. subst n0.
        destruct (f_base_row n e I) as (_ & R & _). apply (Permutation_in _ (Permutation_map fst P)). apply List.in_map_iff. exists (n, e). split; [reflexivity|]. rewrite Ek. apply filter_In. split; [exact I|]. apply Hk. cbn [snd]. now rewrite (fe_name _ _ _ _ _ R). }
  destruct d as [|kv0 d0] eqn:Ed.
  - exists []. split; [apply (Items []); reflexivity|]. split; [|congruence]. intros _. apply (report_empty U f); [exact WU|exact Rp].
  - destruct (report_shows _ _ _ _ _ WU Rp) as (Hd & i & c & rows & Nc & Ec & P & Fr & So); [discriminate|]. exists (map fst rows). split; [now apply Items|]. pose proof (Rows rows P) as Fi.
    split. { intros E. apply map_eq_nil in E. subst rows. apply Permutation_sym, Permutation_nil in P. discriminate. }
    intros _. exists (groups_of U), (map (col_title U f) (cols U)), i, c. rewrite columns_of. split; [apply (m_columns _ _ _ _ _ _ _ G)|]. split; [exact Hd|]. split; [apply (m_titles _ _ _ _ _ _ _ G Au)|]. split; [|split; [|split; [exact Ec|]]].
    + refine (f2_trans _ _ _ _ _ _ _ Fi Fr). intros kv it row (E & R) (cells & -> & Fc). exists cells. pose proof (merged_abbrev a Au) as Af. fold f in Af. rewrite Af. split; [f_equal; apply (fe_name _ _ _ _ _ R)|].
      eapply f2_impl; [|exact Fc]. intros c0 s0 Ic Cc. exists (col_value (snd kv) c0). assert (E2 : a_diff f = a_diff a). { cbn. unfold conflict_diff. now rewrite Ad. } rewrite E2 in Cc. split; [exact Cc|].
      intros O. apply f_value_is; [exact R|exact O|exact Ic].
    + rewrite Hd. exact Nc.
    + intros O. apply nth_error_In in Ec. assert (Fi' : Forall2 (fun kv y => f_is_row kv y /\ In y (map fst rows)) rows (map fst rows)).
      { clear - Fi. assert (H : forall ys zs, Forall2 f_is_row zs ys -> forall qs, incl ys qs -> Forall2 (fun kv y => f_is_row kv y /\ In y qs) zs ys); [|apply (H _ _ Fi), incl_refl].
        intros ys zs Q. induction Q as [|z y zs ys Q0 Q IH]; intros qs I; constructor; [split; [exact Q0|apply I; now left]|apply IH; intros u X; apply I; now right]. }
      refine (sorted_f2 _ _ _ _ _ _ Fi' So). intros x x' y y' (Rx & Ix) (Ry & Iy) H v w Mv Mw.
      rewrite (f_unique _ _ _ _ Mv (f_value_is _ _ _ (proj2 Rx) (fun X => O X _ Ix) Ec)), (f_unique _ _ _ _ Mw (f_value_is _ _ _ (proj2 Ry) (fun X => O X _ Iy) Ec)). exact H.
Qed.
End Rows.
