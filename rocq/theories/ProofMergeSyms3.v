From Coq Require Import Ascii String List ZArith Lia Bool Permutation Sorted.
From Verif Require Import Base MemMap SpecTree SpecOps Filter SpecFilter ProofFilter Pipeline SpecPipe SpecBuild SpecBytes SpecShape ProofOps ProofTrim ProofDiff ProofDiff2 ProofSummary ProofSummary2 ProofSummary3 Fixtures PyStr MapFile SpecMap
  ElfRead SpecElf Project SpecProject SpecEnd Chips SpecChips ProofChips ProofShape Deps Table SpecTable ProofTable ProofTable3 Formats ProofFormats Main SpecMain ProofMain ProofMain4 ProofMain5 Command SpecCommand SpecFail SpecReport
  ProofProject1 ProofCommand1 ProofCommand2 ProofCommand3 ProofCommand4 ProofCommand5 ProofCommand6 ProofReport1 ProofReport2 ProofReport3 ProofReport4 ProofReport5 ProofReport6 ProofUnify SpecMerge ProofMerge1 ProofMerge2 ProofMerge3 ProofMerge4 ProofMerge5
  SpecMergeFiles ProofMergeFiles1 ProofMergeFiles2 ProofMergeFiles3 SpecSyms SpecSymbols ProofSymbols1 ProofSymbols2 ProofSymbols3 ProofSymbols4 ProofSymbols5 SpecMergeSyms ProofMergeSyms1 ProofMergeSyms2.
Import ListNotations.
Open Scope list_scope.
Open Scope Z_scope.

Section Rows.
Variables (a : args) (X : str) (q : account) (r : option account) (M : memmap) (fo : (item -> bool) -> str -> str -> Z * Z).
Hypothesis F : sfinal a q r M fo.
Hypothesis Au : a_unify a = true.
Hypothesis Ad : a_archive_dependencies a = false.
Hypothesis Ax : a_archive_details a = Some X.
Let f := final_args a.
Let U := unify M.
Let WU : wf_map U := wf_unify M (sf_wf _ _ _ _ _ F).
Let Ts := keys (m_types U).
Let Ns (T : str) : list str := match dget T (m_types U) with Some t => keys (t_sections t) | None => [] end.
Let l := flat_map (g_sym true) (symbols_walk U X).
Variable base : dict str sentry.
Hypothesis Bs : get_symbols_summary U f = Ok base.

Lemma n_nodup_types : NoDup Ts.
Proof. apply WU. Qed.
Lemma n_types_present T : present q r (lists_type a T) <-> In T Ts.
Proof. rewrite <- (n_listed _ _ _ _ _ F). apply dget_keys. Qed.
Lemma n_nodup_sections T : NoDup (Ns T).
Proof.
  unfold Ns. destruct (dget T (m_types U)) as [t|] eqn:E; [|constructor]. destruct WU as (_ & W2). rewrite Forall_forall in W2. apply dget_In in E. specialize (W2 _ E). apply W2.
Qed.
Lemma n_sections_present T N : present q r (lists_label T N) <-> In N (Ns T).
Proof.
  rewrite <- (n_section _ _ _ _ _ F). fold U. unfold Ns, look. destruct (dget T (m_types U)) as [t|]; [|split; [intros Z; congruence|intros []]]. cbn [look_dict].
  rewrite <- dget_keys. destruct (dget N (t_sections t)); cbn; split; congruence.
Qed.
Lemma n_measured_ext {g h : account -> Z -> Prop} : (forall k n, g k n <-> h k n) -> forall v, measured q r g v <-> measured q r h v.
Proof. intros H v. unfold measured. rewrite H. destruct r as [k'|]; [|tauto]. split; intros (H1 & n & H2 & H3); (split; [exact H1|]); exists n; (split; [now apply H|exact H3]). Qed.
Lemma n_total_is Y v : measured q r (named_bytes X Y ColTotal) v <-> v = psum (fun T => psum (fo (own_named X Y) T) (names_of M T)) Ts.
Proof.
  rewrite (n_measured_ext (fun k n => named_total X Y ColTotal k n Logic.I)). apply (sf_all_is _ _ _ _ _ F).
  - apply n_nodup_types.
  - intros T. apply n_types_present.
  - intros T _. split; [apply (n_names_once _ _ _ _ _ F)|intros N; apply (n_names_present _ _ _ _ _ F)].
Qed.
Lemma n_type_is Y T v : measured q r (named_bytes X Y (ColType T)) v <-> v = psum (fo (own_named X Y) T) (names_of M T).
Proof.
  rewrite (n_measured_ext (fun k n => named_total X Y (ColType T) k n Logic.I)). apply (sf_type_is _ _ _ _ _ F); [apply (n_names_once _ _ _ _ _ F)|intros N; apply (n_names_present _ _ _ _ _ F)].
Qed.
Lemma n_unique Y c v w : measured q r (named_bytes X Y c) v -> measured q r (named_bytes X Y c) w -> v = w.
Proof.
  destruct c as [|T|T N].
  - rewrite !n_total_is. congruence.
  - rewrite !n_type_is. congruence.
  - rewrite !(named_is _ _ _ _ _ F). congruence.
Qed.

(** what is added to the rows *)
Lemma w_key w c : In w (symbols_walk U X) -> In c (g_sym true w) -> exists O e, look U (c_t c) [c_s c; X; O; c_name c] = Some e /\ e_size e = c_size c /\ e_diff e = c_diff c /\ c_abbrev c = c_name c /\ wkey w = (c_t c, [c_s c; X; O; c_name c]).
Proof.
  intros Iw Ic. apply In_symbols_walk in Iw. destruct Iw as (Iw & x0 & Ex0 & Ea).
  destruct (walk_shape _ _ _ Iw) as (_ & _ & _ & _ & Sh). destruct (Sh eq_refl) as (s & x & o & y & Es & Ex & Eo & Ey). rewrite Ex in Ex0. injection Ex0 as <-.
  pose proof (chain_look_sym U w s x o y WU (walk_chain _ _ _ Iw) Es Ex Eo Ey) as L. pose proof (n_ends4 M _ _ _ _ _ _ L) as E. cbn [entry_of_sym e_abbrev] in E.
  destruct (chain_look_arch U w s x WU (walk_chain _ _ _ Iw) Es Ex) as (L2 & _). pose proof (n_ends2 M _ _ _ _ L2) as E2. cbn [entry_of_node e_abbrev] in E2. assert (E3 : fst x = X) by congruence.
  unfold g_sym in Ic. rewrite Es, Ex, Eo, Ey in Ic. destruct Ic as [<-|[]]. cbn [c_t c_s c_name c_size c_diff c_abbrev] in *.
  exists (fst o), (entry_of_sym (snd y)). rewrite E, <- E3. split; [exact L|]. split; [reflexivity|]. split; [reflexivity|]. split; [reflexivity|]. unfold wkey, w_path. now rewrite Es, Ex, Eo, Ey.
Qed.
Lemma n_In_l c : In c l -> exists O e, look U (c_t c) [c_s c; X; O; c_name c] = Some e /\ e_size e = c_size c /\ e_diff e = c_diff c /\ c_abbrev c = c_name c.
Proof.
  intros I. apply in_flat_map in I. destruct I as (w & Iw & Ic). destruct (w_key w c Iw Ic) as (O & e & H1 & H2 & H3 & H4 & _). exists O, e. auto.
Qed.
Lemma n_l_complete T B O Y e : look U T [B; X; O; Y] = Some e -> exists c, In c l /\ ckey c = (Y, (T, B)).
Proof.
  intros E. pose proof (n_ends4 M _ _ _ _ _ _ E) as Ea. destruct (look_walk U DAll T [B; X; O; Y] e) as (w & Iw & Ek & Ee); try assumption; try reflexivity; try discriminate.
  destruct (walk_shape _ _ _ Iw) as (_ & _ & _ & _ & Sh). destruct (Sh eq_refl) as (s & x & o & y & Es & Ex & Eo & Ey).
  destruct (chain_look_arch U w s x WU (walk_chain _ _ _ Iw) Es Ex) as (L2 & _). pose proof (n_ends2 M _ _ _ _ L2) as E2. cbn [entry_of_node e_abbrev] in E2.
  unfold wkey, w_path in Ek. rewrite Es, Ex, Eo, Ey in Ek. injection Ek as K1 K2 K3 K4 K5. unfold w_entry in Ee. rewrite Es, Ex, Eo, Ey in Ee. injection Ee as Ee. rewrite <- Ee in Ea. cbn [entry_of_sym e_abbrev] in Ea.
  exists (Contrib (y_abbrev (snd y)) (fst y) (fst (w_type w)) (fst s) (y_size (snd y)) (y_diff (snd y))). split.
  - apply in_flat_map. exists w. split.
    + unfold symbols_walk. apply filter_In. split; [exact Iw|]. rewrite Ex. apply keq_iff. congruence.
    + unfold g_sym. rewrite Es, Ex, Eo, Ey. left. reflexivity.
  - unfold ckey. cbn [c_name c_t c_s]. rewrite K1, K2. f_equal. exact Ea.
Qed.
Lemma n_one_path T B O Y : (forall O', look U T [B; X; O'; Y] <> None -> O' = O) -> NoDup (map ckey (filter (of_sect Y T B) l)).
Proof.
  intros Of. unfold l. rewrite ProofOps.filter_flat_map. apply (NoDup_flat_keys (fun w => filter (of_sect Y T B) (g_sym true w)) ckey wkey).
  - intros w. unfold g_sym. destruct (w_sect w), (w_arch w), (w_obj w), (w_sym w); cbn [filter length]; try lia. destruct (of_sect _ _ _ _); cbn; lia.
  - assert (H : forall w c, In w (symbols_walk U X) -> In c (filter (of_sect Y T B) (g_sym true w)) -> wkey w = (T, [B; X; O; Y])).
    { intros w c Iw Ic. apply filter_In in Ic. destruct Ic as (Ic & Os). unfold of_sect in Os. apply andb_true_iff in Os. destruct Os as (Os & O3). apply andb_true_iff in Os. destruct Os as (O1 & O2). apply keq_true in O1, O2, O3.
      destruct (w_key w c Iw Ic) as (o & e & L & _ & _ & _ & ->). subst T B Y. rewrite (Of o); [reflexivity|]. congruence. }
    intros w v c c' Iw Iv Ic Ic' _. now rewrite (H w c Iw Ic), (H v c' Iv Ic').
  - unfold symbols_walk. apply NoDup_map_filter. apply walk_nodup. exact WU.
Qed.
Lemma n_one_value (g : contrib -> Z) (h : SpecTree.entry -> Z) T B O Y : (forall O', look U T [B; X; O'; Y] <> None -> O' = O) ->
  (forall c, In c l -> exists O' e, look U (c_t c) [c_s c; X; O'; c_name c] = Some e /\ g c = h e) ->
  lastval g 0 (filter (of_sect Y T B) l) = match look U T [B; X; O; Y] with Some e => h e | None => 0 end.
Proof.
  intros Of H. pose proof (n_one_path T B O Y Of) as D.
  assert (K : forall c, In c (filter (of_sect Y T B) l) -> In c l /\ ckey c = (Y, (T, B))).
  { intros c Ic. apply filter_In in Ic. destruct Ic as (Ic & Os). split; [exact Ic|]. unfold of_sect in Os. apply andb_true_iff in Os. destruct Os as (Os & O3). apply andb_true_iff in Os. destruct Os as (O1 & O2). apply keq_true in O1, O2, O3. unfold ckey. congruence. }
  destruct (filter (of_sect Y T B) l) as [|c [|c' p]] eqn:Ef.
  - unfold lastval. cbn. destruct (look U T [B; X; O; Y]) as [e|] eqn:L; [|reflexivity]. exfalso. destruct (n_l_complete _ _ _ _ _ L) as (c & I & E).
    assert (J : In c (filter (of_sect Y T B) l)) by (apply filter_In; split; [exact I|]; unfold ckey in E; injection E as <- <- <-; apply of_sect_self). rewrite Ef in J. exact J.
  - unfold lastval. cbn. destruct (K c (or_introl eq_refl)) as (Ic & Ek). destruct (H c Ic) as (O' & e & L & Eg). pose proof Ek as Ek'. unfold ckey in Ek'. injection Ek' as E1 E2 E3.
    assert (EX : O' = O) by (apply Of; rewrite <- E1, <- E2, <- E3, L; discriminate). rewrite Eg. rewrite <- E1, <- E2, <- E3, <- EX, L. reflexivity.
  - exfalso. destruct (K c (or_introl eq_refl)) as (_ & E1), (K c' (or_intror (or_introl eq_refl))) as (_ & E2). cbn [map] in D. inversion D as [|? ? N _]; subst. apply N. left. congruence.
Qed.

Let raw := symbols_summary_raw U f X.
Lemma raw_collect : raw = collect (get_summary_memory_types U) l.
Proof. unfold raw. rewrite symbols_collect. change (a_unify f) with (a_unify a). rewrite Au. reflexivity. Qed.
Lemma n_raw_right Y e : dget Y raw = Some e -> (exists i, present q r (places i) /\ named X Y i) /\ nentry_right q r a X Y e.
Proof.
  intros E. rewrite raw_collect in E.
  assert (Kn : Forall (known (get_summary_memory_types U)) l) by (apply lsym_known; exact WU).
  destruct (totals_generic U l Y e (fun T => sym_row U true X T Y) WU Kn) as (Kt & Sz & Sd & Ht);
    [intros T; apply symbols_type_sum; [exact WU|]; intros w s x o y Es Ex Eo Ey; unfold g_sym; rewrite Es, Ex, Eo, Ey; repeat constructor|intros T; apply symbols_type_sum; [exact WU|]; intros w s x o y Es Ex Eo Ey; unfold g_sym; rewrite Es, Ex, Eo, Ey; repeat constructor|exact E|].
  destruct (collect_ok (get_summary_memory_types U) l) as [_ C]. specialize (C Y). rewrite E in C. destruct C as (Ca & _ & _ & Ck & C).
  assert (Nm : exists c, In c l /\ c_name c = Y /\ se_abbrev e = Y).
  { destruct (filter (of_name Y) l) as [|c p] eqn:Ef; [discriminate Ca|]. cbn in Ca. injection Ca as Ca. assert (I : In c (filter (of_name Y) l)) by (rewrite Ef; now left). apply filter_In in I. destruct I as (I & En). apply keq_true in En.
    exists c. split; [exact I|]. split; [exact En|]. destruct (n_In_l c I) as (_ & _ & _ & _ & _ & Ab). congruence. }
  destruct Nm as (c0 & I0 & En0 & Ab). split.
  { destruct (n_In_l c0 I0) as (O & e0 & L & _). rewrite En0 in L. assert (Nl : look U (c_t c0) [c_s c0; X; O; Y] <> None) by congruence. destruct (n_present _ _ _ _ _ F _ _ _ _ _ Nl) as (i & P & Nm & _). eauto. }
  assert (Wt : wf_dict (se_types e)) by (unfold wf_dict; rewrite Kt; apply WU).
  assert (Ty : forall T st, In (T, st) (se_types e) -> (st_size st, st_diff st) = psum (fo (own_named X Y) T) (names_of M T) /\ keys (st_sections st) = Ns T /\ forall B z, dget B (st_sections st) = Some z -> ss_size z = lastval c_size 0 (filter (of_sect Y T B) l) /\ ss_diff z = lastval c_diff 0 (filter (of_sect Y T B) l) /\ ss_abbrev z = B).
  { intros T st I. apply In_dget in I; [|exact Wt]. split. { destruct (Ht T st I) as (-> & ->). apply (n_row_sums _ _ _ _ _ F). }
    specialize (C T). rewrite I, summary_mts, dget_dmap in C by exact WU. destruct (dget T (m_types U)) as [t'|] eqn:Eu; [|contradiction]. cbn [option_map] in C. destruct C as (C1 & _ & _ & C2). cbn [st_sections] in C1, C2.
    split. { rewrite C1. unfold Ns. rewrite Eu. apply keys_dmap. }
    intros B z Eq. specialize (C2 B). rewrite Eq, dget_dmap in C2. destruct (dget B (t_sections t')) as [s|] eqn:Es; [|contradiction]. cbn [option_map] in C2. destruct C2 as (A1 & A2 & A3). cbn [ss_abbrev ss_size ss_diff] in A1, A2, A3.
    split; [exact A2|]. split; [exact A3|]. rewrite A1. assert (L : look U T [B] = Some (entry_of_node s)) by (unfold look; rewrite Eu; cbn [look_dict]; rewrite Es; reflexivity). exact (n_ends M _ _ _ L). }
  split.
  - exact Ab.
  - apply n_total_is. unfold psum at 1. rewrite Sz, Sd. f_equal; apply (zsumf_sections _ _ _ _ Wt Kt); intros T st Et; apply dget_In in Et; destruct (Ty T st Et) as (E1 & _); rewrite <- E1; reflexivity.
  - exact Wt.
  - intros T. change (map fst (se_types e)) with (keys (se_types e)). rewrite Kt. symmetry. apply n_types_present.
  - intros T st I. apply n_type_is. apply (Ty T st I).
  - intros T st I. destruct (Ty T st I) as (_ & Ek & _). change (NoDup (keys (st_sections st))). rewrite Ek. apply n_nodup_sections.
  - intros T st B I. destruct (Ty T st I) as (_ & Ek & _). change (map fst (st_sections st)) with (keys (st_sections st)). rewrite Ek. symmetry. apply n_sections_present.
  - intros T st B z (O & Of) I Iq. destruct (Ty T st I) as (_ & Ek & H). assert (Ws : wf_dict (st_sections st)) by (unfold wf_dict; rewrite Ek; apply n_nodup_sections). apply In_dget in Iq; [|exact Ws].
    destruct (H B z Iq) as (-> & -> & _). apply (named_is _ _ _ _ _ F). rewrite <- (n_section_sums _ _ _ _ _ F T B X O Y Of).
    assert (Ox : forall O', look U T [B; X; O'; Y] <> None -> O' = O).
    { intros O' L. destruct (n_present _ _ _ _ _ F _ _ _ _ _ L) as (i & P & Nm & Fn). specialize (Of i P Nm). apply file_basename in Of, Fn. congruence. }
    rewrite (n_one_value c_size e_size T B O Y Ox), (n_one_value c_diff e_diff T B O Y Ox); [reflexivity| |].
    + intros c Ic. destruct (n_In_l c Ic) as (X2 & e2 & L2 & E2 & E3 & _). exists X2, e2. split; [exact L2|congruence].
    + intros c Ic. destruct (n_In_l c Ic) as (X2 & e2 & L2 & E2 & E3 & _). exists X2, e2. split; [exact L2|congruence].
  - intros T st B z I Iq. destruct (Ty T st I) as (_ & Ek & H). assert (Ws : wf_dict (st_sections st)) by (unfold wf_dict; rewrite Ek; apply n_nodup_sections). apply In_dget in Iq; [|exact Ws]. apply (H B z Iq).
Qed.
Lemma n_base_is : base = rem_summary_unchanged f raw.
Proof.
  pose proof Bs as B. unfold get_symbols_summary in B. change (a_archive_details f) with (a_archive_details a) in B. rewrite Ax in B. destruct (symbols_walk U X); [discriminate|]. injection B as <-. reflexivity.
Qed.
Lemma n_wf_base : wf_dict base.
Proof. rewrite n_base_is. apply wf_rem_unchanged. rewrite raw_collect. apply wf_collect. Qed.
Lemma n_base_get y : dget y base = match dget y raw with Some e => if changed f (se_diff e) then Some e else None | None => None end.
Proof. rewrite n_base_is. apply rem_unchanged_get. rewrite raw_collect. apply wf_collect. Qed.
Lemma n_exist : exists i, symbol_of X q r i.
Proof.
  destruct (symbols_found U f X base WU) as (T & N & c & ob & y & H); [exact Ax|exact Bs|]. unfold sym_val in H. destruct (look U T [N; c]) as [e|] eqn:E; [|congruence]. apply (n_ends2 M) in E.
  destruct (e_abbrev e =?= X) eqn:K; [|congruence]. apply keq_true in K. assert (Ec : c = X) by congruence. rewrite Ec in H. destruct (n_present _ _ _ _ _ F _ _ _ _ _ H) as (i & P & (Bn & _) & _). exists i. split; [exact P|exact Bn].
Qed.
Lemma n_base_row y e : In (y, e) base -> (exists i, present q r (places i) /\ named X y i) /\ nentry_right q r a X y e /\ differs a (se_size e, se_diff e).
Proof.
  intros I. apply In_dget in I; [|apply n_wf_base]. rewrite n_base_get in I. destruct (dget y raw) as [e'|] eqn:E; [|discriminate]. destruct (changed f (se_diff e')) eqn:C; [|discriminate]. injection I as ->.
  destruct (n_raw_right y e E) as (H1 & H2). split; [exact H1|]. split; [exact H2|]. apply (counts_differs a Ad (se_diff e)); [reflexivity|]. now apply changed_counts.
Qed.
Lemma n_base_has i y v : present q r (places i) -> named X y i -> measured q r (named_bytes X y ColTotal) v -> differs a v -> In y (keys base).
Proof.
  intros P Nm Mv Dv. rewrite <- dget_keys, n_base_get. destruct (n_there _ _ _ _ _ F X y i P Nm) as (T & B & Lu). fold U in Lu.
  assert (R0 : dget y raw <> None).
  { rewrite raw_collect. apply collect_keys. destruct (look U T [B; X; basename (it_object i); y]) as [e|] eqn:E; [|congruence]. destruct (n_l_complete _ _ _ _ _ E) as (c & I & Ec). exists c. split; [exact I|]. unfold ckey in Ec. congruence. }
  destruct (dget y raw) as [e|] eqn:E; [|congruence]. destruct (n_raw_right y e E) as (_ & R).
  assert (C : changed f (se_diff e) = true).
  { apply changed_counts. apply (counts_differs a Ad (se_diff e) v); [|exact Dv]. now rewrite (n_unique _ _ _ _ Mv (ne_size _ _ _ _ _ _ R)). }
  rewrite C. discriminate.
Qed.
Lemma n_sorted_right y e e' : sorted_sentry f e e' -> nentry_right q r a X y e -> nentry_right q r a X y e'.
Proof.
  intros (Ea & Sz & Sd & S1) [R0 R1 R2 R3 R4 R5 R6 R7 R8]. split.
  - congruence.
  - now rewrite <- Sz, <- Sd.
  - eapply Permutation_NoDup; [apply (sorted_from_keys _ _ _ _ _ S1)|exact R2].
  - intros T. rewrite <- R3. split; apply Permutation_in; [apply Permutation_sym|]; apply (sorted_from_keys _ _ _ _ _ S1).
  - intros T st I. destruct (sorted_from_r _ _ _ _ _ S1 _ _ I) as (st0 & I0 & <- & <- & _). now apply R4.
  - intros T st I. destruct (sorted_from_r _ _ _ _ _ S1 _ _ I) as (st0 & I0 & _ & _ & S2). eapply Permutation_NoDup; [apply (sorted_from_keys _ _ _ _ _ S2)|]. eapply R5, I0.
  - intros T st N I. destruct (sorted_from_r _ _ _ _ _ S1 _ _ I) as (st0 & I0 & _ & _ & S2). rewrite <- (R6 T st0 N I0). split; apply Permutation_in; [apply Permutation_sym|]; apply (sorted_from_keys _ _ _ _ _ S2).
  - intros T st N z O I Iq. destruct (sorted_from_r _ _ _ _ _ S1 _ _ I) as (st0 & I0 & _ & _ & S2). destruct (sorted_from_r _ _ _ _ _ S2 _ _ Iq) as (z0 & Iz0 & ->). eapply R7; eassumption.
  - intros T st N z I Iq. destruct (sorted_from_r _ _ _ _ _ S1 _ _ I) as (st0 & I0 & _ & _ & S2). destruct (sorted_from_r _ _ _ _ _ S2 _ _ Iq) as (z0 & Iz0 & ->). eapply R8; eassumption.
Qed.
Lemma merged_symbols : nentries_right X q r a (get_summary_sorted base f) /\ entries_sorted a (get_summary_sorted base f).
Proof.
  pose proof (summary_sort_ok base f) as S1. pose proof n_wf_base as Wb. split.
  - split; [|split].
    + eapply Permutation_NoDup; [apply (sorted_from_keys _ _ _ _ _ S1)|exact Wb].
    + intros n. split.
      * intros I. apply (Permutation_in _ (Permutation_sym (sorted_from_keys _ _ _ _ _ S1))) in I. apply List.in_map_iff in I. destruct I as ((n0 & e) & E & I). cbn in E. subst n0.
        destruct (n_base_row _ _ I) as ((i & P & E) & R & D). exists i, (se_size e, se_diff e). split; [exact P|]. split; [exact E|]. split; [apply R|exact D].
      * intros (i & v & P & Bn & Mv & Dv). apply (Permutation_in _ (sorted_from_keys _ _ _ _ _ S1)). eapply n_base_has; eassumption.
    + intros n e I. destruct (sorted_from_r _ _ _ _ _ S1 _ _ I) as (e0 & I0 & So). destruct (n_base_row _ _ I0) as (_ & R & _). eapply n_sorted_right; eassumption.
  - split.
    + apply (sorted_from_order _ _ _ _ _ S1 (fun e => pick (a_sort_diff a) (se_size e, se_diff e))). intros v v' (_ & E1 & E2 & _). unfold pick. cbn [fst snd]. rewrite <- E1, <- E2. reflexivity.
    + apply Forall_forall. intros (n & e) I. destruct (sorted_from_r _ _ _ _ _ S1 _ _ I) as (e0 & I0 & _ & _ & _ & S2). cbn [snd]. split.
      * apply (sorted_from_order _ _ _ _ _ S2 (fun e => pick (a_sort_diff a) (st_size e, st_diff e))). intros v v' (E1 & E2 & _). unfold pick. cbn [fst snd]. rewrite <- E1, <- E2. reflexivity.
      * apply Forall_forall. intros (T & st) It. destruct (sorted_from_r _ _ _ _ _ S2 _ _ It) as (st0 & It0 & _ & _ & S3). cbn [snd].
        apply (sorted_from_order _ _ _ _ _ S3 (fun e => pick (a_sort_diff a) (ss_size e, ss_diff e))). intros v v' <-. reflexivity.
Qed.

(** ** as a table *)
Lemma n_columns : mcolumns_right q r a (groups_of U).
Proof.
  unfold groups_of. split; [|split].
  - rewrite map_map. cbn [fst]. apply WU.
  - intros T. rewrite map_map. cbn [fst]. symmetry. apply n_types_present.
  - intros T Bl I. apply List.in_map_iff in I. destruct I as ((T0 & t) & E & I). cbn [fst snd] in E. injection E as -> <-.
    assert (Et : dget T (m_types U) = Some t) by (apply In_dget; [apply WU|exact I]). split.
    + pose proof (n_nodup_sections T) as H. cbv zeta beta in H. unfold Ns in H. rewrite Et in H. exact H.
    + intros N. symmetry. pose proof (n_sections_present T N) as H. unfold Ns in H. rewrite Et in H. exact H.
Qed.
Lemma n_col_sect T N : In (ColSect T N) (cols U) -> exists x, look U T [N] = Some x.
Proof.
  unfold cols. intros [Z|I]; [discriminate|]. apply in_flat_map in I. destruct I as ((T0 & t) & It & [Z|I]); [discriminate|]. apply List.in_map_iff in I. destruct I as ((N0 & s) & E & Is). cbn [fst snd] in *. injection E as -> ->.
  assert (Et : dget T (m_types U) = Some t) by (apply In_dget; [apply WU|exact It]).
  assert (Es : dget N (t_sections t) = Some s). { apply In_dget; [|exact Is]. destruct WU as (_ & W2). rewrite Forall_forall in W2. specialize (W2 _ It). apply W2. }
  unfold look. rewrite Et. cbn [look_dict]. rewrite Es. cbn. eauto.
Qed.
Lemma n_titles : Forall2 mcolumn_title (cols U) (map (col_title U f) (cols U)).
Proof.
  assert (H : forall l0, incl l0 (cols U) -> Forall2 mcolumn_title l0 (map (col_title U f) l0)); [|apply H, incl_refl].
  induction l0 as [|c l0 IH]; intros I; [constructor|]. cbn [map]. constructor; [|apply IH; intros x Z; apply I; now right].
  destruct c as [|T|T N]; cbn [mcolumn_title col_title]; try reflexivity. destruct (n_col_sect T N (I _ (or_introl eq_refl))) as (x & L). rewrite L.
  pose proof (merged_abbrev a Au) as Af. fold f in Af. rewrite Af. apply (n_ends M _ _ _ L).
Qed.
Lemma n_filtered ps : asked_filter a ps -> exists keep, get_summary_filtered base f = filter keep base /\ forall kv, keep kv = true <-> selected ps (se_abbrev (snd kv)).
Proof.
  unfold asked_filter, selected. destruct ps as [pl|]; intros As.
  - destruct As as (E & Fp). destruct (written_filter_ok se_abbrev base f pl E Fp) as (keep & Ek & H). exists keep. split; [exact Ek|]. intros (n & e). specialize (H n e). pose proof (merged_abbrev a Au) as Af. fold f in Af. rewrite Af in H. exact H.
  - exists (fun _ => true). split; [|intros; split; [auto|reflexivity]]. unfold get_summary_filtered, summary_filtered. change (a_filter f) with (a_filter a). rewrite As. now rewrite filter_true.
Qed.
Lemma n_value_is e y c : nentry_right q r a X y e -> (of_section c -> one_file q r X y) -> In c (cols U) -> measured q r (named_bytes X y c) (col_value e c).
Proof.
  intros R O I. destruct c as [|T|T N]; cbn [col_value].
  - apply R.
  - apply col_type in I. apply n_types_present in I. apply (ne_types _ _ _ _ _ _ R) in I. apply In_key_dget in I. destruct I as (st & E). rewrite E. apply dget_In in E. now apply (ne_type _ _ _ _ _ _ R).
  - destruct (n_col_sect T N I) as (z & L). assert (Tp : In T (keys (m_types U))).
    { unfold look in L. fold U in L. destruct (dget T (m_types U)) eqn:E; [|discriminate]. eapply dget_Some_key, E. }
    apply n_types_present in Tp. apply (ne_types _ _ _ _ _ _ R) in Tp. apply In_key_dget in Tp. destruct Tp as (st & E). rewrite E. apply dget_In in E.
    assert (Np : present q r (lists_label T N)) by (apply (n_section _ _ _ _ _ F); fold U; rewrite L; discriminate).
    apply (ne_sections _ _ _ _ _ _ R T st N E) in Np. apply In_key_dget in Np. destruct Np as (z0 & Eq). rewrite Eq. apply dget_In in Eq. exact (ne_section _ _ _ _ _ _ R T st N z0 (O Logic.I) E Eq).
Qed.
Definition n_is_row (kv : str * sentry) (y : str) : Prop := fst kv = y /\ nentry_right q r a X y (snd kv).
Lemma merged_symbols_table ps tb : asked_filter a ps -> is_report U f (list_ascii_of_string "Symbol") (get_summary_filtered base f) (TOk tb) ->
  exists ys, ntable_names X q r a ps ys /\
    (ys = [] -> tb_headers tb = [list_ascii_of_string "Symbol"; list_ascii_of_string "Total Size"] /\ tb_rows tb = []) /\
    (ys <> [] -> exists groups titles i c, mcolumns_right q r a groups /\ tb_headers tb = list_ascii_of_string "Symbol" :: titles /\ Forall2 mcolumn_title (columns groups) titles /\
       Forall2 (ntable_row X q r a (columns groups)) ys (tb_rows tb) /\
       names_column (tb_headers tb) (a_sort a) (S i) /\ nth_error (columns groups) i = Some c /\
       ((of_section c -> forall y, In y ys -> one_file q r X y) -> StronglySorted (fun x y => forall v w, measured q r (named_bytes X x c) v -> measured q r (named_bytes X y c) w ->
         in_order (a_sort_reverse a) (pick (a_sort_diff a) v) (pick (a_sort_diff a) w)) ys)).
Proof.
  intros As Rp. destruct (n_filtered ps As) as (keep & Ek & Hk). set (d := get_summary_filtered base f) in *. pose proof n_wf_base as Wb.
  assert (Rows : forall rows, Permutation d rows -> Forall2 n_is_row rows (map fst rows)).
  { intros rows P. assert (H : forall l0, incl l0 rows -> Forall2 n_is_row l0 (map fst l0)); [|apply H, incl_refl].
    induction l0 as [|[n e] l0 IH]; intros I; [constructor|]. cbn [map]. constructor; [|apply IH; intros x Z; apply I; now right]. split; [reflexivity|].
    assert (Ie : In (n, e) d) by (apply (Permutation_in _ (Permutation_sym P)), I; now left). rewrite Ek in Ie. apply filter_In in Ie. destruct Ie as (Ie & _). apply (n_base_row _ _ Ie). }
  assert (Items : forall rows, Permutation d rows -> ntable_names X q r a ps (map fst rows)).
  { intros rows P. split.
    - eapply Permutation_NoDup; [apply Permutation_map, P|]. rewrite Ek. apply NoDup_map_filter. exact Wb.
    - intros n. split.
      + intros I. apply (Permutation_in _ (Permutation_sym (Permutation_map fst P))) in I. apply List.in_map_iff in I. destruct I as ((n0 & e) & E & I). cbn [fst] in E. subst n0.
        rewrite Ek in I. apply filter_In in I. destruct I as (I & Kp). apply Hk in Kp. destruct (n_base_row n e I) as ((i & Pi & Bn) & R & D). cbn [snd] in Kp. rewrite (ne_name _ _ _ _ _ _ R) in Kp.
        exists i, (se_size e, se_diff e). split; [exact Pi|]. split; [exact Bn|]. split; [apply R|]. split; [exact D|exact Kp].
      + intros (i & v & Pi & Bn & Mv & Dv & Se). pose proof (n_base_has i n v Pi Bn Mv Dv) as I. apply List.in_map_iff in I. destruct I as ((n0 & e) & E & I). cbn [fst] in E. subst n0.
        destruct (n_base_row n e I) as (_ & R & _). apply (Permutation_in _ (Permutation_map fst P)). apply List.in_map_iff. exists (n, e). split; [reflexivity|]. rewrite Ek. apply filter_In. split; [exact I|]. apply Hk. cbn [snd]. now rewrite (ne_name _ _ _ _ _ _ R). }
  destruct d as [|kv0 d0] eqn:Ed.
  - exists []. split; [apply (Items []); reflexivity|]. split; [|congruence]. intros _. apply (report_empty U f); [exact WU|exact Rp].
  - destruct (report_shows _ _ _ _ _ WU Rp) as (Hd & i & c & rows & Nc & Ec & P & Fr & So); [discriminate|]. exists (map fst rows). split; [now apply Items|]. pose proof (Rows rows P) as Fi.
    split. { intros E. apply map_eq_nil in E. subst rows. apply Permutation_sym, Permutation_nil in P. discriminate. }
    intros _. exists (groups_of U), (map (col_title U f) (cols U)), i, c. rewrite columns_of. split; [apply n_columns|]. split; [exact Hd|]. split; [apply n_titles|]. split; [|split; [|split; [exact Ec|]]].
    + refine (f2_trans _ _ _ _ _ _ _ Fi Fr). intros kv it row (E & R) (cells & -> & Fc). exists cells. pose proof (merged_abbrev a Au) as Af. fold f in Af. rewrite Af. split; [f_equal; apply (ne_name _ _ _ _ _ _ R)|].
      eapply f2_impl; [|exact Fc]. intros c0 s0 Ic Cc. exists (col_value (snd kv) c0). assert (E2 : a_diff f = a_diff a). { cbn. unfold conflict_diff. now rewrite Ad. } rewrite E2 in Cc. split; [exact Cc|].
      intros O. apply n_value_is; [exact R|exact O|exact Ic].
    + rewrite Hd. exact Nc.
    + intros O. apply nth_error_In in Ec. assert (Fi' : Forall2 (fun kv y => n_is_row kv y /\ In y (map fst rows)) rows (map fst rows)).
      { clear - Fi. assert (H : forall ys zs, Forall2 n_is_row zs ys -> forall qs, incl ys qs -> Forall2 (fun kv y => n_is_row kv y /\ In y qs) zs ys); [|apply (H _ _ Fi), incl_refl].
        intros ys zs Q. induction Q as [|z y zs ys Q0 Q IH]; intros qs I; constructor; [split; [exact Q0|apply I; now left]|apply IH; intros u Z; apply I; now right]. }
      refine (sorted_f2 _ _ _ _ _ _ Fi' So). intros x x' y y' (Rx & Ix) (Ry & Iy) H v w Mv Mw.
      rewrite (n_unique _ _ _ _ Mv (n_value_is _ _ _ (proj2 Rx) (fun Z => O Z _ Ix) Ec)), (n_unique _ _ _ _ Mw (n_value_is _ _ _ (proj2 Ry) (fun Z => O Z _ Iy) Ec)). exact H.
Qed.
End Rows.
