From Coq Require Import Ascii String List ZArith Lia Bool Permutation Sorted.
From Verif Require Import Base MemMap SpecTree SpecOps Filter SpecFilter ProofFilter Pipeline SpecPipe SpecBuild SpecBytes SpecShape ProofOps ProofTrim ProofDiff ProofDiff2 ProofSummary ProofSummary2 ProofSummary3 Fixtures PyStr MapFile SpecMap
  ElfRead SpecElf Project SpecProject SpecEnd ProofShape Chips SpecChips ProofChips Deps Table SpecTable ProofTable ProofTable3 Formats ProofFormats Main SpecMain ProofMain ProofMain4 ProofMain5 Command SpecCommand SpecFail SpecReport
  ProofCommand1 ProofCommand2 ProofCommand3 ProofCommand4 ProofCommand5 ProofCommand6 ProofReport1 ProofReport2 ProofReport3 ProofReport4 ProofReport5 ProofReport6 ProofUnify SpecMerge ProofMerge1 ProofMerge2 ProofMerge3 ProofMerge4.
Import ListNotations.
Open Scope list_scope.
Open Scope Z_scope.

Section Entries.
Variables (a : args) (k : account) (r : option account) (M : memmap) (fu : str -> Z * Z) (gn : str -> str -> Z * Z) (go : str -> str -> str -> Z * Z).
Hypothesis F : ufinal a k r M fu gn go.
Hypothesis Au : a_unify a = true.
Hypothesis Ad : a_archive_dependencies a = false.
Let f := final_args a.
Let W : wf_map M := u_wf _ _ _ _ _ _ _ F.
Let Ts := keys (m_types M).
Let Ns (T : str) : list str := match dget T (m_types M) with Some t => keys (t_sections t) | None => [] end.
Let base : dict str sentry := get_archives_summary M f.
Let val (x : str) (T N : str) := look M T [N; x].

Lemma m_nodup_types : NoDup Ts.
Proof. apply W. Qed.
Lemma m_types_present T : present k r (lists_type a T) <-> In T Ts.
Proof. rewrite <- (u_listed _ _ _ _ _ _ _ F). apply dget_keys. Qed.
Lemma m_nodup_sections T : NoDup (Ns T).
Proof.
  unfold Ns. destruct (dget T (m_types M)) as [t|] eqn:E; [|constructor]. destruct W as (_ & W2). rewrite Forall_forall in W2. apply dget_In in E. specialize (W2 _ E). apply W2.
Qed.
Lemma m_sections_present T N : present k r (lists_label T N) <-> In N (Ns T).
Proof.
  rewrite <- (u_section _ _ _ _ _ _ _ F). unfold Ns, look. destruct (dget T (m_types M)) as [t|]; [|split; [intros X; congruence|intros []]]. cbn [look_dict].
  rewrite <- dget_keys. destruct (dget N (t_sections t)); cbn; split; congruence.
Qed.
Lemma m_total_is x v : measured k r (base_bytes x ColTotal) v <-> v = psum (fun T => psum (go x T) (Ns T)) Ts.
Proof.
  apply (u_all_is _ _ _ _ _ _ _ F); [apply m_nodup_types|intros T; apply m_types_present|]. intros T _. split; [apply m_nodup_sections|intros N; apply m_sections_present].
Qed.
Lemma m_type_is x T v : measured k r (base_bytes x (ColType T)) v <-> v = psum (go x T) (Ns T).
Proof. apply (u_type_is _ _ _ _ _ _ _ F); [apply m_nodup_sections|intros N; apply m_sections_present]. Qed.

Lemma m_row_right x e : row_ok M (val x) e -> se_abbrev e = x -> mentry_right k r a x e.
Proof.
  intros (Kt & Sz & Sd & H) Ea.
  assert (Wt : wf_dict (se_types e)) by (unfold wf_dict; rewrite Kt; apply W).
  assert (Sect : forall T st, In (T, st) (se_types e) -> keys (st_sections st) = Ns T /\ wf_dict (st_sections st) /\ (st_size st, st_diff st) = psum (go x T) (Ns T) /\
     forall N q, dget N (st_sections st) = Some q -> (ss_size q, ss_diff q) = go x T N).
  { intros T st I. apply In_dget in I; [|exact Wt]. destruct (H T st I) as (Ks & S1 & S2 & S3).
    assert (Ek : keys (st_sections st) = Ns T) by (unfold Ns; destruct (dget T (m_types M)) as [t|]; [now injection Ks|discriminate]).
    assert (Ws : wf_dict (st_sections st)) by (unfold wf_dict; rewrite Ek; apply m_nodup_sections).
    assert (V : forall N q, dget N (st_sections st) = Some q -> (ss_size q, ss_diff q) = go x T N).
    { intros N q Eq. destruct (S3 N q Eq) as (-> & -> & _). apply (u_archive _ _ _ _ _ _ _ F). }
    split; [exact Ek|]. split; [exact Ws|]. split; [|exact V]. unfold psum. rewrite S1, S2. f_equal; apply (zsumf_sections _ _ _ _ Ws Ek); intros N q Eq; specialize (V N q Eq); rewrite <- V; reflexivity. }
  split.
  - exact Ea.
  - apply m_total_is. unfold psum at 1. rewrite Sz, Sd.
    f_equal; apply (zsumf_sections _ _ _ _ Wt Kt); intros T st Et; apply dget_In in Et; destruct (Sect T st Et) as (_ & _ & E & _); rewrite <- E; reflexivity.
  - exact Wt.
  - intros T. change (map fst (se_types e)) with (keys (se_types e)). rewrite Kt. symmetry. apply m_types_present.
  - intros T st I. apply m_type_is. apply (Sect T st I).
  - intros T st I. apply (Sect T st I).
  - intros T st N I. change (map fst (st_sections st)) with (keys (st_sections st)). destruct (Sect T st I) as (-> & _). symmetry. apply m_sections_present.
  - intros T st N q I Iq. apply (u_sect_is _ _ _ _ _ _ _ F). destruct (Sect T st I) as (_ & Ws & _ & V). apply V. now apply In_dget.
  - intros T st N q I Iq. destruct (Sect T st I) as (_ & Ws & _). apply In_dget in I; [|exact Wt]. apply In_dget in Iq; [|exact Ws]. destruct (H T st I) as (_ & _ & _ & S3). destruct (S3 N q Iq) as (_ & _ & E).
    destruct (look M T [N]) as [e0|] eqn:L; [|discriminate]. injection E as ->. exact (u_label _ _ _ _ _ _ _ F _ _ _ L).
Qed.
Lemma m_wf_base : wf_dict base.
Proof. apply archives_report_wf. Qed.
Lemma m_base_row x e : In (x, e) base -> (exists i, present k r (places i) /\ base_name i x) /\ mentry_right k r a x e /\ differs a (se_size e, se_diff e).
Proof.
  intros I. apply In_dget in I; [|apply m_wf_base]. pose proof (archives_report M f x W) as R. fold base in R. rewrite I in R. destruct R as (R & C & T & N & y & L & Ea).
  split; [apply (u_places _ _ _ _ _ _ _ F); exists T, N; congruence|]. split; [apply m_row_right; [exact R|]; rewrite Ea; exact (u_base _ _ _ _ _ _ _ F _ _ _ _ L)|].
  now apply (counts_differs a Ad (se_diff e)).
Qed.
Lemma m_row_size x e : row_ok M (val x) e -> measured k r (base_bytes x ColTotal) (se_size e, se_diff e).
Proof.
  intros R. set (e' := SEntry x (se_size e) (se_diff e) (se_types e)). assert (R' : row_ok M (val x) e') by exact R. exact (me_size _ _ _ _ _ (m_row_right x e' R' eq_refl)).
Qed.
Lemma m_base_has i x v : present k r (places i) -> base_name i x -> measured k r (base_bytes x ColTotal) v -> differs a v -> In x (keys base).
Proof.
  intros P Bn Mv Dv. rewrite <- dget_keys.
  assert (No : (exists e, row_ok M (val x) e /\ ~ counts f (se_diff e)) -> False).
  { intros (e & R & C). apply C. apply (counts_differs a Ad (se_diff e) v); [|exact Dv]. apply m_row_size in R. apply m_total_is in R. apply m_total_is in Mv. rewrite Mv, <- R. reflexivity. }
  pose proof (archives_report M f x W) as R. fold base in R. intros X. rewrite X in R. apply No.
  destruct R as [R|R]; [|exact R]. exfalso. destruct (proj2 (u_places _ _ _ _ _ _ _ F x)) as (T & N & L); [eauto|]. now apply L.
Qed.

Lemma m_sorted_right x e e' : sorted_sentry f e e' -> mentry_right k r a x e -> mentry_right k r a x e'.
Proof.
  intros (Ea & Sz & Sd & S1) [R0 R1 R2 R3 R4 R5 R6 R7 R8]. split.
  - congruence.
  - now rewrite <- Sz, <- Sd.
  - eapply Permutation_NoDup; [apply (sorted_from_keys _ _ _ _ _ S1)|exact R2].
  - intros T. rewrite <- R3. split; apply Permutation_in; [apply Permutation_sym|]; apply (sorted_from_keys _ _ _ _ _ S1).
  - intros T st I. destruct (sorted_from_r _ _ _ _ _ S1 _ _ I) as (st0 & I0 & <- & <- & _). now apply R4.
  - intros T st I. destruct (sorted_from_r _ _ _ _ _ S1 _ _ I) as (st0 & I0 & _ & _ & S2). eapply Permutation_NoDup; [apply (sorted_from_keys _ _ _ _ _ S2)|]. eapply R5, I0.
  - intros T st N I. destruct (sorted_from_r _ _ _ _ _ S1 _ _ I) as (st0 & I0 & _ & _ & S2). rewrite <- (R6 T st0 N I0). split; apply Permutation_in; [apply Permutation_sym|]; apply (sorted_from_keys _ _ _ _ _ S2).
  - intros T st N q I Iq. destruct (sorted_from_r _ _ _ _ _ S1 _ _ I) as (st0 & I0 & _ & _ & S2). destruct (sorted_from_r _ _ _ _ _ S2 _ _ Iq) as (q0 & Iq0 & ->). eapply R7; eassumption.
  - intros T st N q I Iq. destruct (sorted_from_r _ _ _ _ _ S1 _ _ I) as (st0 & I0 & _ & _ & S2). destruct (sorted_from_r _ _ _ _ _ S2 _ _ Iq) as (q0 & Iq0 & ->). eapply R8; eassumption.
Qed.

Lemma merged_entries : mentries_right k r a (get_summary_sorted base f) /\ entries_sorted a (get_summary_sorted base f).
Proof.
  pose proof (summary_sort_ok base f) as S1. pose proof m_wf_base as Wb. split.
  - split; [|split].
    + eapply Permutation_NoDup; [apply (sorted_from_keys _ _ _ _ _ S1)|exact Wb].
    + intros n. split.
      * intros I. apply (Permutation_in _ (Permutation_sym (sorted_from_keys _ _ _ _ _ S1))) in I. apply List.in_map_iff in I. destruct I as ((n0 & e) & E & I). cbn in E. subst n0.
        destruct (m_base_row _ _ I) as ((i & P & E) & R & D). exists i, (se_size e, se_diff e). split; [exact P|]. split; [exact E|]. split; [apply R|exact D].
      * intros (i & v & P & Bn & Mv & Dv). apply (Permutation_in _ (sorted_from_keys _ _ _ _ _ S1)). eapply m_base_has; eassumption.
    + intros n e I. destruct (sorted_from_r _ _ _ _ _ S1 _ _ I) as (e0 & I0 & So). destruct (m_base_row _ _ I0) as (_ & R & _). eapply m_sorted_right; eassumption.
  - split.
    + apply (sorted_from_order _ _ _ _ _ S1 (fun e => pick (a_sort_diff a) (se_size e, se_diff e))). intros v v' (_ & E1 & E2 & _). unfold pick. cbn [fst snd]. rewrite <- E1, <- E2. reflexivity.
    + apply Forall_forall. intros (n & e) I. destruct (sorted_from_r _ _ _ _ _ S1 _ _ I) as (e0 & I0 & _ & _ & _ & S2). cbn [snd]. split.
      * apply (sorted_from_order _ _ _ _ _ S2 (fun e => pick (a_sort_diff a) (st_size e, st_diff e))). intros v v' (E1 & E2 & _). unfold pick. cbn [fst snd]. rewrite <- E1, <- E2. reflexivity.
      * apply Forall_forall. intros (T & st) It. destruct (sorted_from_r _ _ _ _ _ S2 _ _ It) as (st0 & It0 & _ & _ & S3). cbn [snd].
        apply (sorted_from_order _ _ _ _ _ S3 (fun e => pick (a_sort_diff a) (ss_size e, ss_diff e))). intros v v' <-. reflexivity.
Qed.

(** ** as a table *)
Lemma m_filtered ps : asked_filter a ps -> exists keep, get_summary_filtered base f = filter keep base /\ forall kv, keep kv = true <-> selected ps (se_abbrev (snd kv)).
Proof.
  unfold asked_filter, selected. destruct ps as [l|]; intros As.
  - destruct As as (E & Fp). destruct (written_filter_ok se_abbrev base f l E Fp) as (keep & Ek & H). exists keep. split; [exact Ek|]. intros (n & e). specialize (H n e). pose proof (merged_abbrev a Au) as Af. fold f in Af. rewrite Af in H. exact H.
  - exists (fun _ => true). split; [|intros; split; [auto|reflexivity]]. unfold get_summary_filtered, summary_filtered. change (a_filter f) with (a_filter a). rewrite As. now rewrite filter_true.
Qed.
Lemma m_columns : mcolumns_right k r a (groups_of M).
Proof.
  unfold groups_of. split; [|split].
  - rewrite map_map. cbn [fst]. apply W.
  - intros T. rewrite map_map. cbn [fst]. symmetry. apply m_types_present.
  - intros T Bs I. apply List.in_map_iff in I. destruct I as ((T0 & t) & E & I). cbn [fst snd] in E. injection E as -> <-.
    assert (Et : dget T (m_types M) = Some t) by (apply In_dget; [apply W|exact I]). split.
    + pose proof (m_nodup_sections T) as H. cbv zeta beta in H. unfold Ns in H. rewrite Et in H. exact H.
    + intros N. symmetry. pose proof (m_sections_present T N) as H. unfold Ns in H. rewrite Et in H. exact H.
Qed.
Lemma m_col_sect T N : In (ColSect T N) (cols M) -> exists x, look M T [N] = Some x.
Proof.
  unfold cols. intros [X|I]; [discriminate|]. apply in_flat_map in I. destruct I as ((T0 & t) & It & [X|I]); [discriminate|]. apply List.in_map_iff in I. destruct I as ((N0 & s) & E & Is). cbn [fst snd] in *. injection E as -> ->.
  assert (Et : dget T (m_types M) = Some t) by (apply In_dget; [apply W|exact It]).
  assert (Es : dget N (t_sections t) = Some s). { apply In_dget; [|exact Is]. destruct W as (_ & W2). rewrite Forall_forall in W2. specialize (W2 _ It). apply W2. }
  unfold look. rewrite Et. cbn [look_dict]. rewrite Es. cbn. eauto.
Qed.
Lemma m_titles : Forall2 mcolumn_title (cols M) (map (col_title M f) (cols M)).
Proof.
  assert (H : forall l, incl l (cols M) -> Forall2 mcolumn_title l (map (col_title M f) l)); [|apply H, incl_refl].
  induction l as [|c l IH]; intros I; [constructor|]. cbn [map]. constructor; [|apply IH; intros x X; apply I; now right].
  destruct c as [|T|T N]; cbn [mcolumn_title col_title]; try reflexivity. destruct (m_col_sect T N (I _ (or_introl eq_refl))) as (x & L). rewrite L.
  pose proof (merged_abbrev a Au) as Af. fold f in Af. rewrite Af. apply (u_label _ _ _ _ _ _ _ F _ _ _ L).
Qed.
Lemma m_value_is e x c : mentry_right k r a x e -> In c (cols M) -> measured k r (base_bytes x c) (col_value e c).
Proof.
  intros R I. destruct c as [|T|T N]; cbn [col_value].
  - apply R.
  - apply col_type in I. apply m_types_present in I. apply (me_types _ _ _ _ _ R) in I. apply In_key_dget in I. destruct I as (st & E). rewrite E. apply dget_In in E. now apply (me_type _ _ _ _ _ R).
  - destruct (m_col_sect T N I) as (y & L). assert (Tp : In T (keys (m_types M))).
    { unfold look in L. destruct (dget T (m_types M)) eqn:E; [|discriminate]. eapply dget_Some_key, E. }
    apply m_types_present in Tp. apply (me_types _ _ _ _ _ R) in Tp. apply In_key_dget in Tp. destruct Tp as (st & E). rewrite E. apply dget_In in E.
    assert (Np : present k r (lists_label T N)) by (apply (u_section _ _ _ _ _ _ _ F); congruence).
    apply (me_sections _ _ _ _ _ R T st N E) in Np. apply In_key_dget in Np. destruct Np as (q & Eq). rewrite Eq. apply dget_In in Eq. now apply (me_section _ _ _ _ _ R T st).
Qed.
Lemma m_unique x c v w : measured k r (base_bytes x c) v -> measured k r (base_bytes x c) w -> v = w.
Proof.
  destruct c as [|T|T N].
  - rewrite !m_total_is. congruence.
  - rewrite !m_type_is. congruence.
  - rewrite !(u_sect_is _ _ _ _ _ _ _ F). congruence.
Qed.
Definition m_is_row (kv : str * sentry) (x : str) : Prop := fst kv = x /\ mentry_right k r a x (snd kv).
Lemma merged_table ps tb : asked_filter a ps -> is_report M f (list_ascii_of_string "Archive File") (get_summary_filtered base f) (TOk tb) ->
  exists xs, mtable_names k r a ps xs /\
    (xs = [] -> tb_headers tb = [list_ascii_of_string "Archive File"; list_ascii_of_string "Total Size"] /\ tb_rows tb = []) /\
    (xs <> [] -> exists groups titles i c, mcolumns_right k r a groups /\ tb_headers tb = list_ascii_of_string "Archive File" :: titles /\ Forall2 mcolumn_title (columns groups) titles /\
       Forall2 (mtable_row k r a (columns groups)) xs (tb_rows tb) /\
       names_column (tb_headers tb) (a_sort a) (S i) /\ nth_error (columns groups) i = Some c /\
       StronglySorted (fun x y => forall v w, measured k r (base_bytes x c) v -> measured k r (base_bytes y c) w ->
         in_order (a_sort_reverse a) (pick (a_sort_diff a) v) (pick (a_sort_diff a) w)) xs).
Proof.
  intros As Rp. destruct (m_filtered ps As) as (keep & Ek & Hk). set (d := get_summary_filtered base f) in *. pose proof m_wf_base as Wb.
  assert (Rows : forall rows, Permutation d rows -> Forall2 m_is_row rows (map fst rows)).
  { intros rows P. assert (H : forall l, incl l rows -> Forall2 m_is_row l (map fst l)); [|apply H, incl_refl].
    induction l as [|[n e] l IH]; intros I; [constructor|]. cbn [map]. constructor; [|apply IH; intros x X; apply I; now right]. split; [reflexivity|].
    assert (Ie : In (n, e) d) by (apply (Permutation_in _ (Permutation_sym P)), I; now left). rewrite Ek in Ie. apply filter_In in Ie. destruct Ie as (Ie & _). apply (m_base_row _ _ Ie). }
  assert (Items : forall rows, Permutation d rows -> mtable_names k r a ps (map fst rows)).
  { intros rows P. split.
    - eapply Permutation_NoDup; [apply Permutation_map, P|]. rewrite Ek. apply NoDup_map_filter. exact Wb.
    - intros n. split.
      + intros I. apply (Permutation_in _ (Permutation_sym (Permutation_map fst P))) in I. apply List.in_map_iff in I. destruct I as ((n0 & e) & E & I). cbn [fst] in E. subst n0.
        rewrite Ek in I. apply filter_In in I. destruct I as (I & Kp). apply Hk in Kp. destruct (m_base_row n e I) as ((i & Pi & Bn) & R & D). cbn [snd] in Kp. rewrite (me_name _ _ _ _ _ R) in Kp.
        exists i, (se_size e, se_diff e). split; [exact Pi|]. split; [exact Bn|]. split; [apply R|]. split; [exact D|exact Kp].
      + intros (i & v & Pi & Bn & Mv & Dv & Se). pose proof (m_base_has i n v Pi Bn Mv Dv) as I. apply List.in_map_iff in I. destruct I as ((n0 & e) & E & I). cbn [fst] in E. subst n0.
        destruct (m_base_row n e I) as (_ & R & _). apply (Permutation_in _ (Permutation_map fst P)). apply List.in_map_iff. exists (n, e). split; [reflexivity|]. rewrite Ek. apply filter_In. split; [exact I|]. apply Hk. cbn [snd]. now rewrite (me_name _ _ _ _ _ R). }
  destruct d as [|kv0 d0] eqn:Ed.
  - exists []. split; [apply (Items []); reflexivity|]. split; [|congruence]. intros _. apply (report_empty M f); [exact W|exact Rp].
  - destruct (report_shows _ _ _ _ _ W Rp) as (Hd & i & c & rows & Nc & Ec & P & Fr & So); [discriminate|]. exists (map fst rows). split; [now apply Items|]. pose proof (Rows rows P) as Fi.
    split. { intros E. apply map_eq_nil in E. subst rows. apply Permutation_sym, Permutation_nil in P. discriminate. }
    intros _. exists (groups_of M), (map (col_title M f) (cols M)), i, c. rewrite columns_of. split; [apply m_columns|]. split; [exact Hd|]. split; [apply m_titles|]. split; [|split; [|split; [exact Ec|]]].
    + refine (f2_trans _ _ _ _ _ _ _ Fi Fr). intros kv it row (E & R) (cells & -> & Fc). exists cells. pose proof (merged_abbrev a Au) as Af. fold f in Af. rewrite Af. split; [f_equal; apply (me_name _ _ _ _ _ R)|].
      eapply f2_impl; [|exact Fc]. intros c0 s0 Ic Cc. exists (col_value (snd kv) c0). split; [apply m_value_is; [exact R|exact Ic]|].
      assert (E2 : a_diff f = a_diff a). { cbn. unfold conflict_diff. now rewrite Ad. } rewrite E2 in Cc. exact Cc.
    + rewrite Hd. exact Nc.
    + refine (sorted_f2 _ _ _ _ _ _ Fi So). intros x x' y y' Rx Ry H v w Mv Mw. apply nth_error_In in Ec.
      rewrite (m_unique _ _ _ _ Mv (m_value_is _ _ _ (proj2 Rx) Ec)), (m_unique _ _ _ _ Mw (m_value_is _ _ _ (proj2 Ry) Ec)). exact H.
Qed.
End Entries.

Lemma merged_json d c k r o fs s render encode ord pf :
  merged d c k r -> asked false (c_args c) -> (given (a_archive_details (c_args c)) = true -> a_use_dwarf (c_args c) <> Some true) -> a_format (c_args c) = FJson2 ->
  run_files d (get_memory_types chip_info) render encode ord pf c o (start fs) = (Done tt, s) ->
  exists rows, s_printed s = [PEntries rows] /\ mentries_right k r (c_args c) rows /\ entries_sorted (c_args c) rows.
Proof.
  intros Rp As Dw Fo R. pose proof Rp as (_ & _ & Au & Ad).
  destruct (shown_merged _ _ _ _ _ _ _ _ _ _ _ Rp Dw (fun X => ltac:(congruence)) R) as (M & x & s1 & s2 & fu & gn & go & F & _ & _ & P1 & Sh & P2 & _).
  destruct (merged_entries _ _ _ _ _ _ _ F Ad) as (E1 & E2). eexists. split; [|split; [exact E1|exact E2]].
  unfold show in Sh. change (a_format (final_args (c_args c))) with (a_format (c_args c)) in Sh. rewrite Fo in Sh. unfold json_show in Sh.
  change (a_archives (final_args (c_args c))) with (a_archives (c_args c)) in Sh. cbn [asked] in As. rewrite As in Sh. apply print_done in Sh. rewrite P2, Sh, P1. reflexivity.
Qed.
Lemma merged_table_report d c k r o ps fs s render encode ord pf :
  merged d c k r -> asked false (c_args c) -> (given (a_archive_details (c_args c)) = true -> a_use_dwarf (c_args c) <> Some true) -> asked_filter (c_args c) ps ->
  a_format (c_args c) = FTable \/ a_format (c_args c) = FText \/ a_format (c_args c) = FCsv ->
  run_files d (get_memory_types chip_info) render encode ord pf c o (start fs) = (Done tt, s) ->
  exists tb xs, prints (c_args c) s tb /\ mtable_names k r (c_args c) ps xs /\
    (xs = [] -> tb_headers tb = [list_ascii_of_string "Archive File"; list_ascii_of_string "Total Size"] /\ tb_rows tb = []) /\
    (xs <> [] -> exists groups titles i col, mcolumns_right k r (c_args c) groups /\ tb_headers tb = list_ascii_of_string "Archive File" :: titles /\ Forall2 mcolumn_title (columns groups) titles /\
       Forall2 (mtable_row k r (c_args c) (columns groups)) xs (tb_rows tb) /\
       names_column (tb_headers tb) (a_sort (c_args c)) (S i) /\ nth_error (columns groups) i = Some col /\
       StronglySorted (fun x y => forall v w, measured k r (base_bytes x col) v -> measured k r (base_bytes y col) w ->
         in_order (a_sort_reverse (c_args c)) (pick (a_sort_diff (c_args c)) v) (pick (a_sort_diff (c_args c)) w)) xs).
Proof.
  intros Rp As Dw Fl Fo R. pose proof Rp as (_ & _ & Au & Ad).
  destruct (shown_merged _ _ _ _ _ _ _ _ _ _ _ Rp Dw (fun X => ltac:(rewrite X in Fo; destruct Fo as [?|[?|?]]; discriminate)) R) as (M & x & s1 & s2 & fu & gn & go & F & _ & _ & P1 & Sh & P2 & N2).
  destruct (prints_done x M (c_args c) o s1 s2 s Sh P1 P2 N2 Fo) as (tb & t & t' & E & Pr & _).
  assert (Ir : is_report M (final_args (c_args c)) (list_ascii_of_string "Archive File") (get_summary_filtered (get_archives_summary M (final_args (c_args c))) (final_args (c_args c))) (TOk tb)).
  { unfold table_of in E. change (a_archives (final_args (c_args c))) with (a_archives (c_args c)) in E. cbn [asked] in As. rewrite As in E. apply table_done in E. destruct E as (E & _). left. split; [reflexivity|]. split; [reflexivity|]. now symmetry. }
  destruct (merged_table _ _ _ _ _ _ _ F Au Ad ps tb Fl Ir) as (xs & Ti & T1 & T2).
  exists tb, xs. split; [exact Pr|]. split; [exact Ti|]. split; [exact T1|exact T2].
Qed.
