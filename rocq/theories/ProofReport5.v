From Coq Require Import Ascii String List ZArith Lia Bool Permutation Sorted.
From Verif Require Import Base MemMap SpecTree SpecOps Filter SpecFilter Pipeline SpecPipe SpecBuild SpecBytes SpecShape ProofOps ProofTrim ProofDiff ProofDiff2 ProofSummary ProofSummary2 ProofSummary3 Fixtures PyStr MapFile SpecMap
  ElfRead SpecElf Project SpecProject SpecEnd Chips SpecChips ProofChips ProofShape Deps Table SpecTable ProofTable ProofTable3 Formats ProofFormats Main SpecMain ProofMain ProofMain4 ProofMain5 Command SpecCommand SpecFail SpecReport
  ProofCommand1 ProofCommand2 ProofCommand3 ProofCommand4 ProofCommand5 ProofCommand6 ProofReport1 ProofReport2 ProofReport3 ProofReport4.
Import ListNotations.
Open Scope list_scope.
Open Scope Z_scope.

Lemma dget_keys {V} n (d : dict str V) : dget n d <> None <-> In n (keys d).
Proof.
  split.
  - intros H. destruct (dget n d) as [v|] eqn:E; [eapply dget_Some_key; exact E|congruence].
  - intros H. destruct (In_key_dget n d H) as (v & E). congruence.
Qed.

Section Entries.
Variables (a : args) (k : account) (r : option account) (M : memmap) (fu : str -> Z * Z) (fn : str -> str -> Z * Z) (fo : (item -> bool) -> str -> str -> Z * Z).
Hypothesis F : final a k r M fu fn fo.
Hypothesis Au : a_unify a = false.
Hypothesis Ad : a_archive_dependencies a = false.
Let f := final_args a.
Let W : wf_map M := f_wf _ _ _ _ _ _ _ F.
Let Ts := keys (m_types M).
Let Ns (T : str) : list str := match dget T (m_types M) with Some t => keys (t_sections t) | None => [] end.
Variable files : bool.
Hypothesis Tf : tells_files files k r.

Let base : dict str sentry := if files then get_object_files_summary M f else get_archives_summary M f.
Let val (i : item) (T N : str) := if files then look M T [N; it_archive i; it_object i] else look M T [N; it_archive i].

Lemma nodup_types : NoDup Ts.
Proof. apply W. Qed.
Lemma types_present T : present k r (lists_type a T) <-> In T Ts.
Proof. rewrite <- (f_listed _ _ _ _ _ _ _ F). apply dget_keys. Qed.
Lemma nodup_sections T : NoDup (Ns T).
Proof.
  unfold Ns. destruct (dget T (m_types M)) as [t|] eqn:E; [|constructor]. destruct W as (_ & W2). rewrite Forall_forall in W2. apply dget_In in E. specialize (W2 _ E). apply W2.
Qed.
Lemma sections_present T N : present k r (lists_section T N) <-> In N (Ns T).
Proof.
  rewrite <- (f_section _ _ _ _ _ _ _ F). unfold Ns, look. destruct (dget T (m_types M)) as [t|]; [|split; [intros X; congruence|intros []]]. cbn [look_dict].
  rewrite <- dget_keys. destruct (dget N (t_sections t)); cbn; split; congruence.
Qed.
Lemma val_fo i T N : (esize (val i T N), ediff (val i T N)) = fo (row_own files i) T N.
Proof. unfold val, row_own. destruct files; [apply (f_object _ _ _ _ _ _ _ F)|apply (f_archive _ _ _ _ _ _ _ F)]. Qed.
Lemma total_is own v : measured k r (own_bytes own ColTotal) v <-> v = psum (fun T => psum (fo own T) (Ns T)) Ts.
Proof.
  apply (f_all_is _ _ _ _ _ _ _ F); [apply nodup_types|intros T; apply types_present|]. intros T _. split; [apply nodup_sections|intros N; apply sections_present].
Qed.
Lemma type_is own T v : measured k r (own_bytes own (ColType T)) v <-> v = psum (fo own T) (Ns T).
Proof. apply (f_type_is _ _ _ _ _ _ _ F); [apply nodup_sections|intros N; apply sections_present]. Qed.

Lemma row_right i e : row_ok M (val i) e -> entry_right k r a (row_own files i) e.
Proof.
  intros (Kt & Sz & Sd & H).
  assert (Wt : wf_dict (se_types e)) by (unfold wf_dict; rewrite Kt; apply W).
  assert (Sect : forall T st, In (T, st) (se_types e) -> keys (st_sections st) = Ns T /\ wf_dict (st_sections st) /\ (st_size st, st_diff st) = psum (fo (row_own files i) T) (Ns T) /\
     forall N q, dget N (st_sections st) = Some q -> (ss_size q, ss_diff q) = fo (row_own files i) T N).
  { intros T st I. apply In_dget in I; [|exact Wt]. destruct (H T st I) as (Ks & S1 & S2 & S3).
    assert (Ek : keys (st_sections st) = Ns T) by (unfold Ns; destruct (dget T (m_types M)) as [t|]; [now injection Ks|discriminate]).
    assert (Ws : wf_dict (st_sections st)) by (unfold wf_dict; rewrite Ek; apply nodup_sections).
    assert (V : forall N q, dget N (st_sections st) = Some q -> (ss_size q, ss_diff q) = fo (row_own files i) T N).
    { intros N q Eq. destruct (S3 N q Eq) as (-> & -> & _). apply val_fo. }
    split; [exact Ek|]. split; [exact Ws|]. split; [|exact V]. unfold psum. rewrite S1, S2. f_equal; apply (zsumf_sections _ _ _ _ Ws Ek); intros N q Eq; specialize (V N q Eq); rewrite <- V; reflexivity. }
  split.
  - apply total_is. unfold psum at 1. rewrite Sz, Sd.
    f_equal; apply (zsumf_sections _ _ _ _ Wt Kt); intros T st Et; apply dget_In in Et; destruct (Sect T st Et) as (_ & _ & E & _); rewrite <- E; reflexivity.
  - exact Wt.
  - intros T. change (map fst (se_types e)) with (keys (se_types e)). rewrite Kt. symmetry. apply types_present.
  - intros T st I. apply type_is. apply (Sect T st I).
  - intros T st I. apply (Sect T st I).
  - intros T st N I. change (map fst (st_sections st)) with (keys (st_sections st)). destruct (Sect T st I) as (-> & _). symmetry. apply sections_present.
  - intros T st N q I Iq. apply (f_sect_is _ _ _ _ _ _ _ F). destruct (Sect T st I) as (_ & Ws & _ & V). apply V. now apply In_dget.  - intros T st N q I Iq. destruct (Sect T st I) as (_ & Ws & _). apply In_dget in I; [|exact Wt]. apply In_dget in Iq; [|exact Ws]. destruct (H T st I) as (_ & _ & _ & S3). destruct (S3 N q Iq) as (_ & _ & E).
    destruct (look M T [N]) as [e0|] eqn:L; [|discriminate]. injection E as ->. exact (f_label _ _ _ _ _ _ _ F _ _ _ L).
Qed.

Lemma objects_told : files = true -> inj_objects M.
Proof.
  intros E. apply inj_objects_colon. intros T N x o L. destruct (proj1 (f_places_object _ _ _ _ _ _ _ F x o) (ex_intro _ T (ex_intro _ N L))) as (i & P & _ & <-). now apply (Tf E).
Qed.
Lemma wf_base : wf_dict base.
Proof.
  unfold base. destruct files; [|apply archives_report_wf]. unfold get_object_files_summary. apply wf_rem_unchanged. rewrite objects_collect. apply wf_collect.
Qed.
Lemma counts_differs z v : snd v = z -> counts f z <-> differs a v.
Proof.
  intros <-. unfold counts, differs. assert (E : a_diff f = a_diff a). { cbn. unfold conflict_diff. now rewrite Ad. } rewrite E. change (a_show_unchanged f) with (a_show_unchanged a). tauto.
Qed.
Lemma base_row n e : In (n, e) base -> exists i, present k r (places i) /\ n = row_key files i /\ after_last "/"%char (row_file files i) (se_abbrev e) /\
  entry_right k r a (row_own files i) e /\ differs a (se_size e, se_diff e).
Proof.
  intros I. pose proof wf_base as Wb. apply In_dget in I; [|exact Wb]. pose proof row_right as Rr. unfold base, row_key, row_file, val, row_own in *. pose proof objects_told as Ot. destruct files.
  - pose proof (objects_report M f n W (Ot eq_refl) Au) as R. rewrite I in R. destruct R as (x & o & -> & Ea & (T & N & L) & R & C).
    destruct (proj1 (f_places_object _ _ _ _ _ _ _ F x o) (ex_intro _ T (ex_intro _ N L))) as (i & P & <- & <-). exists i. split; [exact P|]. split; [apply colon2|]. rewrite Ea.
    split; [apply basename_after|]. split; [now apply Rr|]. now apply (counts_differs (se_diff e)).
  - pose proof (archives_report M f n W) as R. rewrite I in R. destruct R as (R & C & T & N & y & L & Ea).
    destruct (proj1 (f_places_archive _ _ _ _ _ _ _ F n)) as (i & P & <-); [exists T, N; congruence|]. exists i. split; [exact P|]. split; [reflexivity|]. rewrite Ea.
    split; [exact (f_label _ _ _ _ _ _ _ F _ _ _ L)|]. split; [now apply Rr|]. now apply (counts_differs (se_diff e)).
Qed.
Lemma base_has i v : present k r (places i) -> measured k r (own_bytes (row_own files i) ColTotal) v -> differs a v -> In (row_key files i) (keys base).
Proof.
  intros P Mv Dv. rewrite <- dget_keys.
  assert (No : (exists e, row_ok M (val i) e /\ ~ counts f (se_diff e)) -> False).
  { intros (e & R & C). apply C. apply (counts_differs (se_diff e) v); [|exact Dv]. apply row_right in R. pose proof (er_size _ _ _ _ _ R) as R1. apply total_is in R1. apply total_is in Mv. rewrite Mv, <- R1. reflexivity. }
  unfold base, row_key, val in *. pose proof objects_told as Ot. destruct files.
  - assert (Key : forall n x o, n = colon [x; o] -> x = it_archive i -> o = it_object i -> dget n (get_object_files_summary M f) <> None); [|apply (Key _ _ _ (eq_sym (colon2 _ _)) eq_refl eq_refl)].
    intros n x o En Ex Eo X. pose proof (objects_report M f n W (Ot eq_refl) Au) as R. rewrite X in R. apply No.
    destruct (proj2 (f_places_object _ _ _ _ _ _ _ F (it_archive i) (it_object i))) as (T & N & L); [eauto|]. subst x o. apply (R _ _ T N En L).
  - pose proof (archives_report M f (it_archive i) W) as R. intros X. rewrite X in R. apply No.
    destruct R as [R|R]; [|exact R]. exfalso. destruct (proj2 (f_places_archive _ _ _ _ _ _ _ F (it_archive i))) as (T & N & L); [eauto|]. now apply L.
Qed.

Lemma sorted_right own e e' : sorted_sentry f e e' -> entry_right k r a own e -> entry_right k r a own e'.
Proof.
  intros (_ & Sz & Sd & S1) [R1 R2 R3 R4 R5 R6 R7 R8]. split.
  - now rewrite <- Sz, <- Sd.
  - eapply Permutation_NoDup; [apply (sorted_from_keys _ _ _ _ _ S1)|exact R2].
  - intros T. rewrite <- R3. split; apply Permutation_in; [apply Permutation_sym|]; apply (sorted_from_keys _ _ _ _ _ S1).
  - intros T st I. destruct (sorted_from_r _ _ _ _ _ S1 _ _ I) as (st0 & I0 & <- & <- & _). now apply R4.
  - intros T st I. destruct (sorted_from_r _ _ _ _ _ S1 _ _ I) as (st0 & I0 & _ & _ & S2). eapply Permutation_NoDup; [apply (sorted_from_keys _ _ _ _ _ S2)|]. eapply R5, I0.
  - intros T st N I. destruct (sorted_from_r _ _ _ _ _ S1 _ _ I) as (st0 & I0 & _ & _ & S2). rewrite <- (R6 T st0 N I0). split; apply Permutation_in; [apply Permutation_sym|]; apply (sorted_from_keys _ _ _ _ _ S2).
  - intros T st N q I Iq. destruct (sorted_from_r _ _ _ _ _ S1 _ _ I) as (st0 & I0 & _ & _ & S2). destruct (sorted_from_r _ _ _ _ _ S2 _ _ Iq) as (q0 & Iq0 & ->). eapply R7; eassumption.
  - intros T st N q I Iq. destruct (sorted_from_r _ _ _ _ _ S1 _ _ I) as (st0 & I0 & _ & _ & S2). destruct (sorted_from_r _ _ _ _ _ S2 _ _ Iq) as (q0 & Iq0 & ->). eapply R8; eassumption.
Qed.

Lemma entries_shown : entries_right files k r a (get_summary_sorted base f) /\ entries_sorted a (get_summary_sorted base f).
Proof.
  pose proof (summary_sort_ok base f) as S1. pose proof wf_base as Wb. split.
  - split; [|split].
    + eapply Permutation_NoDup; [apply (sorted_from_keys _ _ _ _ _ S1)|exact Wb].
    + intros n. split.
      * intros I. apply (Permutation_in _ (Permutation_sym (sorted_from_keys _ _ _ _ _ S1))) in I. apply List.in_map_iff in I. destruct I as ((n0 & e) & E & I). cbn in E. subst n0.
        destruct (base_row _ _ I) as (i & P & E & _ & R & D). exists i, (se_size e, se_diff e). split; [exact P|]. split; [exact E|]. split; [apply R|exact D].
      * intros (i & v & P & -> & Mv & Dv). apply (Permutation_in _ (sorted_from_keys _ _ _ _ _ S1)). eapply base_has; eassumption.
    + intros n e I. destruct (sorted_from_r _ _ _ _ _ S1 _ _ I) as (e0 & I0 & So). destruct (base_row _ _ I0) as (i & P & E & Al & R & _). exists i. split; [exact P|]. split; [exact E|]. split.
      * destruct So as (<- & _). exact Al.
      * eapply sorted_right; eassumption.
  - split.
    + apply (sorted_from_order _ _ _ _ _ S1 (fun e => pick (a_sort_diff a) (se_size e, se_diff e))). intros v v' (_ & E1 & E2 & _). unfold pick. cbn [fst snd]. rewrite <- E1, <- E2. reflexivity.
    + apply Forall_forall. intros (n & e) I. destruct (sorted_from_r _ _ _ _ _ S1 _ _ I) as (e0 & I0 & _ & _ & _ & S2). cbn [snd]. split.
      * apply (sorted_from_order _ _ _ _ _ S2 (fun e => pick (a_sort_diff a) (st_size e, st_diff e))). intros v v' (E1 & E2 & _). unfold pick. cbn [fst snd]. rewrite <- E1, <- E2. reflexivity.
      * apply Forall_forall. intros (T & st) It. destruct (sorted_from_r _ _ _ _ _ S2 _ _ It) as (st0 & It0 & _ & _ & S3). cbn [snd].
        apply (sorted_from_order _ _ _ _ _ S3 (fun e => pick (a_sort_diff a) (ss_size e, ss_diff e))). intros v v' <-. reflexivity.
Qed.
End Entries.

Lemma entries_json d c k r o files fs s render encode ord pf :
  reported d c k r -> asked files (c_args c) -> (given (a_archive_details (c_args c)) = true -> a_use_dwarf (c_args c) <> Some true) -> tells_files files k r -> a_format (c_args c) = FJson2 ->
  run_files d (get_memory_types chip_info) render encode ord pf c o (start fs) = (Done tt, s) ->
  exists rows, s_printed s = [PEntries rows] /\ entries_right files k r (c_args c) rows /\ entries_sorted (c_args c) rows.
Proof.
  intros Rp As Dw Tf Fo R. pose proof Rp as (_ & _ & Au & Ad).
  destruct (shown_map _ _ _ _ _ _ _ _ _ _ _ Rp Dw (fun X => ltac:(congruence)) R) as (M & x & s1 & s2 & fu & fn & fo & F & _ & _ & P1 & Sh & P2 & _).
  destruct (entries_shown _ _ _ _ _ _ _ F Au Ad files Tf) as (E1 & E2). eexists. split; [|split; [exact E1|exact E2]].
  unfold show in Sh. change (a_format (final_args (c_args c))) with (a_format (c_args c)) in Sh. rewrite Fo in Sh. unfold json_show in Sh.
  change (a_archives (final_args (c_args c))) with (a_archives (c_args c)) in Sh. change (a_archive_details (final_args (c_args c))) with (a_archive_details (c_args c)) in Sh.
  change (a_archive_dependencies (final_args (c_args c))) with (a_archive_dependencies (c_args c)) in Sh. change (a_files (final_args (c_args c))) with (a_files (c_args c)) in Sh.
  destruct files; cbn [asked] in As.
  - destruct As as (A1 & A2 & A3). rewrite A1, A2, Ad, A3 in Sh. apply print_done in Sh. rewrite P2, Sh, P1. reflexivity.
  - rewrite As in Sh. apply print_done in Sh. rewrite P2, Sh, P1. reflexivity.
Qed.
