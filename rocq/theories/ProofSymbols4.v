From Coq Require Import Ascii String List ZArith Lia Bool Permutation Sorted.
From Verif Require Import Base MemMap SpecTree SpecOps Filter SpecFilter ProofFilter Pipeline SpecPipe SpecBuild SpecBytes SpecShape ProofOps ProofTrim ProofDiff ProofDiff2 ProofSummary ProofSummary2 ProofSummary3 Fixtures PyStr MapFile SpecMap
  ElfRead SpecElf Project SpecProject SpecEnd Chips SpecChips ProofChips ProofShape Deps Table SpecTable ProofTable ProofTable3 Formats ProofFormats Main SpecMain ProofMain ProofMain4 ProofMain5 Command SpecCommand SpecFail SpecReport
  ProofCommand1 ProofCommand2 ProofCommand3 ProofCommand4 ProofCommand5 ProofCommand6 ProofReport1 ProofReport2 ProofReport3 ProofReport4 ProofReport5 ProofReport6 SpecSyms SpecSymbols ProofSymbols1 ProofSymbols2 ProofSymbols3.
Import ListNotations.
Open Scope list_scope.
Open Scope Z_scope.

Section Entries.
Variables (a : args) (x : str) (q : account) (r : option account) (M : memmap) (fo : (item -> bool) -> str -> str -> Z * Z).
Hypothesis F : sfinal a q r M fo.
Hypothesis Au : a_unify a = false.
Hypothesis Ad : a_archive_dependencies a = false.
Hypothesis Ax : a_archive_details a = Some x.
Hypothesis Ts0 : tells_symbols q r.
Let f := final_args a.
Let W : wf_map M := sf_wf _ _ _ _ _ F.
Let Ts := keys (m_types M).
Let Ns (T : str) : list str := match dget T (m_types M) with Some t => keys (t_sections t) | None => [] end.
Variable base : dict str sentry.
Hypothesis Bs : get_symbols_summary M f = Ok base.

Let val (i : item) (T N : str) := look M T [N; it_archive i; it_object i; it_name i].

Lemma snodup_types : NoDup Ts.
Proof. apply W. Qed.
Lemma stypes_present T : present q r (lists_type a T) <-> In T Ts.
Proof. rewrite <- (sf_listed _ _ _ _ _ F). apply dget_keys. Qed.
Lemma snodup_sections T : NoDup (Ns T).
Proof.
  unfold Ns. destruct (dget T (m_types M)) as [t|] eqn:E; [|constructor]. destruct W as (_ & W2). rewrite Forall_forall in W2. apply dget_In in E. specialize (W2 _ E). apply W2.
Qed.
Lemma ssections_present T N : present q r (lists_section T N) <-> In N (Ns T).
Proof.
  rewrite <- (sf_section _ _ _ _ _ F). unfold Ns, look. destruct (dget T (m_types M)) as [t|]; [|split; [intros X; congruence|intros []]]. cbn [look_dict].
  rewrite <- dget_keys. destruct (dget N (t_sections t)); cbn; split; congruence.
Qed.
Lemma stotal_is own v : measured q r (own_bytes own ColTotal) v <-> v = psum (fun T => psum (fo own T) (Ns T)) Ts.
Proof.
  apply (sf_all_is _ _ _ _ _ F); [apply snodup_types|intros T; apply stypes_present|]. intros T _. split; [apply snodup_sections|intros N; apply ssections_present].
Qed.
Lemma stype_is own T v : measured q r (own_bytes own (ColType T)) v <-> v = psum (fo own T) (Ns T).
Proof. apply (sf_type_is _ _ _ _ _ F); [apply snodup_sections|intros N; apply ssections_present]. Qed.

Lemma srow_right i e : row_ok M (val i) e -> entry_right q r a (of_symbol i) e.
Proof.
  intros (Kt & Sz & Sd & H).
  assert (Wt : wf_dict (se_types e)) by (unfold wf_dict; rewrite Kt; apply W).
  assert (Sect : forall T st, In (T, st) (se_types e) -> keys (st_sections st) = Ns T /\ wf_dict (st_sections st) /\ (st_size st, st_diff st) = psum (fo (of_symbol i) T) (Ns T) /\
     forall N z, dget N (st_sections st) = Some z -> (ss_size z, ss_diff z) = fo (of_symbol i) T N).
  { intros T st I. apply In_dget in I; [|exact Wt]. destruct (H T st I) as (Ks & S1 & S2 & S3).
    assert (Ek : keys (st_sections st) = Ns T) by (unfold Ns; destruct (dget T (m_types M)) as [t|]; [now injection Ks|discriminate]).
    assert (Ws : wf_dict (st_sections st)) by (unfold wf_dict; rewrite Ek; apply snodup_sections).
    assert (V : forall N z, dget N (st_sections st) = Some z -> (ss_size z, ss_diff z) = fo (of_symbol i) T N).
    { intros N z Eq. destruct (S3 N z Eq) as (-> & -> & _). apply (sf_symbol _ _ _ _ _ F). }
    split; [exact Ek|]. split; [exact Ws|]. split; [|exact V]. unfold psum. rewrite S1, S2. f_equal; apply (zsumf_sections _ _ _ _ Ws Ek); intros N z Eq; specialize (V N z Eq); rewrite <- V; reflexivity. }
  split.
  - apply stotal_is. unfold psum at 1. rewrite Sz, Sd.
    f_equal; apply (zsumf_sections _ _ _ _ Wt Kt); intros T st Et; apply dget_In in Et; destruct (Sect T st Et) as (_ & _ & E & _); rewrite <- E; reflexivity.
  - exact Wt.
  - intros T. change (map fst (se_types e)) with (keys (se_types e)). rewrite Kt. symmetry. apply stypes_present.
  - intros T st I. apply stype_is. apply (Sect T st I).
  - intros T st I. apply (Sect T st I).
  - intros T st N I. change (map fst (st_sections st)) with (keys (st_sections st)). destruct (Sect T st I) as (-> & _). symmetry. apply ssections_present.
  - intros T st N z I Iq. apply (sf_sect_is _ _ _ _ _ F). destruct (Sect T st I) as (_ & Ws & _ & V). apply V. now apply In_dget.  - intros T st N z I Iq. destruct (Sect T st I) as (_ & Ws & _). apply In_dget in I; [|exact Wt]. apply In_dget in Iq; [|exact Ws]. destruct (H T st I) as (_ & _ & _ & S3). destruct (S3 N z Iq) as (_ & _ & E).
    destruct (look M T [N]) as [e0|] eqn:L; [|discriminate]. injection E as ->. exact (sf_label _ _ _ _ _ F _ _ _ L).
Qed.

Lemma symbol_there T N c ob y : look M T [N; c; ob; y] <> None -> exists i, present q r (places i) /\ it_archive i = c /\ it_object i = ob /\ it_name i = y.
Proof. intros L. apply (sf_places _ _ _ _ _ F). now exists T, N. Qed.
Lemma colon3 c ob y : colon [c; ob; y] = c ++ ":"%char :: ob ++ ":"%char :: y.
Proof. unfold colon. cbn [flat_map]. now rewrite app_nil_r. Qed.
Lemma same_symbol i j : present q r (places i) -> present q r (places j) -> symbol_key i = symbol_key j ->
  it_archive i = it_archive j /\ it_object i = it_object j /\ it_name i = it_name j.
Proof.
  intros Pi Pj E. unfold symbol_key in E. destruct (Ts0 i Pi) as (N1 & N2), (Ts0 j Pj) as (N3 & N4).
  assert (E' : (it_archive i ++ ":"%char :: it_object i) ++ ":"%char :: it_name i = (it_archive j ++ ":"%char :: it_object j) ++ ":"%char :: it_name j) by (rewrite <- !app_assoc; exact E).
  apply split_last_colon in E'; [|exact N2|exact N4]. destruct E' as (E1 & E2). apply split_last_colon in E1; [|exact N1|exact N3]. destruct E1. auto.
Qed.
Lemma symbols_told : inj_symbols M.
Proof.
  intros T N c ob y T' N' c' ob' y' L L' E. destruct (symbol_there _ _ _ _ _ L) as (i & P & <- & <- & <-). destruct (symbol_there _ _ _ _ _ L') as (j & P' & <- & <- & <-).
  apply same_symbol; [exact P|exact P'|]. rewrite !colon3 in E. exact E.
Qed.
Lemma look_above T N c ob y : look M T [N; c; ob; y] <> None -> look M T [N; c] <> None.
Proof.
  unfold look. destruct (dget T (m_types M)) as [t|]; [|auto]. cbn [look_dict]. destruct (dget N (t_sections t)) as [s|]; [|auto].
  unfold look_sect, look_node, look_dict. destruct (dget c (n_sub s)); [discriminate|auto].
Qed.
(** only archives of this name *)
Lemma sym_val_named T N c ob y : after_last "/"%char c x -> sym_val M x T N c ob y = look M T [N; c; ob; y].
Proof.
  intros A. unfold sym_val. destruct (look M T [N; c]) as [e|] eqn:E.
  - apply (sf_label _ _ _ _ _ F) in E. cbn [label] in E. rewrite (after_last_unique _ _ _ _ E A), keq_refl. reflexivity.
  - destruct (look M T [N; c; ob; y]) eqn:L; [|reflexivity]. exfalso. apply (look_above T N c ob y); [congruence|exact E].
Qed.
Lemma sym_val_some T N c ob y : sym_val M x T N c ob y <> None -> after_last "/"%char c x /\ look M T [N; c; ob; y] <> None.
Proof.
  unfold sym_val. destruct (look M T [N; c]) as [e|] eqn:E; [|congruence]. apply (sf_label _ _ _ _ _ F) in E. cbn [label] in E.
  destruct (e_abbrev e =?= x) eqn:K; [|congruence]. apply keq_eq in K. rewrite K in E. now split.
Qed.

Lemma symbols_exist : exists i, symbol_of x q r i.
Proof.
  destruct (symbols_found M f x base W Ax Bs) as (T & N & c & ob & y & H). apply sym_val_some in H. destruct H as (Al & L).
  destruct (symbol_there _ _ _ _ _ L) as (i & P & Ec & _). exists i. split; [exact P|]. now rewrite Ec.
Qed.

Lemma swf_base : wf_dict base.
Proof.
  pose proof Bs as B. unfold get_symbols_summary in B. destruct (symbols_walk M _); [discriminate|]. injection B as <-. apply wf_rem_unchanged. rewrite symbols_collect. apply wf_collect.
Qed.
Lemma row_ok_ext (v w : str -> str -> option SpecTree.entry) e : (forall T N, v T N = w T N) -> row_ok M v e -> row_ok M w e.
Proof.
  intros E (H1 & H2 & H3 & H4). split; [exact H1|]. split; [exact H2|]. split; [exact H3|]. intros T t Et. destruct (H4 T t Et) as (A & B & C & D). split; [exact A|]. split; [exact B|]. split; [exact C|].
  intros s z Ez. rewrite <- E. now apply D.
Qed.
Lemma sbase_row n e : In (n, e) base -> exists i, symbol_of x q r i /\ n = symbol_key i /\ se_abbrev e = it_name i /\
  entry_right q r a (of_symbol i) e /\ differs a (se_size e, se_diff e).
Proof.
  intros I. apply In_dget in I; [|exact swf_base]. pose proof (symbols_report M f x base n W symbols_told Au Ax Bs) as R. rewrite I in R.
  destruct R as (c & ob & y & -> & Ea & (T & N & L) & R & C). apply sym_val_some in L. destruct L as (Al & L). destruct (symbol_there _ _ _ _ _ L) as (i & P & <- & <- & <-).
  exists i. split; [now split|]. split; [apply colon3|]. split; [exact Ea|]. split.
  - apply srow_right. eapply row_ok_ext; [|exact R]. intros T0 N0. now apply sym_val_named.
  - now apply (counts_differs a Ad (se_diff e)).
Qed.
Lemma sbase_has i v : symbol_of x q r i -> measured q r (own_bytes (of_symbol i) ColTotal) v -> differs a v -> In (symbol_key i) (keys base).
Proof.
  intros (P & Al) Mv Dv. rewrite <- dget_keys. intros X.
  destruct (proj2 (sf_places _ _ _ _ _ F (it_archive i) (it_object i) (it_name i))) as (T & N & L); [eauto|].
  pose proof (symbols_report M f x base (symbol_key i) W symbols_told Au Ax Bs) as R. rewrite X in R.
  destruct (R (it_archive i) (it_object i) (it_name i) T N) as (e & Ro & C); [symmetry; apply colon3|now rewrite sym_val_named|].
  assert (Re : entry_right q r a (of_symbol i) e). { apply srow_right. eapply row_ok_ext; [|exact Ro]. intros T0 N0. now apply sym_val_named. }
  apply C. apply (counts_differs a Ad (se_diff e) v); [|exact Dv]. pose proof (er_size _ _ _ _ _ Re) as R1. apply stotal_is in R1. apply stotal_is in Mv. rewrite Mv, <- R1. reflexivity.
Qed.

Lemma symbols_shown : symbols_right x q r a (get_summary_sorted base f) /\ entries_sorted a (get_summary_sorted base f).
Proof.
  pose proof (summary_sort_ok base f) as S1. pose proof swf_base as Wb. split.
  - split; [|split].
    + eapply Permutation_NoDup; [apply (sorted_from_keys _ _ _ _ _ S1)|exact Wb].
    + intros n. split.
      * intros I. apply (Permutation_in _ (Permutation_sym (sorted_from_keys _ _ _ _ _ S1))) in I. apply List.in_map_iff in I. destruct I as ((n0 & e) & E & I). cbn in E. subst n0.
        destruct (sbase_row _ _ I) as (i & P & E & _ & R & D). exists i, (se_size e, se_diff e). split; [exact P|]. split; [exact E|]. split; [apply R|exact D].
      * intros (i & v & P & -> & Mv & Dv). apply (Permutation_in _ (sorted_from_keys _ _ _ _ _ S1)). eapply sbase_has; eassumption.
    + intros n e I. destruct (sorted_from_r _ _ _ _ _ S1 _ _ I) as (e0 & I0 & So). destruct (sbase_row _ _ I0) as (i & P & E & Al & R & _). exists i. split; [exact P|]. split; [exact E|]. split.
      * destruct So as (<- & _). exact Al.
      * eapply sorted_right; eassumption.
  - split.
    + apply (sorted_from_order _ _ _ _ _ S1 (fun e => pick (a_sort_diff a) (se_size e, se_diff e))). intros v v' (_ & E1 & E2 & _). unfold pick. cbn [fst snd]. rewrite <- E1, <- E2. reflexivity.
    + apply Forall_forall. intros (n & e) I. destruct (sorted_from_r _ _ _ _ _ S1 _ _ I) as (e0 & I0 & _ & _ & _ & S2). cbn [snd]. split.
      * apply (sorted_from_order _ _ _ _ _ S2 (fun e => pick (a_sort_diff a) (st_size e, st_diff e))). intros v v' (E1 & E2 & _). unfold pick. cbn [fst snd]. rewrite <- E1, <- E2. reflexivity.
      * apply Forall_forall. intros (T & st) It. destruct (sorted_from_r _ _ _ _ _ S2 _ _ It) as (st0 & It0 & _ & _ & S3). cbn [snd].
        apply (sorted_from_order _ _ _ _ _ S3 (fun e => pick (a_sort_diff a) (ss_size e, ss_diff e))). intros v v' <-. reflexivity.
Qed.
End Entries.

Lemma given_some (x : str) : x <> [] -> given (Some x) = true.
Proof. destruct x; [contradiction|reflexivity]. Qed.
Lemma symbols_json d c x q r o fs s render encode ord pf :
  symbols_reported d c q r -> asked_symbols (c_args c) x -> tells_symbols q r -> a_format (c_args c) = FJson2 ->
  run_files d (get_memory_types chip_info) render encode ord pf c o (start fs) = (Done tt, s) ->
  exists rows, s_printed s = [PEntries rows] /\ (exists i, symbol_of x q r i) /\ symbols_right x q r (c_args c) rows /\ entries_sorted (c_args c) rows.
Proof.
  intros Rp As Tf Fo R. pose proof Rp as (_ & _ & Au & Ad). pose proof As as (A1 & A2 & A3).
  destruct (shown_smap _ _ _ _ _ _ _ _ _ _ _ _ Rp As R) as (M & e & s1 & s2 & fo & F & P1 & Sh & P2 & _).
  unfold show in Sh. change (a_format (final_args (c_args c))) with (a_format (c_args c)) in Sh. rewrite Fo in Sh. unfold json_show in Sh.
  change (a_archives (final_args (c_args c))) with (a_archives (c_args c)) in Sh. change (a_archive_details (final_args (c_args c))) with (a_archive_details (c_args c)) in Sh.
  rewrite A1, A2, (given_some x A3) in Sh. apply andthen_done in Sh. destruct Sh as (base & t1 & B & Sh). apply cod_done in B. destruct B as (B & Q1). apply print_done in Sh.
  destruct (symbols_shown _ _ _ _ _ _ F Au Ad A2 Tf base B) as (E1 & E2). eexists. split; [|split; [exact (symbols_exist _ _ _ _ _ _ F A2 base B)|split; [exact E1|exact E2]]]. rewrite P2, Sh, Q1, P1. reflexivity.
Qed.
