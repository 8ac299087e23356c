From Coq Require Import Ascii String List ZArith Lia Bool Permutation Sorted.
From Verif Require Import Base MemMap SpecTree SpecOps Filter SpecFilter ProofFilter Pipeline SpecPipe SpecBuild SpecBytes SpecShape ProofOps ProofTrim ProofDiff ProofDiff2 ProofSummary ProofSummary2 ProofSummary3 Fixtures PyStr MapFile SpecMap
  ElfRead SpecElf Project SpecProject SpecEnd Chips SpecChips ProofChips ProofShape Deps Table SpecTable ProofTable ProofTable3 Formats ProofFormats Main SpecMain ProofMain ProofMain4 ProofMain5 Command SpecCommand SpecFail SpecReport
  ProofCommand1 ProofCommand2 ProofCommand3 ProofCommand4 ProofCommand5 ProofCommand6 ProofReport1 ProofReport2 ProofReport3 ProofReport4 ProofReport5 ProofReport6 SpecSyms SpecSymbols ProofSymbols1 ProofSymbols2 ProofSymbols3 ProofSymbols4.
Import ListNotations.
Open Scope list_scope.
Open Scope Z_scope.

Section Tables.
Variables (a : args) (x : str) (q : account) (r : option account) (M : memmap) (fo : (item -> bool) -> str -> str -> Z * Z).
Hypothesis F : sfinal a q r M fo.
Hypothesis Au : a_unify a = false.
Hypothesis Ad : a_archive_dependencies a = false.
Hypothesis Ax : a_archive_details a = Some x.
Hypothesis Ts0 : tells_symbols q r.
Let f := final_args a.
Let W : wf_map M := sf_wf _ _ _ _ _ F.
Variable base : dict str sentry.
Hypothesis Bs : get_symbols_summary M f = Ok base.
Let first := list_ascii_of_string "Symbol".
Let name_of (kv : str * sentry) : str := if a_abbrev f then se_abbrev (snd kv) else fst kv.

Definition is_srow (kv : str * sentry) (i : item) : Prop :=
  symbol_of x q r i /\ fst kv = symbol_key i /\ se_abbrev (snd kv) = it_name i /\
  entry_right q r a (of_symbol i) (snd kv) /\ differs a (se_size (snd kv), se_diff (snd kv)).

Lemma srow_named kv i : is_srow kv i -> symbol_shown a i (name_of kv).
Proof. intros (_ & E & Al & _). unfold symbol_shown, name_of, f. rewrite (abbrev_final a Au). destruct (a_no_abbrev a); cbn [negb]; [exact E|exact Al]. Qed.
Lemma symbol_shown_unique i j s s' : symbol_of x q r i -> symbol_of x q r j -> symbol_key i = symbol_key j -> symbol_shown a i s -> symbol_shown a j s' -> s = s'.
Proof.
  intros (Pi & _) (Pj & _) E. unfold symbol_shown. destruct (same_symbol q r Ts0 i j Pi Pj E) as (_ & _ & E3). rewrite E, E3. congruence.
Qed.

Lemma sfiltered ps : asked_filter a ps -> exists keep, get_summary_filtered base f = filter keep base /\ forall kv, keep kv = true <-> selected ps (name_of kv).
Proof.
  unfold asked_filter, selected. destruct ps as [l|]; intros As.
  - destruct As as (E & Fp). destruct (written_filter_ok se_abbrev base f l E Fp) as (keep & Ek & H). exists keep. split; [exact Ek|]. intros (n & e). apply H.
  - exists (fun _ => true). split; [|intros; split; [auto|reflexivity]]. unfold get_summary_filtered, summary_filtered. change (a_filter f) with (a_filter a). rewrite As. now rewrite filter_true.
Qed.

Lemma scolumns_are : columns_right q r a (groups_of M).
Proof.
  unfold groups_of. split; [|split].
  - rewrite map_map. cbn [fst]. apply W.
  - intros T. rewrite map_map. cbn [fst]. symmetry. apply (stypes_present _ _ _ _ _ F).
  - intros T Ns I. apply List.in_map_iff in I. destruct I as ((T0 & t) & E & I). cbn [fst snd] in E. injection E as -> <-.
    assert (Et : dget T (m_types M) = Some t) by (apply In_dget; [apply W|exact I]). split.
    + pose proof (snodup_sections _ _ _ _ _ F T) as H. cbv zeta beta in H. rewrite Et in H. exact H.
    + intros N. symmetry. pose proof (ssections_present _ _ _ _ _ F T N) as H. cbv zeta beta in H. rewrite Et in H. exact H.
Qed.
Lemma scol_sect T N : In (ColSect T N) (cols M) -> exists y, look M T [N] = Some y.
Proof.
  unfold cols. intros [X|I]; [discriminate|]. apply in_flat_map in I. destruct I as ((T0 & t) & It & [X|I]); [discriminate|]. apply List.in_map_iff in I. destruct I as ((N0 & s) & E & Is). cbn [fst snd] in *. injection E as -> ->.
  assert (Et : dget T (m_types M) = Some t) by (apply In_dget; [apply W|exact It]).
  assert (Es : dget N (t_sections t) = Some s). { apply In_dget; [|exact Is]. destruct W as (_ & W2). rewrite Forall_forall in W2. specialize (W2 _ It). apply W2. }
  unfold look. rewrite Et. cbn [look_dict]. rewrite Es. cbn. eauto.
Qed.
Lemma scol_type T : In (ColType T) (cols M) -> In T (keys (m_types M)).
Proof.
  unfold cols. intros [X|I]; [discriminate|]. apply in_flat_map in I. destruct I as ((T0 & t) & It & [X|I]).
  - injection X as ->. apply (List.in_map fst) in It. exact It.
  - apply List.in_map_iff in I. destruct I as (y & E & _). discriminate.
Qed.
Lemma stitles_are : Forall2 (column_title a) (cols M) (map (col_title M f) (cols M)).
Proof.
  assert (H : forall l, incl l (cols M) -> Forall2 (column_title a) l (map (col_title M f) l)); [|apply H, incl_refl].
  induction l as [|c l IH]; intros I; [constructor|]. cbn [map]. constructor; [|apply IH; intros y X; apply I; now right].
  destruct c as [|T|T N]; cbn [column_title col_title]; try reflexivity. destruct (scol_sect T N (I _ (or_introl eq_refl))) as (y & L). rewrite L. apply label_shown; [|exact Au].
  apply (sf_label _ _ _ _ _ F _ _ _ L).
Qed.
Lemma svalue_is e own c : entry_right q r a own e -> In c (cols M) -> measured q r (own_bytes own c) (col_value e c).
Proof.
  intros R I. destruct c as [|T|T N]; cbn [col_value].
  - apply R.
  - apply scol_type in I. apply (stypes_present _ _ _ _ _ F) in I. apply (er_types _ _ _ _ _ R) in I. apply In_key_dget in I. destruct I as (st & E). rewrite E. apply dget_In in E. now apply (er_type _ _ _ _ _ R).
  - destruct (scol_sect T N I) as (y & L). assert (Tp : In T (keys (m_types M))).
    { unfold look in L. destruct (dget T (m_types M)) eqn:E; [|discriminate]. eapply dget_Some_key, E. }
    apply (stypes_present _ _ _ _ _ F) in Tp. apply (er_types _ _ _ _ _ R) in Tp. apply In_key_dget in Tp. destruct Tp as (st & E). rewrite E. apply dget_In in E.
    assert (Np : present q r (lists_section T N)) by (apply (sf_section _ _ _ _ _ F); congruence).
    apply (er_sections _ _ _ _ _ R T st N E) in Np. apply In_key_dget in Np. destruct Np as (z & Eq). rewrite Eq. apply dget_In in Eq. now apply (er_section _ _ _ _ _ R T st).
Qed.
Lemma smeasured_unique own c v w : In c (cols M) -> measured q r (own_bytes own c) v -> measured q r (own_bytes own c) w -> v = w.
Proof.
  intros I. destruct c as [|T|T N].
  - rewrite !(stotal_is _ _ _ _ _ F). congruence.
  - rewrite !(stype_is _ _ _ _ _ F). congruence.
  - rewrite !(sf_sect_is _ _ _ _ _ F). congruence.
Qed.

Lemma stable_shown ps tb : asked_filter a ps -> is_report M f first (get_summary_filtered base f) (TOk tb) ->
  exists is, symbol_items x q r a ps is /\
    (is = [] -> tb_headers tb = [first; list_ascii_of_string "Total Size"] /\ tb_rows tb = []) /\
    (is <> [] -> exists groups titles i c, columns_right q r a groups /\ tb_headers tb = first :: titles /\ Forall2 (column_title a) (columns groups) titles /\
       Forall2 (symbol_row q r a (columns groups)) is (tb_rows tb) /\
       names_column (tb_headers tb) (a_sort a) (S i) /\ nth_error (columns groups) i = Some c /\
       StronglySorted (fun y z => forall v w, measured q r (own_bytes (of_symbol y) c) v -> measured q r (own_bytes (of_symbol z) c) w ->
         in_order (a_sort_reverse a) (pick (a_sort_diff a) v) (pick (a_sort_diff a) w)) is).
Proof.
  intros As Rp. destruct (sfiltered ps As) as (keep & Ek & Hk). set (d := get_summary_filtered base f) in *.
  pose proof (swf_base _ M base Bs) as Wb. pose proof (sbase_row _ _ _ _ _ _ F Au Ad Ax Ts0 base Bs) as Row. pose proof (sbase_has _ _ _ _ _ _ F Au Ad Ax Ts0 base Bs) as Has.
  assert (Items : forall rows is, Permutation d rows -> Forall2 is_srow rows is -> symbol_items x q r a ps is).
  { intros rows is P Fi.
    assert (Nm : map fst rows = map symbol_key is) by (eapply f2_map_eq, f2_impl; [|exact Fi]; intros y z _ H; apply H).
    split; [|split].
    - rewrite <- Nm. eapply Permutation_NoDup; [apply Permutation_map, P|]. rewrite Ek. apply NoDup_map_filter. exact Wb.
    - clear -Fi. induction Fi as [|y z l l' H Fi IH]; constructor; [apply H|exact IH].
    - intros n. rewrite <- Nm. split.
      + intros I. apply (Permutation_in _ (Permutation_sym (Permutation_map fst P))) in I. apply List.in_map_iff in I. destruct I as ((n0 & e) & E & I). cbn [fst] in E. subst n0.
        rewrite Ek in I. apply filter_In in I. destruct I as (I & Kp). apply Hk in Kp. destruct (Row n e I) as (i & Pi & E & Al & R & D).
        exists i, (se_size e, se_diff e), (name_of (n, e)). split; [exact Pi|]. split; [exact E|]. split; [apply R|]. split; [exact D|]. split; [|exact Kp]. apply srow_named. exact (conj Pi (conj E (conj Al (conj R D)))).
      + intros (i & v & sn & Pi & -> & Mv & Dv & Sn & Se). pose proof (Has i v Pi Mv Dv) as I. apply List.in_map_iff in I. destruct I as ((n & e) & E & I). cbn [fst] in E.
        destruct (Row n e I) as (j & Pj & Ej & Al & R & D). assert (Rj : is_srow (n, e) j) by exact (conj Pj (conj Ej (conj Al (conj R D)))).
        assert (En : name_of (n, e) = sn) by (apply (symbol_shown_unique j i); [exact Pj|exact Pi|congruence|now apply srow_named|exact Sn]).
        rewrite <- E. apply (Permutation_in _ (Permutation_map fst P)). apply List.in_map_iff. exists (n, e). split; [reflexivity|]. rewrite Ek. apply filter_In. split; [exact I|]. apply Hk. now rewrite En. }
  assert (Rows : forall rows, Permutation d rows -> exists is, Forall2 is_srow rows is).
  { intros rows P. apply f2_exists. intros (n & e) I. apply (Permutation_in _ (Permutation_sym P)) in I. rewrite Ek in I. apply filter_In in I. destruct I as (I & _).
    destruct (Row n e I) as (i & H). exists i. exact H. }
  destruct d as [|kv0 d0] eqn:Ed.
  - destruct (Rows [] (Permutation_refl _)) as (is & Fi). exists is. split; [eapply Items; [|exact Fi]; reflexivity|]. inversion Fi; subst. split; [|congruence]. intros _. apply (report_empty M f); [exact W|exact Rp].
  - destruct (report_shows _ _ _ _ _ W Rp) as (Hd & i & c & rows & Nc & Ec & P & Fr & So); [discriminate|]. destruct (Rows rows P) as (is & Fi). exists is. split; [eapply Items; eassumption|].
    split. { intros ->. inversion Fi; subst. apply Permutation_sym, Permutation_nil in P. discriminate. }
    intros _. exists (groups_of M), (map (col_title M f) (cols M)), i, c. rewrite columns_of. split; [apply scolumns_are|]. split; [exact Hd|]. split; [apply stitles_are|]. split; [|split; [|split; [exact Ec|]]].
    + refine (f2_trans _ _ _ _ _ _ _ Fi Fr). intros kv it row R (cells & -> & Fc). exists (name_of kv), cells. split; [reflexivity|]. split; [now apply srow_named|].
      eapply f2_impl; [|exact Fc]. intros c0 s0 Ic Cc. exists (col_value (snd kv) c0). split; [apply svalue_is; [apply R|exact Ic]|].
      assert (E : a_diff f = a_diff a). { cbn. unfold conflict_diff. now rewrite Ad. } rewrite E in Cc. exact Cc.
    + rewrite Hd. exact Nc.
    + refine (sorted_f2 _ _ _ _ _ _ Fi So). intros y y' z z' Rx Ry H v w Mv Mw. apply nth_error_In in Ec.
      rewrite (smeasured_unique _ _ _ _ Ec Mv (svalue_is _ _ _ (proj1 (proj2 (proj2 (proj2 Rx)))) Ec)), (smeasured_unique _ _ _ _ Ec Mw (svalue_is _ _ _ (proj1 (proj2 (proj2 (proj2 Ry)))) Ec)). exact H.
Qed.
End Tables.

Lemma symbols_table_report d c x q r o ps fs s render encode ord pf :
  symbols_reported d c q r -> asked_symbols (c_args c) x -> tells_symbols q r -> asked_filter (c_args c) ps ->
  a_format (c_args c) = FTable \/ a_format (c_args c) = FText \/ a_format (c_args c) = FCsv ->
  run_files d (get_memory_types chip_info) render encode ord pf c o (start fs) = (Done tt, s) ->
  exists tb is, prints (c_args c) s tb /\ (exists i, symbol_of x q r i) /\ symbol_items x q r (c_args c) ps is /\
    let first := list_ascii_of_string "Symbol" in
    (is = [] -> tb_headers tb = [first; list_ascii_of_string "Total Size"] /\ tb_rows tb = []) /\
    (is <> [] -> exists groups titles i col, columns_right q r (c_args c) groups /\ tb_headers tb = first :: titles /\ Forall2 (column_title (c_args c)) (columns groups) titles /\
       Forall2 (symbol_row q r (c_args c) (columns groups)) is (tb_rows tb) /\
       names_column (tb_headers tb) (a_sort (c_args c)) (S i) /\ nth_error (columns groups) i = Some col /\
       StronglySorted (fun y z => forall v w, measured q r (own_bytes (of_symbol y) col) v -> measured q r (own_bytes (of_symbol z) col) w ->
         in_order (a_sort_reverse (c_args c)) (pick (a_sort_diff (c_args c)) v) (pick (a_sort_diff (c_args c)) w)) is).
Proof.
  intros Rp As Tf Fl Fo R. pose proof Rp as (_ & _ & Au & Ad). pose proof As as (A1 & A2 & A3).
  destruct (shown_smap _ _ _ _ _ _ _ _ _ _ _ _ Rp As R) as (M & e & s1 & s2 & fo & F & P1 & Sh & P2 & N2).
  destruct (prints_done e M (c_args c) o s1 s2 s Sh P1 P2 N2 Fo) as (tb & t & t' & E & Pr & _).
  unfold table_of in E. change (a_archives (final_args (c_args c))) with (a_archives (c_args c)) in E. change (a_archive_details (final_args (c_args c))) with (a_archive_details (c_args c)) in E.
  rewrite A1, A2, (given_some x A3) in E. apply andthen_done in E. destruct E as (tr & t1 & E1 & E). apply cod_done in E1. destruct E1 as (E1 & _). apply table_done in E. destruct E as (-> & _).
  assert (Bs : exists base, get_symbols_summary M (final_args (c_args c)) = Ok base).
  { unfold get_symbols_table in E1. destruct (get_symbols_summary M (final_args (c_args c))) as [b|]; [eauto|discriminate]. }
  destruct Bs as (base & Bs).
  destruct (stable_shown _ _ _ _ _ _ F Au Ad A2 Tf base Bs ps tb Fl) as (is & Ti & T1 & T2).
  { right. right. split; [reflexivity|]. exists base. split; [exact Bs|]. split; [reflexivity|exact E1]. }
  exists tb, is. split; [exact Pr|]. split; [exact (symbols_exist _ _ _ _ _ _ F A2 base Bs)|]. split; [exact Ti|]. cbv zeta. split; [exact T1|exact T2].
Qed.
