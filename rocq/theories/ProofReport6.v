From Coq Require Import Ascii String List ZArith Lia Bool Permutation Sorted.
From Verif Require Import Base MemMap SpecTree SpecOps Filter SpecFilter ProofFilter Pipeline SpecPipe SpecBuild SpecBytes SpecShape ProofOps ProofTrim ProofDiff ProofDiff2 ProofSummary ProofSummary2 ProofSummary3 Fixtures PyStr MapFile SpecMap
  ElfRead SpecElf Project SpecProject SpecEnd Chips SpecChips ProofChips ProofShape Deps Table SpecTable ProofTable ProofTable3 Formats ProofFormats Main SpecMain ProofMain ProofMain4 ProofMain5 Command SpecCommand SpecFail SpecReport
  ProofCommand1 ProofCommand2 ProofCommand3 ProofCommand4 ProofCommand5 ProofCommand6 ProofReport1 ProofReport2 ProofReport3 ProofReport4 ProofReport5.
Import ListNotations.
Open Scope list_scope.
Open Scope Z_scope.

Section Tables.
Variables (a : args) (k : account) (r : option account) (M : memmap) (fu : str -> Z * Z) (fn : str -> str -> Z * Z) (fo : (item -> bool) -> str -> str -> Z * Z).
Hypothesis F : final a k r M fu fn fo.
Hypothesis Au : a_unify a = false.
Hypothesis Ad : a_archive_dependencies a = false.
Let f := final_args a.
Let W : wf_map M := f_wf _ _ _ _ _ _ _ F.
Variable files : bool.
Hypothesis Tf : tells_files files k r.
Let base : dict str sentry := if files then get_object_files_summary M f else get_archives_summary M f.
Let first := if files then list_ascii_of_string "Object File" else list_ascii_of_string "Archive File".

Lemma abbrev_final : a_abbrev f = negb (a_no_abbrev a).
Proof.
  unfold f. cbn [final_args a_abbrev set_use_dwarf set_abbrev]. cbn [without_conflicts a_no_abbrev]. unfold conflict_abbrev. rewrite Au. now destruct (a_no_abbrev a).
Qed.
Let name_of (kv : str * sentry) : str := if a_abbrev f then se_abbrev (snd kv) else fst kv.

Definition is_row (kv : str * sentry) (i : item) : Prop :=
  present k r (places i) /\ fst kv = row_key files i /\ after_last "/"%char (row_file files i) (se_abbrev (snd kv)) /\
  entry_right k r a (row_own files i) (snd kv) /\ differs a (se_size (snd kv), se_diff (snd kv)).

Lemma row_named kv i : is_row kv i -> shown_name files a i (name_of kv).
Proof. intros (_ & E & Al & _). unfold shown_name, name_of. rewrite abbrev_final. destruct (a_no_abbrev a); cbn [negb]; [exact E|exact Al]. Qed.

Lemma same_file i j : present k r (places i) -> present k r (places j) -> row_key files i = row_key files j -> row_file files i = row_file files j.
Proof.
  unfold row_key, row_file. unfold tells_files in Tf. destruct files; [|auto]. intros Pi Pj E. apply (split_last_colon _ _ _ _ (Tf eq_refl i Pi) (Tf eq_refl j Pj)) in E. apply E.
Qed.
Lemma shown_name_unique i j s s' : present k r (places i) -> present k r (places j) -> row_key files i = row_key files j -> shown_name files a i s -> shown_name files a j s' -> s = s'.
Proof.
  intros Pi Pj E. unfold shown_name. rewrite (same_file i j Pi Pj E), E. destruct (a_no_abbrev a); [congruence|]. apply after_last_unique.
Qed.

Lemma filtered ps : asked_filter a ps -> exists keep, get_summary_filtered base f = filter keep base /\ forall kv, keep kv = true <-> selected ps (name_of kv).
Proof.
  unfold asked_filter, selected. destruct ps as [l|]; intros As.
  - destruct As as (E & Fp). destruct (written_filter_ok se_abbrev base f l E Fp) as (keep & Ek & H). exists keep. split; [exact Ek|]. intros (n & e). apply H.
  - exists (fun _ => true). split; [|intros; split; [auto|reflexivity]]. unfold get_summary_filtered, summary_filtered. change (a_filter f) with (a_filter a). rewrite As. now rewrite filter_true.
Qed.

Definition groups_of := map (fun t : str * mtype => (fst t, keys (t_sections (snd t)))) (m_types M).
Lemma columns_of : columns groups_of = cols M.
Proof.
  unfold columns, cols, groups_of. f_equal. induction (m_types M) as [|[T t] q IH]; [reflexivity|]. cbn [map flat_map fst snd]. rewrite IH. f_equal. unfold keys. now rewrite map_map.
Qed.
Lemma columns_are : columns_right k r a groups_of.
Proof.
  unfold groups_of. split; [|split].
  - rewrite map_map. cbn [fst]. apply W.
  - intros T. rewrite map_map. cbn [fst]. symmetry. apply (types_present _ _ _ _ _ _ _ F).
  - intros T Ns I. apply List.in_map_iff in I. destruct I as ((T0 & t) & E & I). cbn [fst snd] in E. injection E as -> <-.
    assert (Et : dget T (m_types M) = Some t) by (apply In_dget; [apply W|exact I]). split.
    + pose proof (nodup_sections _ _ _ _ _ _ _ F T) as H. cbv zeta beta in H. rewrite Et in H. exact H.
    + intros N. symmetry. pose proof (sections_present _ _ _ _ _ _ _ F T N) as H. cbv zeta beta in H. rewrite Et in H. exact H.
Qed.
Lemma col_sect T N : In (ColSect T N) (cols M) -> exists x, look M T [N] = Some x.
Proof.
  unfold cols. intros [X|I]; [discriminate|]. apply in_flat_map in I. destruct I as ((T0 & t) & It & [X|I]); [discriminate|]. apply List.in_map_iff in I. destruct I as ((N0 & s) & E & Is). cbn [fst snd] in *. injection E as -> ->.
  assert (Et : dget T (m_types M) = Some t) by (apply In_dget; [apply W|exact It]).
  assert (Es : dget N (t_sections t) = Some s). { apply In_dget; [|exact Is]. destruct W as (_ & W2). rewrite Forall_forall in W2. specialize (W2 _ It). apply W2. }
  unfold look. rewrite Et. cbn [look_dict]. rewrite Es. cbn. eauto.
Qed.
Lemma col_type T : In (ColType T) (cols M) -> In T (keys (m_types M)).
Proof.
  unfold cols. intros [X|I]; [discriminate|]. apply in_flat_map in I. destruct I as ((T0 & t) & It & [X|I]).
  - injection X as ->. apply (List.in_map fst) in It. exact It.
  - apply List.in_map_iff in I. destruct I as (x & E & _). discriminate.
Qed.
Lemma titles_are : Forall2 (column_title a) (cols M) (map (col_title M f) (cols M)).
Proof.
  assert (H : forall l, incl l (cols M) -> Forall2 (column_title a) l (map (col_title M f) l)); [|apply H, incl_refl].
  induction l as [|c l IH]; intros I; [constructor|]. cbn [map]. constructor; [|apply IH; intros x X; apply I; now right].
  destruct c as [|T|T N]; cbn [column_title col_title]; try reflexivity. destruct (col_sect T N (I _ (or_introl eq_refl))) as (x & L). rewrite L. apply label_shown; [|exact Au].
  apply (f_label _ _ _ _ _ _ _ F _ _ _ L).
Qed.
Lemma value_is e own c : entry_right k r a own e -> In c (cols M) -> measured k r (own_bytes own c) (col_value e c).
Proof.
  intros R I. destruct c as [|T|T N]; cbn [col_value].
  - apply R.
  - apply col_type in I. apply (types_present _ _ _ _ _ _ _ F) in I. apply (er_types _ _ _ _ _ R) in I. apply In_key_dget in I. destruct I as (st & E). rewrite E. apply dget_In in E. now apply (er_type _ _ _ _ _ R).
  - destruct (col_sect T N I) as (x & L). assert (Tp : In T (keys (m_types M))).
    { unfold look in L. destruct (dget T (m_types M)) eqn:E; [|discriminate]. eapply dget_Some_key, E. }
    apply (types_present _ _ _ _ _ _ _ F) in Tp. apply (er_types _ _ _ _ _ R) in Tp. apply In_key_dget in Tp. destruct Tp as (st & E). rewrite E. apply dget_In in E.
    assert (Np : present k r (lists_section T N)) by (apply (f_section _ _ _ _ _ _ _ F); congruence).
    apply (er_sections _ _ _ _ _ R T st N E) in Np. apply In_key_dget in Np. destruct Np as (q & Eq). rewrite Eq. apply dget_In in Eq. now apply (er_section _ _ _ _ _ R T st).
Qed.
Lemma measured_unique own c v w : In c (cols M) -> measured k r (own_bytes own c) v -> measured k r (own_bytes own c) w -> v = w.
Proof.
  intros I. destruct c as [|T|T N].
  - rewrite !(total_is _ _ _ _ _ _ _ F). congruence.
  - rewrite !(type_is _ _ _ _ _ _ _ F). congruence.
  - rewrite !(f_sect_is _ _ _ _ _ _ _ F). congruence.
Qed.

Lemma table_shown ps tb : asked_filter a ps -> is_report M f first (get_summary_filtered base f) (TOk tb) ->
  exists is, table_items files k r a ps is /\
    (is = [] -> tb_headers tb = [first; list_ascii_of_string "Total Size"] /\ tb_rows tb = []) /\
    (is <> [] -> exists groups titles i c, columns_right k r a groups /\ tb_headers tb = first :: titles /\ Forall2 (column_title a) (columns groups) titles /\
       Forall2 (table_row files k r a (columns groups)) is (tb_rows tb) /\
       names_column (tb_headers tb) (a_sort a) (S i) /\ nth_error (columns groups) i = Some c /\
       StronglySorted (fun x y => forall v w, measured k r (own_bytes (row_own files x) c) v -> measured k r (own_bytes (row_own files y) c) w ->
         in_order (a_sort_reverse a) (pick (a_sort_diff a) v) (pick (a_sort_diff a) w)) is).
Proof.
  intros As Rp. destruct (filtered ps As) as (keep & Ek & Hk). set (d := get_summary_filtered base f) in *.
  pose proof (wf_base a k r M files Tf) as Wb. fold f base in Wb.
  assert (Items : forall rows is, Permutation d rows -> Forall2 is_row rows is -> table_items files k r a ps is).
  { intros rows is P Fi.
    assert (Nm : map fst rows = map (row_key files) is) by (eapply f2_map_eq, f2_impl; [|exact Fi]; intros x y _ H; apply H).
    split; [|split].
    - rewrite <- Nm. eapply Permutation_NoDup; [apply Permutation_map, P|]. rewrite Ek. apply NoDup_map_filter. exact Wb.
    - clear -Fi. induction Fi as [|x y l l' H Fi IH]; constructor; [apply H|exact IH].
    - intros n. rewrite <- Nm. split.
      + intros I. apply (Permutation_in _ (Permutation_sym (Permutation_map fst P))) in I. apply List.in_map_iff in I. destruct I as ((n0 & e) & E & I). cbn [fst] in E. subst n0.
        rewrite Ek in I. apply filter_In in I. destruct I as (I & Kp). apply Hk in Kp. destruct (base_row _ _ _ _ _ _ _ F Au Ad files Tf n e I) as (i & Pi & E & Al & R & D).
        exists i, (se_size e, se_diff e), (name_of (n, e)). split; [exact Pi|]. split; [exact E|]. split; [apply R|]. split; [exact D|]. split; [|exact Kp]. apply row_named. exact (conj Pi (conj E (conj Al (conj R D)))).
      + intros (i & v & sn & Pi & -> & Mv & Dv & Sn & Se). pose proof (base_has _ _ _ _ _ _ _ F Au Ad files Tf i v Pi Mv Dv) as I. fold f base in I. apply List.in_map_iff in I. destruct I as ((n & e) & E & I). cbn [fst] in E.
        destruct (base_row _ _ _ _ _ _ _ F Au Ad files Tf n e I) as (j & Pj & Ej & Al & R & D). assert (Rj : is_row (n, e) j) by exact (conj Pj (conj Ej (conj Al (conj R D)))).
        assert (En : name_of (n, e) = sn) by (apply (shown_name_unique j i); [exact Pj|exact Pi|congruence|now apply row_named|exact Sn]).
        rewrite <- E. apply (Permutation_in _ (Permutation_map fst P)). apply List.in_map_iff. exists (n, e). split; [reflexivity|]. rewrite Ek. apply filter_In. split; [exact I|]. apply Hk. now rewrite En. }
  assert (Rows : forall rows, Permutation d rows -> exists is, Forall2 is_row rows is).
  { intros rows P. apply f2_exists. intros (n & e) I. apply (Permutation_in _ (Permutation_sym P)) in I. rewrite Ek in I. apply filter_In in I. destruct I as (I & _).
    destruct (base_row _ _ _ _ _ _ _ F Au Ad files Tf n e I) as (i & H). exists i. exact H. }
  destruct d as [|kv0 d0] eqn:Ed.
  - destruct (Rows [] (Permutation_refl _)) as (is & Fi). exists is. split; [eapply Items; [|exact Fi]; reflexivity|]. inversion Fi; subst. split; [|congruence]. intros _. apply (report_empty M f); [exact W|exact Rp].
  - destruct (report_shows _ _ _ _ _ W Rp) as (Hd & i & c & rows & Nc & Ec & P & Fr & So); [discriminate|]. destruct (Rows rows P) as (is & Fi). exists is. split; [eapply Items; eassumption|].
    split. { intros ->. inversion Fi; subst. apply Permutation_sym, Permutation_nil in P. discriminate. }
    intros _. exists groups_of, (map (col_title M f) (cols M)), i, c. rewrite columns_of. split; [apply columns_are|]. split; [exact Hd|]. split; [apply titles_are|]. split; [|split; [|split; [exact Ec|]]].
    + refine (f2_trans _ _ _ _ _ _ _ Fi Fr). intros kv it row R (cells & -> & Fc). exists (name_of kv), cells. split; [reflexivity|]. split; [now apply row_named|].
      eapply f2_impl; [|exact Fc]. intros c0 s0 Ic Cc. exists (col_value (snd kv) c0). split; [apply value_is; [apply R|exact Ic]|].
      assert (E : a_diff f = a_diff a). { cbn. unfold conflict_diff. now rewrite Ad. } rewrite E in Cc. exact Cc.
    + rewrite Hd. exact Nc.
    + refine (sorted_f2 _ _ _ _ _ _ Fi So). intros x x' y y' Rx Ry H v w Mv Mw. apply nth_error_In in Ec.
      rewrite (measured_unique _ _ _ _ Ec Mv (value_is _ _ _ (proj1 (proj2 (proj2 (proj2 Rx)))) Ec)), (measured_unique _ _ _ _ Ec Mw (value_is _ _ _ (proj1 (proj2 (proj2 (proj2 Ry)))) Ec)). exact H.
Qed.
End Tables.

Lemma entries_table_report d c k r o files ps fs s render encode ord pf :
  reported d c k r -> asked files (c_args c) -> (given (a_archive_details (c_args c)) = true -> a_use_dwarf (c_args c) <> Some true) -> tells_files files k r -> asked_filter (c_args c) ps ->
  a_format (c_args c) = FTable \/ a_format (c_args c) = FText \/ a_format (c_args c) = FCsv ->
  run_files d (get_memory_types chip_info) render encode ord pf c o (start fs) = (Done tt, s) ->
  exists tb is, prints (c_args c) s tb /\ table_items files k r (c_args c) ps is /\
    let first := list_ascii_of_string (if files then "Object File" else "Archive File") in
    (is = [] -> tb_headers tb = [first; list_ascii_of_string "Total Size"] /\ tb_rows tb = []) /\
    (is <> [] -> exists groups titles i col, columns_right k r (c_args c) groups /\ tb_headers tb = first :: titles /\ Forall2 (column_title (c_args c)) (columns groups) titles /\
       Forall2 (table_row files k r (c_args c) (columns groups)) is (tb_rows tb) /\
       names_column (tb_headers tb) (a_sort (c_args c)) (S i) /\ nth_error (columns groups) i = Some col /\
       StronglySorted (fun x y => forall v w, measured k r (own_bytes (row_own files x) col) v -> measured k r (own_bytes (row_own files y) col) w ->
         in_order (a_sort_reverse (c_args c)) (pick (a_sort_diff (c_args c)) v) (pick (a_sort_diff (c_args c)) w)) is).
Proof.
  intros Rp As Dw Tf Fl Fo R. pose proof Rp as (_ & _ & Au & Ad).
  destruct (shown_map _ _ _ _ _ _ _ _ _ _ _ Rp Dw (fun X => ltac:(rewrite X in Fo; destruct Fo as [?|[?|?]]; discriminate)) R) as (M & x & s1 & s2 & fu & fn & fo & F & _ & _ & P1 & Sh & P2 & N2).
  destruct (prints_done x M (c_args c) o s1 s2 s Sh P1 P2 N2 Fo) as (tb & t & t' & E & Pr & _).
  assert (Ir : is_report M (final_args (c_args c)) (if files then list_ascii_of_string "Object File" else list_ascii_of_string "Archive File")
    (get_summary_filtered (if files then get_object_files_summary M (final_args (c_args c)) else get_archives_summary M (final_args (c_args c))) (final_args (c_args c))) (TOk tb)).
  { unfold table_of in E. change (a_archives (final_args (c_args c))) with (a_archives (c_args c)) in E. change (a_archive_details (final_args (c_args c))) with (a_archive_details (c_args c)) in E.
    change (a_archive_dependencies (final_args (c_args c))) with (a_archive_dependencies (c_args c)) in E. change (a_files (final_args (c_args c))) with (a_files (c_args c)) in E.
    destruct files; cbn [asked] in As.
    - destruct As as (A1 & A2 & A3). rewrite A1, A2, Ad, A3 in E. apply table_done in E. destruct E as (E & _). right. left. split; [reflexivity|]. split; [reflexivity|]. now symmetry.
    - rewrite As in E. apply table_done in E. destruct E as (E & _). left. split; [reflexivity|]. split; [reflexivity|]. now symmetry. }
  destruct (table_shown _ _ _ _ _ _ _ F Au Ad files Tf ps tb Fl Ir) as (is & Ti & T1 & T2).
  exists tb, is. split; [exact Pr|]. split; [exact Ti|]. destruct files; cbv zeta; (split; [exact T1|exact T2]).
Qed.
