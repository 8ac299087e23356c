From Coq Require Import Ascii String List ZArith Lia Bool Permutation Sorted.
From Verif Require Import Base MemMap SpecTree SpecOps Filter SpecFilter ProofFilter Pipeline SpecPipe SpecBuild SpecBytes SpecShape ProofOps ProofTrim ProofDiff ProofDiff2 ProofSummary ProofSummary2 ProofSummary3 Fixtures PyStr MapFile SpecMap
  ElfRead SpecElf Project SpecProject SpecEnd Chips SpecChips ProofChips ProofShape Deps Table SpecTable ProofTable ProofTable3 Formats ProofFormats Main SpecMain ProofMain ProofMain4 ProofMain5 Command SpecCommand SpecFail SpecReport
  ProofProject1 ProofCommand1 ProofCommand2 ProofCommand3 ProofCommand4 ProofCommand5 ProofCommand6 ProofReport1 ProofReport2 ProofReport3 ProofReport4 ProofReport5 ProofReport6 ProofUnify SpecMerge ProofMerge1 ProofMerge2 ProofMerge3 ProofMerge4 ProofMerge5
  SpecMergeFiles ProofMergeFiles1 ProofMergeFiles2 ProofMergeFiles3.
Import ListNotations.
Open Scope list_scope.
Open Scope Z_scope.

Lemma shown_unified d c k r o files s render encode ord pf :
  merged d c k r -> (given (a_archive_details (c_args c)) = true -> a_use_dwarf (c_args c) <> Some true) -> a_format (c_args c) <> FRaw ->
  run_files d (get_memory_types chip_info) render encode ord pf c o (start files) = (Done tt, s) ->
  exists M x s1 s2 fu gn go, final (c_args c) k r M fu gn go /\ x_order x = ord /\ x_pct x = pf /\ s_printed s1 = [] /\
    show x (unify M) (final_args (c_args c)) o s1 = (Done tt, s2) /\ s_printed s = s_printed s2 /\ s_notes s = s_notes s2.
Proof.
  intros (Pk & Rr & Au & Ad) Dd Fm R. apply command_merged in R; [|exact Au|exact Ad]. destruct R as (m & x & M & s1 & s2 & G & X1 & X2 & D & P1 & Sh & P2 & N2).
  destruct Pk as (dir & name & text & crt & Ci & Bt & Wd & Fi). rewrite Ci in G.
  destruct (built_ledger _ _ _ _ _ _ _ _ _ (c_args c) _ _ _ Bt G (without_dwarf_option _ _ _ Wd Dd Fm) Fi) as (lu & ln & lo & L).
  assert (L' : ledger (c_args c) k (prepare (c_args c) m) lu ln lo) by (destruct k; exact L). clear L.
  exists M, x, s1, s2. destruct D as [(D & ->)|(fn & r0 & D & Nf & G2 & ->)].
  - assert (r = None) as ->. { destruct r as [k'|]; [|reflexivity]. destruct Rr as (fn & E & dir' & name' & text' & crt' & En & Bt' & _). exfalso. rewrite E in D.
      destruct fn; [|discriminate D]. pose proof (bt_name _ _ _ _ _ _ _ _ _ Bt') as Pn. apply (f_equal (@length ascii)) in En. unfold in_dir in En. rewrite app_length in En. destruct Pn as (Pn & _). destruct name'; [contradiction|]. cbn in En. lia. }
    do 3 eexists. split; [apply final_alone; exact L'|]. now repeat split.
  - destruct r as [k'|]; [|cbn in Rr; rewrite D in Rr; destruct fn; [contradiction|discriminate]].
    destruct Rr as (fn' & E & dir' & name' & text' & crt' & En & Bt' & Wd' & Fi'). rewrite D in E. injection E as <-. rewrite En in G2.
    destruct (built_ledger _ _ _ _ _ _ _ _ _ (with_flash (c_args c)) _ _ _ Bt' G2 (without_dwarf_option _ _ _ Wd' Dd Fm) Fi') as (lu' & ln' & lo' & R).
    assert (R' : ledger (with_flash (c_args c)) k' (prepare (with_flash (c_args c)) r0) lu' ln' lo') by (destruct k'; exact R).
    do 3 eexists. split; [eapply final_diff_ok; eassumption|]. now repeat split.
Qed.
Lemma merged_files_json d c k r o fs s render encode ord pf :
  merged d c k r -> asked true (c_args c) -> a_format (c_args c) = FJson2 ->
  run_files d (get_memory_types chip_info) render encode ord pf c o (start fs) = (Done tt, s) ->
  exists rows, s_printed s = [PEntries rows] /\ fentries_right k r (c_args c) rows /\ entries_sorted (c_args c) rows.
Proof.
  intros Rp As Fo R. pose proof Rp as (_ & _ & Au & Ad). destruct As as (A1 & A2 & A3).
  destruct (shown_unified _ _ _ _ _ _ _ _ _ _ _ Rp (fun X => ltac:(congruence)) (fun X => ltac:(congruence)) R) as (M & x & s1 & s2 & fu & gn & go & F & _ & _ & P1 & Sh & P2 & _).
  destruct (merged_files _ _ _ _ _ _ _ F Au Ad) as (E1 & E2). eexists. split; [|split; [exact E1|exact E2]].
  unfold show in Sh. change (a_format (final_args (c_args c))) with (a_format (c_args c)) in Sh. rewrite Fo in Sh. unfold json_show in Sh.
  change (a_archives (final_args (c_args c))) with (a_archives (c_args c)) in Sh. change (a_archive_details (final_args (c_args c))) with (a_archive_details (c_args c)) in Sh.
  change (a_archive_dependencies (final_args (c_args c))) with (a_archive_dependencies (c_args c)) in Sh. change (a_files (final_args (c_args c))) with (a_files (c_args c)) in Sh.
  rewrite A1, A2, Ad, A3 in Sh. apply print_done in Sh. rewrite P2, Sh, P1. reflexivity.
Qed.
Lemma merged_files_report d c k r o ps fs s render encode ord pf :
  merged d c k r -> asked true (c_args c) -> asked_filter (c_args c) ps ->
  a_format (c_args c) = FTable \/ a_format (c_args c) = FText \/ a_format (c_args c) = FCsv ->
  run_files d (get_memory_types chip_info) render encode ord pf c o (start fs) = (Done tt, s) ->
  exists tb ys, prints (c_args c) s tb /\ ftable_names k r (c_args c) ps ys /\
    (ys = [] -> tb_headers tb = [list_ascii_of_string "Object File"; list_ascii_of_string "Total Size"] /\ tb_rows tb = []) /\
    (ys <> [] -> exists groups titles i col, mcolumns_right k r (c_args c) groups /\ tb_headers tb = list_ascii_of_string "Object File" :: titles /\ Forall2 mcolumn_title (columns groups) titles /\
       Forall2 (ftable_row k r (c_args c) (columns groups)) ys (tb_rows tb) /\
       names_column (tb_headers tb) (a_sort (c_args c)) (S i) /\ nth_error (columns groups) i = Some col /\
       ((of_section col -> forall y, In y ys -> one_archive k r y) ->
        StronglySorted (fun x y => forall v w, measured k r (file_bytes x col) v -> measured k r (file_bytes y col) w ->
         in_order (a_sort_reverse (c_args c)) (pick (a_sort_diff (c_args c)) v) (pick (a_sort_diff (c_args c)) w)) ys)).
Proof.
  intros Rp As Fl Fo R. pose proof Rp as (_ & _ & Au & Ad). destruct As as (A1 & A2 & A3).
  destruct (shown_unified _ _ _ _ _ _ _ _ _ _ _ Rp (fun X => ltac:(congruence)) (fun X => ltac:(rewrite X in Fo; destruct Fo as [?|[?|?]]; discriminate)) R) as (M & x & s1 & s2 & fu & gn & go & F & _ & _ & P1 & Sh & P2 & N2).
  destruct (prints_done x (unify M) (c_args c) o s1 s2 s Sh P1 P2 N2 Fo) as (tb & t & t' & E & Pr & _).
  assert (Ir : is_report (unify M) (final_args (c_args c)) (list_ascii_of_string "Object File") (get_summary_filtered (get_object_files_summary (unify M) (final_args (c_args c))) (final_args (c_args c))) (TOk tb)).
  { unfold table_of in E. change (a_archives (final_args (c_args c))) with (a_archives (c_args c)) in E. change (a_archive_details (final_args (c_args c))) with (a_archive_details (c_args c)) in E.
    change (a_archive_dependencies (final_args (c_args c))) with (a_archive_dependencies (c_args c)) in E. change (a_files (final_args (c_args c))) with (a_files (c_args c)) in E.
    rewrite A1, A2, Ad, A3 in E. apply table_done in E. destruct E as (E & _). right. left. split; [reflexivity|]. split; [reflexivity|]. now symmetry. }
  destruct (merged_files_table _ _ _ _ _ _ _ F Au Ad ps tb Fl Ir) as (ys & Ti & T1 & T2).
  exists tb, ys. split; [exact Pr|]. split; [exact Ti|]. split; [exact T1|exact T2].
Qed.
