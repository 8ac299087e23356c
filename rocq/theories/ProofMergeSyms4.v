From Coq Require Import Ascii String List ZArith Lia Bool Permutation Sorted.
From Verif Require Import Base MemMap SpecTree SpecOps Filter SpecFilter ProofFilter Pipeline SpecPipe SpecBuild SpecBytes SpecShape ProofOps ProofTrim ProofDiff ProofDiff2 ProofSummary ProofSummary2 ProofSummary3 Fixtures PyStr MapFile SpecMap
  ElfRead SpecElf Project SpecProject SpecEnd Chips SpecChips ProofChips ProofShape Deps Table SpecTable ProofTable ProofTable3 Formats ProofFormats Main SpecMain ProofMain ProofMain4 ProofMain5 Command SpecCommand SpecFail SpecReport
  ProofProject1 ProofCommand1 ProofCommand2 ProofCommand3 ProofCommand4 ProofCommand5 ProofCommand6 ProofReport1 ProofReport2 ProofReport3 ProofReport4 ProofReport5 ProofReport6 ProofUnify SpecMerge ProofMerge1 ProofMerge2 ProofMerge3 ProofMerge4 ProofMerge5
  SpecMergeFiles ProofMergeFiles1 ProofMergeFiles2 ProofMergeFiles3 SpecSyms SpecSymbols ProofSymbols1 ProofSymbols2 ProofSymbols3 ProofSymbols4 ProofSymbols5 SpecMergeSyms ProofMergeSyms1 ProofMergeSyms2 ProofMergeSyms3.
Import ListNotations.
Open Scope list_scope.
Open Scope Z_scope.

Lemma shown_sunified d c x q r o files s render encode ord pf :
  symbols_merged d c q r -> asked_symbols (c_args c) x ->
  run_files d (get_memory_types chip_info) render encode ord pf c o (start files) = (Done tt, s) ->
  exists M e s1 s2 fo, sfinal (c_args c) q r M fo /\ s_printed s1 = [] /\
    show e (unify M) (final_args (c_args c)) o s1 = (Done tt, s2) /\ s_printed s = s_printed s2 /\ s_notes s = s_notes s2.
Proof.
  intros (Pk & Rr & Au & Ad) (_ & Dt & Nx) R. apply command_merged in R; [|exact Au|exact Ad]. destruct R as (m & e & M & s1 & s2 & G & X1 & X2 & D & P1 & Sh & P2 & N2).
  assert (Lo : load_symbols (c_args c) = true). { unfold load_symbols. rewrite Dt. destruct x; [contradiction|reflexivity]. }
  rewrite Lo in G.
  destruct Pk as (dir & name & text & crt & k & ys & Ci & Bt & Nd & Fi & Sy & Cs & ->). rewrite Ci in G. destruct k as [rs l im types]. cbn [ac_rs ac_l ac_im ac_types] in *.
  destruct (built_sledger _ _ _ _ _ _ _ _ _ ys (c_args c) _ _ Bt G (no_dwarf_option _ _ _ Nd) Fi Sy Cs) as (ln & ls & L).
  exists M, e, s1, s2. destruct D as [(D & ->)|(fn & r0 & D & Nf & G2 & ->)].
  - assert (r = None) as ->. { destruct r as [q'|]; [|reflexivity]. destruct Rr as (fn & E & dir' & name' & text' & crt' & k' & ys' & En & Bt' & _). exfalso. rewrite E in D.
      destruct fn; [|discriminate D]. pose proof (bt_name _ _ _ _ _ _ _ _ _ Bt') as Pn. destruct Pn as (Pn & _). symmetry in En. now apply (in_dir_some dir' name') in En. }
    eexists. split; [apply (sfinal_alone _ _ _ _ _ L)|]. now repeat split.
  - destruct r as [q'|]; [|cbn in Rr; rewrite D in Rr; destruct fn; [contradiction|discriminate]].
    destruct Rr as (fn' & E & dir' & name' & text' & crt' & k' & ys' & En & Bt' & Nd' & Fi' & Sy' & Cs' & ->). rewrite D in E. injection E as <-. rewrite Lo, En in G2.
    destruct k' as [rs' l' im' types']. cbn [ac_rs ac_l ac_im ac_types] in *.
    destruct (built_sledger _ _ _ _ _ _ _ _ _ ys' (with_flash (c_args c)) _ _ Bt' G2 (no_dwarf_option _ _ _ Nd') Fi' Sy' Cs') as (ln' & ls' & R').
    eexists. split; [eapply sfinal_diff; eassumption|]. now repeat split.
Qed.

Lemma merged_symbols_json d c x q r o fs s render encode ord pf :
  symbols_merged d c q r -> asked_symbols (c_args c) x -> a_format (c_args c) = FJson2 ->
  run_files d (get_memory_types chip_info) render encode ord pf c o (start fs) = (Done tt, s) ->
  (exists i, symbol_of x q r i) /\ exists rows, s_printed s = [PEntries rows] /\ nentries_right x q r (c_args c) rows /\ entries_sorted (c_args c) rows.
Proof.
  intros Rp As Fo R. pose proof Rp as (_ & _ & Au & Ad). pose proof As as (A1 & A2 & A3).
  destruct (shown_sunified _ _ _ _ _ _ _ _ _ _ _ _ Rp As R) as (M & e & s1 & s2 & fo & F & P1 & Sh & P2 & _).
  unfold show in Sh. change (a_format (final_args (c_args c))) with (a_format (c_args c)) in Sh. rewrite Fo in Sh. unfold json_show in Sh.
  change (a_archives (final_args (c_args c))) with (a_archives (c_args c)) in Sh. change (a_archive_details (final_args (c_args c))) with (a_archive_details (c_args c)) in Sh.
  rewrite A1, A2, (given_some x A3) in Sh. apply andthen_done in Sh. destruct Sh as (base & t & E & Sh). apply cod_done in E. destruct E as (Bs & Q1). apply print_done in Sh.
  split; [exact (n_exist _ _ _ _ _ _ F A2 base Bs)|]. destruct (merged_symbols _ _ _ _ _ _ F Au Ad A2 base Bs) as (E1 & E2). eexists. split; [|split; [exact E1|exact E2]]. rewrite P2, Sh, Q1, P1. reflexivity.
Qed.
Lemma merged_symbols_report d c x q r o ps fs s render encode ord pf :
  symbols_merged d c q r -> asked_symbols (c_args c) x -> asked_filter (c_args c) ps ->
  a_format (c_args c) = FTable \/ a_format (c_args c) = FText \/ a_format (c_args c) = FCsv ->
  run_files d (get_memory_types chip_info) render encode ord pf c o (start fs) = (Done tt, s) ->
  exists tb ys, prints (c_args c) s tb /\ (exists i, symbol_of x q r i) /\ ntable_names x q r (c_args c) ps ys /\
    (ys = [] -> tb_headers tb = [list_ascii_of_string "Symbol"; list_ascii_of_string "Total Size"] /\ tb_rows tb = []) /\
    (ys <> [] -> exists groups titles i col, mcolumns_right q r (c_args c) groups /\ tb_headers tb = list_ascii_of_string "Symbol" :: titles /\ Forall2 mcolumn_title (columns groups) titles /\
       Forall2 (ntable_row x q r (c_args c) (columns groups)) ys (tb_rows tb) /\
       names_column (tb_headers tb) (a_sort (c_args c)) (S i) /\ nth_error (columns groups) i = Some col /\
       ((of_section col -> forall y, In y ys -> one_file q r x y) ->
        StronglySorted (fun y z => forall v w, measured q r (named_bytes x y col) v -> measured q r (named_bytes x z col) w ->
         in_order (a_sort_reverse (c_args c)) (pick (a_sort_diff (c_args c)) v) (pick (a_sort_diff (c_args c)) w)) ys)).
Proof.
  intros Rp As Fl Fo R. pose proof Rp as (_ & _ & Au & Ad). pose proof As as (A1 & A2 & A3).
  destruct (shown_sunified _ _ _ _ _ _ _ _ _ _ _ _ Rp As R) as (M & e & s1 & s2 & fo & F & P1 & Sh & P2 & N2).
  destruct (prints_done e (unify M) (c_args c) o s1 s2 s Sh P1 P2 N2 Fo) as (tb & t & t' & E & Pr & _).
  unfold table_of in E. change (a_archives (final_args (c_args c))) with (a_archives (c_args c)) in E. change (a_archive_details (final_args (c_args c))) with (a_archive_details (c_args c)) in E.
  rewrite A1, A2, (given_some x A3) in E. apply andthen_done in E. destruct E as (tr & t1 & E1 & E). apply cod_done in E1. destruct E1 as (E1 & _). apply table_done in E. destruct E as (-> & _).
  assert (Bs : exists base, get_symbols_summary (unify M) (final_args (c_args c)) = Ok base).
  { unfold get_symbols_table in E1. destruct (get_symbols_summary (unify M) (final_args (c_args c))) as [b|]; [eauto|discriminate]. }
  destruct Bs as (base & Bs).
  destruct (merged_symbols_table _ _ _ _ _ _ F Au Ad A2 base Bs ps tb Fl) as (ys & Ti & T1 & T2).
  { right. right. split; [reflexivity|]. exists base. split; [exact Bs|]. split; [reflexivity|exact E1]. }
  exists tb, ys. split; [exact Pr|]. split; [exact (n_exist _ _ _ _ _ _ F A2 base Bs)|]. split; [exact Ti|]. split; [exact T1|exact T2].
Qed.
