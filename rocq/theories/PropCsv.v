(** * Property C138: the CSV reports in the output file *)
From Coq Require Import Ascii String List ZArith Lia Bool Sorted.
From Verif Require Import Base MemMap SpecTree SpecOps Filter SpecFilter Pipeline SpecPipe SpecBuild SpecBytes SpecShape PyStr MapFile SpecMap FixMap
  ElfRead SpecElf FixElf Project SpecProject FixProject ProofProject2 SpecEnd Chips SpecChips ProofChips Deps Table SpecTable Formats Text Percent Main SpecMain FixMain Command SpecCommand SpecFail SpecReport
  SpecText SpecLines SpecSyms SpecSymbols SpecFile SpecCsv ProofCsv PropProject PropEnd PropCommand PropFail PropReport PropSymbols PropFile.
Import ListNotations.
Open Scope list_scope.
Open Scope Z_scope.
Local Notation tx := list_ascii_of_string.

(** C138: with --format csv and --output-file the file has lines from which a reader of CSV
    files gets the titles and the rows of the report, for any console that shows what markup
    stands for and does not wrap lines that fit; here the summary of C95 with the percentages
    of C118 *)
Theorem c138_summary : forall d c k r o fn fs s normalize render encode ord,
  console_lines normalize render -> output c fn -> c_quiet c = false ->
  reported d c k r -> of_types (c_args c) -> a_format (c_args c) = FCsv -> plain_project k r -> quoteless_project k r ->
  run_files d (get_memory_types chip_info) render encode ord (plain_pct python_floats) c o (start fs) = (Done tt, s) ->
  exists tb i groups rows, csv_file encode fn s tb /\ tb_headers tb = usage_headers /\ tb_rows tb = concat rows /\ Forall2 (pgroup_rows (c_args c)) groups rows /\
    NoDup (map pg_type groups) /\
    (forall T, In T (map pg_type groups) <-> present k r (lists_type (c_args c) T) /\ exists v, measured k r (used_bytes T) v /\ differs (c_args c) v) /\
    Forall (pgroup_right k r (c_args c)) groups /\
    names_column usage_headers (a_sort (c_args c)) i /\
    (i <> 2%nat -> StronglySorted (fun x y => in_order (a_sort_reverse (c_args c)) (pick (a_sort_diff (c_args c)) (pg_value i x)) (pick (a_sort_diff (c_args c)) (pg_value i y))) groups) /\
    (i = 1%nat -> Forall (fun g => StronglySorted (fun x y => in_order (a_sort_reverse (c_args c)) (pick (a_sort_diff (c_args c)) (snd x)) (pick (a_sort_diff (c_args c)) (snd y))) (pg_sections g)) groups).
Proof. exact summary_csv. Qed.
Print Assumptions c138_summary.
(** the report of C97 on archives or object files *)
Theorem c138_entries : forall d c k r o files fn ps fs s normalize render encode ord pf,
  console_lines normalize render -> output c fn -> c_quiet c = false ->
  reported d c k r -> asked files (c_args c) -> (given (a_archive_details (c_args c)) = true -> a_use_dwarf (c_args c) <> Some true) -> tells_files files k r -> asked_filter (c_args c) ps ->
  a_format (c_args c) = FCsv -> plain_project k r -> quoteless_project k r ->
  run_files d (get_memory_types chip_info) render encode ord pf c o (start fs) = (Done tt, s) ->
  exists tb is, csv_file encode fn s tb /\ table_items files k r (c_args c) ps is /\
    let first := list_ascii_of_string (if files then "Object File" else "Archive File") in
    (is = [] -> tb_headers tb = [first; list_ascii_of_string "Total Size"] /\ tb_rows tb = []) /\
    (is <> [] -> exists groups titles i col, columns_right k r (c_args c) groups /\ tb_headers tb = first :: titles /\ Forall2 (column_title (c_args c)) (columns groups) titles /\
       Forall2 (table_row files k r (c_args c) (columns groups)) is (tb_rows tb) /\
       names_column (tb_headers tb) (a_sort (c_args c)) (S i) /\ nth_error (columns groups) i = Some col /\
       StronglySorted (fun x y => forall v w, measured k r (own_bytes (row_own files x) col) v -> measured k r (own_bytes (row_own files y) col) w ->
         in_order (a_sort_reverse (c_args c)) (pick (a_sort_diff (c_args c)) v) (pick (a_sort_diff (c_args c)) w)) is).
Proof. exact entries_csv. Qed.
Print Assumptions c138_entries.
(** the report of C114 on the symbols of an archive *)
Theorem c138_symbols : forall d c x q r o fn ps fs s normalize render encode ord pf,
  console_lines normalize render -> output c fn -> c_quiet c = false ->
  symbols_reported d c q r -> asked_symbols (c_args c) x -> tells_symbols q r -> asked_filter (c_args c) ps ->
  a_format (c_args c) = FCsv -> plain_project q r -> quoteless_project q r ->
  run_files d (get_memory_types chip_info) render encode ord pf c o (start fs) = (Done tt, s) ->
  exists tb is, csv_file encode fn s tb /\ (exists i, symbol_of x q r i) /\ symbol_items x q r (c_args c) ps is /\
    let first := list_ascii_of_string "Symbol" in
    (is = [] -> tb_headers tb = [first; list_ascii_of_string "Total Size"] /\ tb_rows tb = []) /\
    (is <> [] -> exists groups titles i col, columns_right q r (c_args c) groups /\ tb_headers tb = first :: titles /\ Forall2 (column_title (c_args c)) (columns groups) titles /\
       Forall2 (symbol_row q r (c_args c) (columns groups)) is (tb_rows tb) /\
       names_column (tb_headers tb) (a_sort (c_args c)) (S i) /\ nth_error (columns groups) i = Some col /\
       StronglySorted (fun y z => forall v w, measured q r (own_bytes (of_symbol y) col) v -> measured q r (own_bytes (of_symbol z) col) w ->
         in_order (a_sort_reverse (c_args c)) (pick (a_sort_diff (c_args c)) v) (pick (a_sort_diff (c_args c)) w)) is).
Proof. exact symbols_csv. Qed.
Print Assumptions c138_symbols.

(** ** examples *)
(** a console that shows the lines *)
Definition kx_render (co : console) (l : list piece) : str :=
  if co_quiet co then [] else flat_map (fun p => match p with PLine s => s ++ [newline] | _ => [] end) l.
Lemma kx_lines : console_lines (fun s => s) kx_render.
Proof. intros co t' t Q _ _ _. unfold kx_render, lines_text. rewrite Q. induction (csv_lines t) as [|l ls IH]; [reflexivity|]. cbn. cbn in IH. now rewrite IH. Qed.
Definition kx_quoteless_b (k : account) : bool :=
  forallb (fun o => quote_free_b (pr_name o) && forallb (fun i => quote_free_b (it_archive i) && quote_free_b (it_object i) && quote_free_b (it_name i)) (pr_items o)) (ac_l k).
Lemma kx_quoteless_ok k : kx_quoteless_b k = true -> quoteless k.
Proof.
  unfold kx_quoteless_b. rewrite forallb_forall. intros H. apply Forall_forall. intros o I _. specialize (H o I). apply andb_true_iff in H. destruct H as (H1 & H2). split; [now apply quote_free_ok|].
  rewrite forallb_forall in H2. apply Forall_forall. intros i Ii _. specialize (H2 i Ii). rewrite !andb_true_iff in H2. destruct H2 as ((A & B) & C). repeat split; now apply quote_free_ok.
Qed.
Definition kx_run (d : disk) (a : args) := run_files d (get_memory_types chip_info) kx_render (fun s => s) mx_order (plain_pct python_floats) (jx_cmd a) no_faults (start []).
Definition kx_fits_b (r : list str) : bool := forallb (fun l => forallb (fun c => negb (mem c break_chars)) l) r && (zsum (map (fun c => Z.of_nat (length c) + 3) r) <=? 10001).
Lemma kx_fits_ok r : kx_fits_b r = true -> fits_row r.
Proof.
  intros H. apply andb_true_iff in H. destruct H as (H1 & H2). split; [|now apply Z.leb_le]. rewrite forallb_forall in H1. apply Forall_forall. intros l I. specialize (H1 l I). rewrite forallb_forall in H1.
  intros c B J. specialize (H1 c J). apply negb_true_iff in H1. apply mem_not_In in H1. now apply H1.
Qed.
Lemma kx_fit_all l : forallb kx_fits_b l = true -> Forall fits_row l.
Proof. intros H. rewrite forallb_forall in H. apply Forall_forall. intros r I. apply kx_fits_ok, H, I. Qed.
Example c138_summary_example : exists s text,
  output (jx_cmd (rx_args FCsv false false None)) (tx "out/report.json") /\ reported rx_disk (jx_cmd (rx_args FCsv false false None)) rx_new (Some rx_old) /\ of_types (rx_args FCsv false false None) /\
  plain_project rx_new (Some rx_old) /\ quoteless_project rx_new (Some rx_old) /\ kx_run rx_disk (rx_args FCsv false false None) = (Done tt, s) /\
  s_files s = [(tx "out/report.json", text)] /\ Forall fits_row (csv_records text) /\ text = jx_lines
    [ """Memory Type/Section"",""Used [bytes]"",""Used [%]"",""Remain [bytes]"",""Total [bytes]""";
      """IRAM"",""32    +16"",""0.02  +0.01"",""130016    -16"",""130048      0""";
      """.text"",""32    +16"",""0.02  +0.01"","""",""""" ]%string.
Proof.
  do 2 eexists. split; [split; [reflexivity|discriminate]|]. split; [apply rx_reported|]. split; [repeat split|]. split; [split; apply jx_plain_ok; vm_compute; reflexivity|]. split; [split; apply kx_quoteless_ok; vm_compute; reflexivity|].
  split; [vm_compute; reflexivity|]. split; [reflexivity|]. split; [apply kx_fit_all; vm_compute; reflexivity|]. vm_compute. reflexivity.
Qed.
Example c138_entries_example : exists s text,
  asked false (rx_args FCsv true false None) /\ tells_files false rx_new (Some rx_old) /\ reported rx_disk (jx_cmd (rx_args FCsv true false None)) rx_new (Some rx_old) /\
  kx_run rx_disk (rx_args FCsv true false None) = (Done tt, s) /\
  s_files s = [(tx "out/report.json", text)] /\ Forall fits_row (csv_records text) /\ text = jx_lines
    [ """Archive File"",""Total Size"",""IRAM"","".text""";
      """(exe)"",""16    +16"",""16    +16"",""16    +16""";
      """libmain.a"",""8     -8"",""8     -8"",""8     -8""" ]%string.
Proof.
  do 2 eexists. split; [reflexivity|]. split; [apply rx_tells|]. split; [apply rx_reported|]. split; [vm_compute; reflexivity|]. split; [reflexivity|]. split; [apply kx_fit_all; vm_compute; reflexivity|]. vm_compute. reflexivity.
Qed.
Example c138_symbols_example : exists s text,
  symbols_reported sx_disk (jx_cmd (sx_args FCsv None)) sx_new (Some sx_old) /\ plain_project sx_new (Some sx_old) /\ quoteless_project sx_new (Some sx_old) /\
  kx_run sx_disk (sx_args FCsv None) = (Done tt, s) /\
  s_files s = [(tx "out/report.json", text)] /\ Forall fits_row (csv_records text) /\ text = jx_lines
    [ """Symbol"",""Total Size"",""IRAM"","".text""";
      """helper"",""3     +2"",""3     +2"",""3     +2""";
      """app_main()"",""5     -7"",""5     -7"",""5     -7""" ]%string.
Proof.
  do 2 eexists. split; [apply sx_reported|]. split; [split; apply jx_plain_ok; vm_compute; reflexivity|]. split; [split; apply kx_quoteless_ok; vm_compute; reflexivity|]. split; [vm_compute; reflexivity|]. split; [reflexivity|]. split; [apply kx_fit_all; vm_compute; reflexivity|]. vm_compute. reflexivity.
Qed.
