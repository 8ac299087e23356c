(** * Property C143: a report says the same in every format *)
From Coq Require Import Ascii String List ZArith Lia Bool.
From Verif Require Import Base MemMap SpecTree SpecOps Filter SpecFilter Pipeline SpecPipe SpecBuild SpecBytes SpecShape PyStr MapFile SpecMap FixMap
  ElfRead SpecElf FixElf Project SpecProject FixProject SpecEnd Chips SpecChips Deps Table SpecTable Formats Main SpecMain FixMain Command SpecCommand SpecFail SpecReport SpecSyms SpecSymbols SpecAdds SpecForm
  PropProject PropEnd PropCommand PropReport PropSymbols PropAdds ProofForm.
Import ListNotations.
Open Scope list_scope.
Open Scope Z_scope.

Local Notation tx := list_ascii_of_string.

(** C143: the report on archives or object files as JSON, and as table, text or CSV in any
    order, with any filter and with long or short names, alone or with --diff.  The table has a
    row for every JSON entry that the filter selects, a column for every figure of the entry,
    and the figures are the same. *)
Theorem c143_entries : forall files d c c' k r ps o o' fs fs' s s' render encode ord pf,
  reported d c k r -> other_form c c' -> asked files (c_args c) -> (given (a_archive_details (c_args c)) = true -> a_use_dwarf (c_args c) <> Some true) ->
  tells_files files k r -> a_format (c_args c) = FJson2 ->
  asked_filter (c_args c') ps -> a_format (c_args c') = FTable \/ a_format (c_args c') = FText \/ a_format (c_args c') = FCsv ->
  run_files d (get_memory_types chip_info) render encode ord pf c o (start fs) = (Done tt, s) ->
  run_files d (get_memory_types chip_info) render encode ord pf c' o' (start fs') = (Done tt, s') ->
  exists rows tb, s_printed s = [PEntries rows] /\ prints (c_args c') s' tb /\
    shows_entries (c_args c') ps (list_ascii_of_string (if files then "Object File" else "Archive File")) rows tb.
Proof. exact entries_form. Qed.
Print Assumptions c143_entries.

(** the same for the report on the symbols of an archive *)
Theorem c143_symbols : forall x d c c' q r ps o o' fs fs' s s' render encode ord pf,
  symbols_reported d c q r -> other_form c c' -> asked_symbols (c_args c) x -> tells_symbols q r -> a_format (c_args c) = FJson2 ->
  asked_filter (c_args c') ps -> a_format (c_args c') = FTable \/ a_format (c_args c') = FText \/ a_format (c_args c') = FCsv ->
  run_files d (get_memory_types chip_info) render encode ord pf c o (start fs) = (Done tt, s) ->
  run_files d (get_memory_types chip_info) render encode ord pf c' o' (start fs') = (Done tt, s') ->
  exists rows tb, s_printed s = [PEntries rows] /\ prints (c_args c') s' tb /\ shows_entries (c_args c') ps (list_ascii_of_string "Symbol") rows tb.
Proof. exact symbols_form. Qed.
Print Assumptions c143_symbols.

(** ** example: object files by total size downwards as JSON; as a table in reverse order with
    full names, of which those that end in a.o *)
Definition fm_pattern : list (list SpecFilter.piece) := [[AnyText; SpecFilter.Char "a"%char; SpecFilter.Char "."%char; SpecFilter.Char "o"%char]].
Definition fm_cmd (f : format) (long : bool) (filter : option (list str)) (reverse : bool) : cmd :=
  px_cmd (Args f false false false false None true (Some (in_dir dir2 (tx "app.map"))) long (negb long) false false true false (Some false) None (tx "1") filter false reverse).
Lemma fm_reported f l p v : reported ax_disk (fm_cmd f l p v) ax_k (Some ax_r).
Proof.
  destruct (ax_built ax_disk dir1 ax_new 16 8 8 (fun _ => eq_refl) dir1_ok eq_refl ltac:(vm_compute; reflexivity) ax_new_ok) as (B1 & F1); [lia|lia|lia|].
  destruct (ax_built ax_disk dir2 ax_old 8 16 4 (fun _ => eq_refl) dir2_ok eq_refl ltac:(vm_compute; reflexivity) ax_old_ok) as (B2 & F2); [lia|lia|lia|].
  split; [|split; [|split; reflexivity]].
  - exists dir1, (tx "app.map"), (ax_text ax_new), None. split; [reflexivity|]. split; [exact B1|]. split; [left; reflexivity|]. right. exact F1.
  - exists (in_dir dir2 (tx "app.map")). split; [reflexivity|]. exists dir2, (tx "app.map"), (ax_text ax_old), None. split; [reflexivity|]. split; [exact B2|]. split; [left; reflexivity|]. right. exact F2.
Qed.
Definition fm_run (c : cmd) := run_files ax_disk (get_memory_types chip_info) mx_render mx_encode mx_order mx_pct c no_faults (start []).
Example c143_example : exists s rows s' tb s2 tb2,
  reported ax_disk (fm_cmd FJson2 false None true) ax_k (Some ax_r) /\ tells_files true ax_k (Some ax_r) /\
  other_form (fm_cmd FJson2 false None true) (fm_cmd FTable true (Some [tx "*a.o"]) false) /\ other_form (fm_cmd FJson2 false None true) (fm_cmd FText false None false) /\
  asked_filter (c_args (fm_cmd FTable true (Some [tx "*a.o"]) false)) (Some fm_pattern) /\
  fm_run (fm_cmd FJson2 false None true) = (Done tt, s) /\ s_printed s = [PEntries rows] /\
  ax_figures rows = [ (tx "lib.a:a.o", 24, 0, [(tx ".iram0.vectors", 16, 8); (tx ".iram0.text", 8, -8)]); (tx "lib.a:b.o", 8, 4, [(tx ".iram0.text", 8, 4); (tx ".iram0.vectors", 0, 0)]) ] /\
  fm_run (fm_cmd FTable true (Some [tx "*a.o"]) false) = (Done tt, s') /\ s_printed s' = [PTable tb] /\
  tb_headers tb = map tx ["Object File"; "Total Size"; "IRAM"; ".iram0.text"; ".iram0.vectors"]%string /\
  tb_rows tb = [ map tx ["lib.a:a.o"; "24      0"; "24      0"; "8     -8"; "16     +8"] ]%string /\
  fm_run (fm_cmd FText false None false) = (Done tt, s2) /\ s_printed s2 = [PTable tb2] /\
  tb_headers tb2 = map tx ["Object File"; "Total Size"; "IRAM"; ".text"; ".vectors"]%string /\
  tb_rows tb2 = [ map tx ["b.o"; "8     +4"; "8     +4"; "8     +4"; "0      0"]; map tx ["a.o"; "24      0"; "24      0"; "8     -8"; "16     +8"] ]%string.
Proof.
  do 6 eexists. split; [apply fm_reported|]. split; [exact ax_tells|]. split; [repeat split|]. split; [repeat split|].
  split; [split; [reflexivity|]; constructor; [|constructor]; constructor; [exact I|]; do 3 (constructor; [cbn; repeat split; discriminate|]); constructor|].
  split; [vm_compute; reflexivity|]. split; [reflexivity|]. split; [vm_compute; reflexivity|]. split; [vm_compute; reflexivity|]. split; [reflexivity|].
  split; [vm_compute; reflexivity|]. split; [vm_compute; reflexivity|]. split; [vm_compute; reflexivity|]. split; [reflexivity|]. split; vm_compute; reflexivity.
Qed.
(** for symbols: *)
Example c143_symbols_example : exists s rows s' tb,
  symbols_reported sx_disk (px_cmd (sx_args FJson2 None)) sx_new (Some sx_old) /\ tells_symbols sx_new (Some sx_old) /\ other_form (px_cmd (sx_args FJson2 None)) (px_cmd (sx_args FTable (Some [tx "app*"]))) /\
  sx_run (sx_args FJson2 None) = (Done tt, s) /\ s_printed s = [PEntries rows] /\
  rx_brief rows = [ (tx "esp-idf/main/libmain.a:app main.c.obj:helper", (tx "helper", 3, 2)); (tx "esp-idf/main/libmain.a:app main.c.obj:app_main()", (tx "app_main()", 5, -7)) ] /\
  sx_run (sx_args FTable (Some [tx "app*"])) = (Done tt, s') /\ s_printed s' = [PTable tb] /\
  tb_rows tb = [ map tx ["app_main()"; "5     -7"; "5     -7"; "5     -7"] ]%string.
Proof.
  do 4 eexists. split; [apply sx_reported|]. split; [exact sx_tells|]. split; [repeat split|]. split; [vm_compute; reflexivity|]. split; [reflexivity|]. split; [vm_compute; reflexivity|].
  split; [vm_compute; reflexivity|]. split; [reflexivity|]. vm_compute. reflexivity.
Qed.
