(** * Property C159: what the options of order, filter and names change in a JSON report *)
From Coq Require Import Ascii String List ZArith Lia Bool Permutation.
From Verif Require Import Base MemMap SpecTree SpecOps Filter SpecFilter Pipeline SpecPipe SpecBuild SpecBytes SpecShape PyStr MapFile SpecMap FixMap
  ElfRead SpecElf FixElf Project SpecProject FixProject SpecEnd Chips SpecChips Deps Table SpecTable Formats Main SpecMain FixMain Command SpecCommand SpecFail SpecReport SpecSyms SpecSymbols SpecAdds SpecForm
  PropProject PropEnd PropCommand PropReport PropSymbols PropAdds PropForm SpecMerge PropMerge SpecOrderOnly ProofOrderOnly ProofOrderMerged.
Import ListNotations.
Open Scope list_scope.
Open Scope Z_scope.

Local Notation tx := list_ascii_of_string.

(** C159: --sort, --sort-diff, --sort-reverse, --filter, --abbrev, --no-abbrev and --use-flash-size,
    the console, the order of sets and earlier files change nothing but the order in a JSON report *)
Theorem c159_entries : forall files d c c' k r o o' fs fs' s s' render render' encode encode' ord ord' pf pf',
  reported d c k r -> other_form c c' -> asked files (c_args c) -> (given (a_archive_details (c_args c)) = true -> a_use_dwarf (c_args c) <> Some true) ->
  tells_files files k r -> a_format (c_args c) = FJson2 -> a_format (c_args c') = FJson2 ->
  run_files d (get_memory_types chip_info) render encode ord pf c o (start fs) = (Done tt, s) ->
  run_files d (get_memory_types chip_info) render' encode' ord' pf' c' o' (start fs') = (Done tt, s') ->
  exists rows rows', s_printed s = [PEntries rows] /\ s_printed s' = [PEntries rows'] /\ order_only rows rows'.
Proof. exact entries_order. Qed.
Print Assumptions c159_entries.

Theorem c159_symbols : forall x d c c' q r o o' fs fs' s s' render render' encode encode' ord ord' pf pf',
  symbols_reported d c q r -> other_form c c' -> asked_symbols (c_args c) x -> tells_symbols q r -> a_format (c_args c) = FJson2 -> a_format (c_args c') = FJson2 ->
  run_files d (get_memory_types chip_info) render encode ord pf c o (start fs) = (Done tt, s) ->
  run_files d (get_memory_types chip_info) render' encode' ord' pf' c' o' (start fs') = (Done tt, s') ->
  exists rows rows', s_printed s = [PEntries rows] /\ s_printed s' = [PEntries rows'] /\ order_only rows rows'.
Proof. exact symbols_order. Qed.
Print Assumptions c159_symbols.

(** and for the report on archives with --unify *)
Theorem c159_merged : forall d c c' k r o o' fs fs' s s' render render' encode encode' ord ord' pf pf',
  merged d c k r -> other_form c c' -> asked false (c_args c) -> (given (a_archive_details (c_args c)) = true -> a_use_dwarf (c_args c) <> Some true) -> a_format (c_args c) = FJson2 -> a_format (c_args c') = FJson2 ->
  run_files d (get_memory_types chip_info) render encode ord pf c o (start fs) = (Done tt, s) ->
  run_files d (get_memory_types chip_info) render' encode' ord' pf' c' o' (start fs') = (Done tt, s') ->
  exists rows rows', s_printed s = [PEntries rows] /\ s_printed s' = [PEntries rows'] /\ order_only rows rows'.
Proof. exact merged_order. Qed.
Print Assumptions c159_merged.

(** ** example: object files upwards, with a filter that matches one of them *)
Example c159_example : exists s rows s' rows',
  reported ax_disk (fm_cmd FJson2 false None true) ax_k (Some ax_r) /\ tells_files true ax_k (Some ax_r) /\ asked true (c_args (fm_cmd FJson2 false None true)) /\
  other_form (fm_cmd FJson2 false None true) (fm_cmd FJson2 true (Some [tx "*a.o"]) false) /\
  fm_run (fm_cmd FJson2 false None true) = (Done tt, s) /\ s_printed s = [PEntries rows] /\
  ax_figures rows = [ (tx "lib.a:a.o", 24, 0, [(tx ".iram0.vectors", 16, 8); (tx ".iram0.text", 8, -8)]); (tx "lib.a:b.o", 8, 4, [(tx ".iram0.text", 8, 4); (tx ".iram0.vectors", 0, 0)]) ] /\
  fm_run (fm_cmd FJson2 true (Some [tx "*a.o"]) false) = (Done tt, s') /\ s_printed s' = [PEntries rows'] /\
  ax_figures rows' = [ (tx "lib.a:b.o", 8, 4, [(tx ".iram0.vectors", 0, 0); (tx ".iram0.text", 8, 4)]); (tx "lib.a:a.o", 24, 0, [(tx ".iram0.text", 8, -8); (tx ".iram0.vectors", 16, 8)]) ].
Proof.
  do 4 eexists. split; [apply fm_reported|]. split; [exact ax_tells|]. split; [repeat split|]. split; [repeat split|]. split; [vm_compute; reflexivity|]. split; [reflexivity|]. split; [vm_compute; reflexivity|].
  split; [vm_compute; reflexivity|]. split; [reflexivity|]. vm_compute; reflexivity.
Qed.
(** for symbols: *)
Example c159_symbols_example : exists s rows s' rows',
  symbols_reported sx_disk (px_cmd (sx_args FJson2 None)) sx_new (Some sx_old) /\ tells_symbols sx_new (Some sx_old) /\
  other_form (px_cmd (sx_args FJson2 None)) (px_cmd (sx_args FJson2 (Some [tx "app*"]))) /\
  sx_run (sx_args FJson2 None) = (Done tt, s) /\ s_printed s = [PEntries rows] /\
  sx_run (sx_args FJson2 (Some [tx "app*"])) = (Done tt, s') /\ s_printed s' = [PEntries rows'] /\ List.length rows = 2%nat /\ rx_brief rows' = rx_brief rows.
Proof.
  do 4 eexists. split; [apply sx_reported|]. split; [exact sx_tells|]. split; [repeat split|]. split; [vm_compute; reflexivity|]. split; [reflexivity|].
  split; [vm_compute; reflexivity|]. split; [reflexivity|]. split; vm_compute; reflexivity.
Qed.
(** for archives with --unify: *)
Example c159_merged_example : exists s rows s' rows',
  merged vx_disk (px_cmd (vx_args FJson2 true None)) vx_new (Some vx_old) /\ asked false (vx_args FJson2 true None) /\
  other_form (px_cmd (vx_args FJson2 true None)) (px_cmd (vx_args FJson2 true (Some [tx "libx*"]))) /\
  vx_run (vx_args FJson2 true None) = (Done tt, s) /\ s_printed s = [PEntries rows] /\
  vx_run (vx_args FJson2 true (Some [tx "libx*"])) = (Done tt, s') /\ s_printed s' = [PEntries rows'] /\
  rx_brief rows' = [ (tx "libx.a", (tx "libx.a", 32, 32)); (tx "libmain.a", (tx "libmain.a", 0, -16)) ] /\ rx_brief rows = rx_brief rows'.
Proof.
  do 4 eexists. split; [apply vx_merged|]. split; [reflexivity|]. split; [repeat split|]. split; [vm_compute; reflexivity|]. split; [reflexivity|].
  split; [vm_compute; reflexivity|]. split; [reflexivity|]. split; vm_compute; reflexivity.
Qed.
