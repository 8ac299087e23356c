(** * Property C158: reports with and without unused memory types *)
From Coq Require Import Ascii String List ZArith Lia Bool.
From Verif Require Import Base MemMap SpecTree SpecOps Filter SpecFilter Pipeline SpecPipe SpecBuild SpecBytes SpecShape PyStr MapFile SpecMap FixMap
  ElfRead SpecElf FixElf Project SpecProject FixProject SpecEnd Chips SpecChips Deps Table SpecTable Formats Main SpecMain FixMain Command SpecCommand SpecFail SpecReport SpecSyms SpecSymbols SpecAdds SpecForm
  PropProject PropEnd PropCommand PropReport PropSymbols PropAdds PropForm SpecMerge PropMerge SpecUnused SpecUnusedRows ProofUnusedRows ProofUnusedMerged.
Import ListNotations.
Open Scope list_scope.
Open Scope Z_scope.

Local Notation tx := list_ascii_of_string.

(** C158: with --show-unused the reports on archives and object files have the same rows with the
    same figures, and for each row further memory types, with no bytes *)
Theorem c158_entries : forall files d c f k r o o' fs fs' s s' render encode ord pf,
  reported d c k r -> asked files (c_args c) -> (given (a_archive_details (c_args c)) = true -> a_use_dwarf (c_args c) <> Some true) -> tells_files files k r -> a_format (c_args c) = FJson2 ->
  run_files d (get_memory_types chip_info) render encode ord pf c o (start fs) = (Done tt, s) ->
  run_files d (get_memory_types chip_info) render encode ord pf (with_unused c f) o' (start fs') = (Done tt, s') ->
  exists rows rows', s_printed s = [PEntries rows] /\ s_printed s' = [PEntries rows'] /\ adds_types rows rows'.
Proof. exact unused_entries. Qed.
Print Assumptions c158_entries.

(** the same for the report on the symbols of an archive *)
Theorem c158_symbols : forall x d c f q r o o' fs fs' s s' render encode ord pf,
  symbols_reported d c q r -> asked_symbols (c_args c) x -> tells_symbols q r -> a_format (c_args c) = FJson2 ->
  run_files d (get_memory_types chip_info) render encode ord pf c o (start fs) = (Done tt, s) ->
  run_files d (get_memory_types chip_info) render encode ord pf (with_unused c f) o' (start fs') = (Done tt, s') ->
  exists rows rows', s_printed s = [PEntries rows] /\ s_printed s' = [PEntries rows'] /\ adds_types rows rows'.
Proof. exact unused_symbols. Qed.
Print Assumptions c158_symbols.

(** and for the report on archives with --unify *)
Theorem c158_merged : forall d c f k r o o' fs fs' s s' render encode ord pf,
  merged d c k r -> asked false (c_args c) -> (given (a_archive_details (c_args c)) = true -> a_use_dwarf (c_args c) <> Some true) -> a_format (c_args c) = FJson2 ->
  run_files d (get_memory_types chip_info) render encode ord pf c o (start fs) = (Done tt, s) ->
  run_files d (get_memory_types chip_info) render encode ord pf (with_unused c f) o' (start fs') = (Done tt, s') ->
  exists rows rows', s_printed s = [PEntries rows] /\ s_printed s' = [PEntries rows'] /\ adds_types rows rows'.
Proof. exact unused_merged. Qed.
Print Assumptions c158_merged.

(** ** example: two object files compared with a reference; 6 memory types of the chip are unused *)
Definition ur_types (rows : dict str sentry) := map (fun kv => (fst kv, map (fun T => (fst T, st_size (snd T), st_diff (snd T))) (se_types (snd kv)))) rows.
Example c158_example : exists s rows s' rows',
  reported ax_disk (fm_cmd FJson2 false None true) ax_k (Some ax_r) /\ tells_files true ax_k (Some ax_r) /\ asked true (c_args (fm_cmd FJson2 false None true)) /\
  fm_run (fm_cmd FJson2 false None true) = (Done tt, s) /\ s_printed s = [PEntries rows] /\
  ur_types rows = [ (tx "lib.a:a.o", [(tx "IRAM", 24, 0)]); (tx "lib.a:b.o", [(tx "IRAM", 8, 4)]) ] /\
  fm_run (with_unused (fm_cmd FJson2 false None true) true) = (Done tt, s') /\ s_printed s' = [PEntries rows'] /\
  ax_figures rows' = ax_figures rows /\ map (fun x => List.length (snd x)) (ur_types rows') = [7%nat; 7%nat] /\
  map (fun x => map fst (filter (fun T => negb (snd (fst T) =? 0)) (snd x))) (ur_types rows') = [ [(tx "IRAM", 24)]; [(tx "IRAM", 8)] ].
Proof.
  do 4 eexists. split; [apply fm_reported|]. split; [exact ax_tells|]. split; [repeat split|]. split; [vm_compute; reflexivity|]. split; [reflexivity|]. split; [vm_compute; reflexivity|].
  split; [vm_compute; reflexivity|]. split; [reflexivity|]. split; [vm_compute; reflexivity|]. split; vm_compute; reflexivity.
Qed.
(** for symbols: *)
Example c158_symbols_example : exists s rows s' rows',
  symbols_reported sx_disk (px_cmd (sx_args FJson2 None)) sx_new (Some sx_old) /\ tells_symbols sx_new (Some sx_old) /\
  sx_run (sx_args FJson2 None) = (Done tt, s) /\ s_printed s = [PEntries rows] /\
  sx_run (c_args (with_unused (px_cmd (sx_args FJson2 None)) false)) = (Done tt, s') /\ s_printed s' = [PEntries rows'] /\ rx_brief rows' = rx_brief rows /\
  map (fun x => List.length (snd x)) (ur_types rows) = [1%nat; 1%nat] /\ map (fun x => List.length (snd x)) (ur_types rows') = [7%nat; 7%nat].
Proof.
  do 4 eexists. split; [apply sx_reported|]. split; [exact sx_tells|]. split; [vm_compute; reflexivity|]. split; [reflexivity|].
  split; [vm_compute; reflexivity|]. split; [reflexivity|]. split; [vm_compute; reflexivity|]. split; vm_compute; reflexivity.
Qed.
(** for archives with --unify: *)
Example c158_merged_example : exists s rows s' rows',
  merged vx_disk (px_cmd (vx_args FJson2 true None)) vx_new (Some vx_old) /\ asked false (vx_args FJson2 true None) /\
  vx_run (vx_args FJson2 true None) = (Done tt, s) /\ s_printed s = [PEntries rows] /\
  vx_run (c_args (with_unused (px_cmd (vx_args FJson2 true None)) false)) = (Done tt, s') /\ s_printed s' = [PEntries rows'] /\
  rx_brief rows' = [ (tx "libx.a", (tx "libx.a", 32, 32)); (tx "libmain.a", (tx "libmain.a", 0, -16)) ] /\ rx_brief rows = rx_brief rows' /\
  map (fun x => List.length (snd x)) (ur_types rows) = [1%nat; 1%nat] /\ map (fun x => List.length (snd x)) (ur_types rows') = [7%nat; 7%nat].
Proof.
  do 4 eexists. split; [apply vx_merged|]. split; [reflexivity|]. split; [vm_compute; reflexivity|]. split; [reflexivity|].
  split; [vm_compute; reflexivity|]. split; [reflexivity|]. split; [vm_compute; reflexivity|]. split; [vm_compute; reflexivity|]. split; vm_compute; reflexivity.
Qed.
