(** * Property C162: what --show-unchanged adds to a comparison *)
From Coq Require Import Ascii String List ZArith Lia Bool Permutation.
From Verif Require Import Base MemMap SpecTree SpecOps Filter SpecFilter Pipeline SpecPipe SpecBuild SpecBytes SpecShape PyStr MapFile SpecMap FixMap
  ElfRead SpecElf FixElf Project SpecProject FixProject SpecEnd Chips SpecChips Deps Table SpecTable Formats Main SpecMain FixMain Command SpecCommand SpecFail SpecReport SpecSyms SpecSymbols SpecAdds SpecForm SpecMerge SpecSteps SpecCompare SpecCompareUsage
  PropProject PropEnd PropCommand PropReport PropSymbols PropAdds PropForm PropMerge PropUsageOrder SpecUnchanged ProofUnchanged ProofUnchangedMerged.
Import ListNotations.
Open Scope list_scope.
Open Scope Z_scope.

Local Notation tx := (fun s => list_ascii_of_string s%string).

(** C162: without --show-unchanged a report with --diff has exactly the rows whose totals differ,
    and the figures are those with --show-unchanged *)
Theorem c162_entries : forall files d c k r o o' fs fs' s s' render encode ord pf,
  reported d c k (Some r) -> asked files (c_args c) -> (given (a_archive_details (c_args c)) = true -> a_use_dwarf (c_args c) <> Some true) -> tells_files files k (Some r) -> a_format (c_args c) = FJson2 ->
  run_files d (get_memory_types chip_info) render encode ord pf (with_unchanged c false) o (start fs) = (Done tt, s) ->
  run_files d (get_memory_types chip_info) render encode ord pf (with_unchanged c true) o' (start fs') = (Done tt, s') ->
  exists rows all, s_printed s = [PEntries rows] /\ s_printed s' = [PEntries all] /\ rows_changed rows all.
Proof. exact unchanged_entries. Qed.
Print Assumptions c162_entries.

Theorem c162_symbols : forall x d c q r o o' fs fs' s s' render encode ord pf,
  symbols_reported d c q (Some r) -> asked_symbols (c_args c) x -> tells_symbols q (Some r) -> a_format (c_args c) = FJson2 ->
  run_files d (get_memory_types chip_info) render encode ord pf (with_unchanged c false) o (start fs) = (Done tt, s) ->
  run_files d (get_memory_types chip_info) render encode ord pf (with_unchanged c true) o' (start fs') = (Done tt, s') ->
  exists rows all, s_printed s = [PEntries rows] /\ s_printed s' = [PEntries all] /\ rows_changed rows all.
Proof. exact unchanged_symbols. Qed.
Print Assumptions c162_symbols.

(** also for the report on archives with --unify *)
Theorem c162_merged : forall d c k r o o' fs fs' s s' render encode ord pf,
  merged d c k (Some r) -> asked false (c_args c) -> (given (a_archive_details (c_args c)) = true -> a_use_dwarf (c_args c) <> Some true) -> a_format (c_args c) = FJson2 ->
  run_files d (get_memory_types chip_info) render encode ord pf (with_unchanged c false) o (start fs) = (Done tt, s) ->
  run_files d (get_memory_types chip_info) render encode ord pf (with_unchanged c true) o' (start fs') = (Done tt, s') ->
  exists rows all, s_printed s = [PEntries rows] /\ s_printed s' = [PEntries all] /\ rows_changed rows all.
Proof. exact unchanged_merged. Qed.
Print Assumptions c162_merged.

(** and the summary has exactly the memory types and sections that differ *)
Theorem c162_summary : forall d c k r o o' fs fs' s s' render encode ord pf,
  summarised d c k (Some r) -> of_types (c_args c) -> a_format (c_args c) = FTable \/ a_format (c_args c) = FText \/ a_format (c_args c) = FCsv ->
  run_files d (get_memory_types chip_info) render encode ord pf (with_unchanged c false) o (start fs) = (Done tt, s) ->
  run_files d (get_memory_types chip_info) render encode ord pf (with_unchanged c true) o' (start fs') = (Done tt, s') ->
  exists gs all, shows_usage (c_args (with_unchanged c false)) s gs /\ shows_usage (c_args (with_unchanged c true)) s' all /\ usage_changed gs all.
Proof. exact unchanged_summary. Qed.
Print Assumptions c162_summary.

(** ** example: one of two object files has the same total, though its sections differ *)
Example c162_example : exists s rows s' all,
  reported ax_disk (fm_cmd FJson2 false None true) ax_k (Some ax_r) /\ tells_files true ax_k (Some ax_r) /\ asked true (c_args (fm_cmd FJson2 false None true)) /\
  fm_run (with_unchanged (fm_cmd FJson2 false None true) false) = (Done tt, s) /\ s_printed s = [PEntries rows] /\
  ax_figures rows = [ (tx "lib.a:b.o", 8, 4, [(tx ".iram0.text", 8, 4); (tx ".iram0.vectors", 0, 0)]) ] /\
  fm_run (with_unchanged (fm_cmd FJson2 false None true) true) = (Done tt, s') /\ s_printed s' = [PEntries all] /\
  ax_figures all = [ (tx "lib.a:a.o", 24, 0, [(tx ".iram0.vectors", 16, 8); (tx ".iram0.text", 8, -8)]); (tx "lib.a:b.o", 8, 4, [(tx ".iram0.text", 8, 4); (tx ".iram0.vectors", 0, 0)]) ].
Proof.
  do 4 eexists. split; [apply fm_reported|]. split; [exact ax_tells|]. split; [repeat split|]. split; [vm_compute; reflexivity|]. split; [reflexivity|]. split; [vm_compute; reflexivity|].
  split; [vm_compute; reflexivity|]. split; [reflexivity|]. vm_compute; reflexivity.
Qed.
(** for symbols, with the project as its own reference: *)
Definition un_cmd : cmd :=
  px_cmd (Args FJson2 false false false false (Some (tx "libmain.a")) false (Some (in_dir dir1 (tx "app.map"))) false true false false false false (Some false) None (tx "1") None true true).
Lemma un_reported : symbols_reported sx_disk un_cmd sx_new (Some sx_new).
Proof.
  split; [|split; [|split; reflexivity]].
  - exists dir1, (tx "app.map"), px_text, (Some fx_entries), sx_account_new, (Some sx_new_ys). split; [reflexivity|]. split; [exact sx_built1|]. split; [left; reflexivity|]. split; [right; exact sx_filled1|].
    split; [|split; [exact sx_clear_new|reflexivity]]. apply (sx_symbols_of _ _ sx_new_syms); [vm_compute; reflexivity|vm_compute; reflexivity|now left].
  - exists (in_dir dir1 (tx "app.map")). split; [reflexivity|]. exists dir1, (tx "app.map"), px_text, (Some fx_entries), sx_account_new, (Some sx_new_ys). split; [reflexivity|]. split; [exact sx_built1|]. split; [left; reflexivity|]. split; [right; exact sx_filled1|].
    split; [|split; [exact sx_clear_new|reflexivity]]. apply (sx_symbols_of _ _ sx_new_syms); [vm_compute; reflexivity|vm_compute; reflexivity|now left].
Qed.
Lemma un_tells : tells_symbols sx_new (Some sx_new).
Proof. intros i [H|H]; apply sx_tells; left; exact H. Qed.
Definition un_run (c : cmd) := run_files sx_disk (get_memory_types chip_info) mx_render mx_encode mx_order mx_pct c no_faults (start []).
Example c162_symbols_example : exists s rows s' all,
  symbols_reported sx_disk un_cmd sx_new (Some sx_new) /\ tells_symbols sx_new (Some sx_new) /\ asked_symbols (c_args un_cmd) (tx "libmain.a") /\
  un_run (with_unchanged un_cmd false) = (Done tt, s) /\ s_printed s = [PEntries rows] /\ rx_brief rows = [] /\
  un_run (with_unchanged un_cmd true) = (Done tt, s') /\ s_printed s' = [PEntries all] /\
  rx_brief all = [ (tx "esp-idf/main/libmain.a:app main.c.obj:app_main()", (tx "app_main()", 5, 0)); (tx "esp-idf/main/libmain.a:app main.c.obj:helper", (tx "helper", 3, 0)) ].
Proof.
  do 4 eexists. split; [exact un_reported|]. split; [exact un_tells|]. split; [split; [reflexivity|split; [reflexivity|discriminate]]|]. split; [vm_compute; reflexivity|]. split; [reflexivity|]. split; [vm_compute; reflexivity|].
  split; [vm_compute; reflexivity|]. split; [reflexivity|]. vm_compute; reflexivity.
Qed.
(** the summary: the section .iram0.text has the same bytes *)
Example c162_summary_example : exists s s' tb tb',
  of_types (c_args (uo_cmd FTable true false)) /\ summarised vx_disk (uo_cmd FTable true false) vx_new (Some vx_old) /\
  uo_run (with_unchanged (uo_cmd FTable true false) false) = (Done tt, s) /\ s_printed s = [PTable tb] /\ tb_rows tb = [ map tx ["IRAM"; "32    +16"; "%"; "130016    -16"; "130048      0"]; map tx ["   .text"; "16    +16"; "%"; ""; ""] ]%string /\
  uo_run (with_unchanged (uo_cmd FTable true false) true) = (Done tt, s') /\ s_printed s' = [PTable tb'] /\ tb_rows tb' = [ map tx ["IRAM"; "32    +16"; "%"; "130016    -16"; "130048      0"]; map tx ["   .text"; "16    +16"; "%"; ""; ""]; map tx ["   .text"; "16      0"; "%"; ""; ""] ]%string.
Proof.
  do 4 eexists. split; [repeat split|]. split; [apply uo_summarised|]. split; [vm_compute; reflexivity|]. split; [reflexivity|]. split; [vm_compute; reflexivity|].
  split; [vm_compute; reflexivity|]. split; [reflexivity|]. vm_compute; reflexivity.
Qed.
(** archives with --unify, with the project as its own reference: *)
Definition um_cmd : cmd :=
  px_cmd (Args FJson2 true false false false None false (Some (in_dir dir1 (tx "app.map"))) false true true false true false (Some false) None (tx "1") None true true).
Lemma um_merged : merged vx_disk um_cmd vx_new (Some vx_new).
Proof.
  assert (P : project_at vx_disk (c_args um_cmd) (in_dir dir1 (tx "app.map")) vx_new).
  { exists dir1, (tx "app.map"), vx_text, None. split; [reflexivity|]. split; [exact vx_built1|]. split; [left; reflexivity|]. right. apply vx_filled. intros o [<-|[<-|[]]]; eexists; repeat split. }
  split; [exact P|]. split; [|split; [reflexivity|reflexivity]]. exists (in_dir dir1 (tx "app.map")). split; [reflexivity|exact P].
Qed.
Example c162_merged_example : exists s rows s' all,
  merged vx_disk um_cmd vx_new (Some vx_new) /\ asked false (c_args um_cmd) /\
  uo_run (with_unchanged um_cmd false) = (Done tt, s) /\ s_printed s = [PEntries rows] /\ rx_brief rows = [] /\
  uo_run (with_unchanged um_cmd true) = (Done tt, s') /\ s_printed s' = [PEntries all] /\
  rx_brief all = [ (tx "libx.a", (tx "libx.a", 32, 0)) ].
Proof.
  do 4 eexists. split; [exact um_merged|]. split; [reflexivity|]. split; [vm_compute; reflexivity|]. split; [reflexivity|]. split; [vm_compute; reflexivity|].
  split; [vm_compute; reflexivity|]. split; [reflexivity|]. vm_compute; reflexivity.
Qed.
