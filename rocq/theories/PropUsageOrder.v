(** * Property C161: what the options of order, filter and names change in the summary *)
From Coq Require Import Ascii String List ZArith Lia Bool Permutation.
From Verif Require Import Base MemMap SpecTree SpecOps Filter SpecFilter Pipeline SpecPipe SpecBuild SpecBytes SpecShape SpecSyms PyStr MapFile SpecMap FixMap
  ElfRead SpecElf FixElf Project SpecProject FixProject SpecEnd Chips SpecChips ProofChips Deps Table SpecTable Formats Main SpecMain FixMain Command SpecCommand SpecFail SpecReport SpecMerge SpecAdds SpecSteps SpecCompare SpecCompareUsage SpecForm
  PropProject PropEnd PropCommand PropFail PropReport PropMerge SpecUsageOrder ProofUsageOrder.
Import ListNotations.
Open Scope list_scope.
Open Scope Z_scope.

Local Notation tx := (fun s => list_ascii_of_string s%string).

(** C161: the summary as table, text or CSV has the same numbers, whatever --sort, --sort-diff,
    --sort-reverse, --filter, --abbrev, --no-abbrev, the console and the order of sets *)
Theorem c161_summary : forall d c c' k r o o' fs fs' s s' render render' encode encode' ord ord' pf pf',
  summarised d c k r -> other_form c c' -> a_use_flash_size (c_args c') = a_use_flash_size (c_args c) -> of_types (c_args c) ->
  a_format (c_args c) = FTable \/ a_format (c_args c) = FText \/ a_format (c_args c) = FCsv -> a_format (c_args c') = FTable \/ a_format (c_args c') = FText \/ a_format (c_args c') = FCsv ->
  run_files d (get_memory_types chip_info) render encode ord pf c o (start fs) = (Done tt, s) ->
  run_files d (get_memory_types chip_info) render' encode' ord' pf' c' o' (start fs') = (Done tt, s') ->
  exists gs gs', shows_usage (c_args c) s gs /\ shows_usage (c_args c') s' gs' /\ usage_order gs gs'.
Proof. exact summary_order. Qed.
Print Assumptions c161_summary.

(** ** example: a comparison downwards with short names, and upwards by the difference with long names as text *)
Definition uo_cmd (f : format) (short up : bool) : cmd :=
  px_cmd (Args f false false false false None false (Some (in_dir dir2 (tx "app.map"))) (negb short) short false false true false (Some false) None (tx "1") None up (negb up)).
Lemma uo_summarised f short up : summarised vx_disk (uo_cmd f short up) vx_new (Some vx_old).
Proof.
  split; [|split; [|reflexivity]].
  - exists dir1, (tx "app.map"), vx_text, None. split; [reflexivity|]. split; [exact vx_built1|]. split; [left; reflexivity|]. right. apply vx_filled.
    intros o [<-|[<-|[]]]; eexists; repeat split.
  - exists (in_dir dir2 (tx "app.map")). split; [reflexivity|]. exists dir2, (tx "app.map"), rx_text, None. split; [reflexivity|]. split; [exact vx_built2|]. split; [left; reflexivity|]. right. apply vx_filled.
    intros o [<-|[]]; eexists; repeat split.
Qed.
Definition uo_run (c : cmd) := run_files vx_disk (get_memory_types chip_info) mx_render mx_encode mx_order mx_pct c no_faults (start []).
Example c161_example : exists s s' tb tb',
  of_types (c_args (uo_cmd FTable true false)) /\ summarised vx_disk (uo_cmd FTable true false) vx_new (Some vx_old) /\ other_form (uo_cmd FTable true false) (uo_cmd FText false true) /\
  uo_run (uo_cmd FTable true false) = (Done tt, s) /\ s_printed s = [PTable tb] /\ tb_rows tb = [ map tx ["IRAM"; "32    +16"; "%"; "130016    -16"; "130048      0"]; map tx ["   .text"; "16    +16"; "%"; ""; ""]; map tx ["   .text"; "16      0"; "%"; ""; ""] ]%string /\
  uo_run (uo_cmd FText false true) = (Done tt, s') /\ s_printed s' = [PTable tb'] /\ tb_rows tb' = [ map tx ["IRAM"; "32    +16"; "%"; "130016    -16"; "130048      0"]; map tx ["   .iram0.text"; "16      0"; "%"; ""; ""]; map tx ["   .iram1.text"; "16    +16"; "%"; ""; ""] ]%string.
Proof.
  do 4 eexists. split; [repeat split|]. split; [apply uo_summarised|]. split; [repeat split|]. split; [vm_compute; reflexivity|]. split; [reflexivity|]. split; [vm_compute; reflexivity|].
  split; [vm_compute; reflexivity|]. split; [reflexivity|]. vm_compute; reflexivity.
Qed.
