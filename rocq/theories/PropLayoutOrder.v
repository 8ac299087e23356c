(** * Property C160: what the options of order change in the JSON summary *)
From Coq Require Import Ascii String List ZArith Lia Bool Permutation.
From Verif Require Import Base MemMap SpecTree SpecOps Filter SpecFilter Pipeline SpecPipe SpecBuild SpecBytes SpecShape SpecSyms PyStr MapFile SpecMap FixMap
  ElfRead SpecElf FixElf Project SpecProject FixProject SpecEnd Chips SpecChips ProofChips Deps Table SpecTable Formats Main SpecMain FixMain Command SpecCommand SpecFail SpecReport SpecMerge SpecAdds SpecSteps SpecCompare SpecCompareUsage SpecForm SpecJsonDiff
  PropProject PropEnd PropCommand PropFail PropReport PropMerge PropJsonDiff SpecLayoutOrder ProofLayoutOrder.
Import ListNotations.
Open Scope list_scope.
Open Scope Z_scope.

Local Notation tx := (fun s => list_ascii_of_string s%string).

(** C160: --sort, --sort-diff, --sort-reverse and --filter, the console and the order of sets
    change nothing but the order in the JSON summary.  Full claim: the same of the bytes of sections
    with short names, which is false (below) *)
Theorem c160_json_partial : forall d c c' k r o o' fs fs' s s' render render' encode encode' ord ord' pf pf',
  summarised d c k r -> other_order c c' -> of_types (c_args c) -> a_format (c_args c) = FJson2 -> a_format (c_args c') = FJson2 ->
  run_files d (get_memory_types chip_info) render encode ord pf c o (start fs) = (Done tt, s) ->
  run_files d (get_memory_types chip_info) render' encode' ord' pf' c' o' (start fs') = (Done tt, s') ->
  exists js js', s_printed s = [PJson js] /\ s_printed s' = [PJson js'] /\ layout_order (c_args c) js js'.
Proof. exact json_order. Qed.
Print Assumptions c160_json_partial.

(** ** example: upwards and downwards, with long names *)
Definition lo_cmd (short up : bool) : cmd :=
  comparing (px_cmd (Args FJson2 false false false false None false None (negb short) short false false false false (Some false) None (tx "1") None false (negb up))) jd_y jd_x.
Lemma lo_summarised short up : summarised vx_disk (lo_cmd short up) vx_old (Some vx_new).
Proof.
  split; [|split; [|reflexivity]].
  - exists dir2, (tx "app.map"), rx_text, None. split; [reflexivity|]. split; [exact vx_built2|]. split; [left; reflexivity|]. right. apply vx_filled.
    intros o [<-|[]]; eexists; repeat split.
  - exists jd_x. split; [reflexivity|]. exists dir1, (tx "app.map"), vx_text, None. split; [reflexivity|]. split; [exact vx_built1|]. split; [left; reflexivity|]. right. apply vx_filled.
    intros o [<-|[<-|[]]]; eexists; repeat split.
Qed.
Example c160_example : exists s s' js js',
  of_types (c_args (lo_cmd false false)) /\ summarised vx_disk (lo_cmd false false) vx_old (Some vx_new) /\ other_order (lo_cmd false false) (lo_cmd false true) /\
  jd_run (lo_cmd false false) = (Done tt, s) /\ s_printed s = [PJson js] /\ jd_layout js = [(tx "IRAM", 16, 130048, [(tx ".iram0.text", 16); (tx ".iram1.text", 0)])] /\
  jd_run (lo_cmd false true) = (Done tt, s') /\ s_printed s' = [PJson js'] /\ jd_layout js' = [(tx "IRAM", 16, 130048, [(tx ".iram1.text", 0); (tx ".iram0.text", 16)])].
Proof.
  do 4 eexists. split; [repeat split|]. split; [apply lo_summarised|]. split; [repeat split|]. split; [vm_compute; reflexivity|]. split; [reflexivity|]. split; [vm_compute; reflexivity|].
  split; [vm_compute; reflexivity|]. split; [reflexivity|]. vm_compute; reflexivity.
Qed.

(** With short names the last of the sections with the same name is shown, which depends on the
    order: .text has 0 bytes downwards, and 16 bytes with --sort-reverse *)
Theorem c160_refuted : exists d c c' k r s s' j j', of_types (c_args c) /\ a_format (c_args c) = FJson2 /\ a_format (c_args c') = FJson2 /\ summarised d c k r /\ other_order c c' /\
  run_files d (get_memory_types chip_info) mx_render mx_encode mx_order mx_pct c no_faults (start []) = (Done tt, s) /\
  run_files d (get_memory_types chip_info) mx_render mx_encode mx_order mx_pct c' no_faults (start []) = (Done tt, s') /\
  (exists n, s_printed s = [PJson (JSummary n [j])]) /\ (exists n, s_printed s' = [PJson (JSummary n [j'])]) /\
  j_name j = j_name j' /\ j_parts j = [(tx ".text", 0)] /\ j_parts j' = [(tx ".text", 16)].
Proof.
  exists vx_disk, (lo_cmd true false), (lo_cmd true true), vx_old, (Some vx_new). do 4 eexists. split; [repeat split|]. split; [reflexivity|]. split; [reflexivity|]. split; [apply lo_summarised|]. split; [repeat split|].
  split; [vm_compute; reflexivity|]. split; [vm_compute; reflexivity|]. split; [eexists; reflexivity|]. split; [eexists; reflexivity|]. repeat split.
Qed.
Print Assumptions c160_refuted.
