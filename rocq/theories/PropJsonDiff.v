(** * Property C156: the JSON summary of a project with and without a reference *)
From Coq Require Import Ascii String List ZArith Lia Bool.
From Verif Require Import Base MemMap SpecTree SpecOps Filter SpecFilter Pipeline SpecPipe SpecBuild SpecBytes SpecShape SpecSyms PyStr MapFile SpecMap FixMap
  ElfRead SpecElf FixElf Project SpecProject FixProject SpecEnd Chips SpecChips ProofChips Deps Table SpecTable Formats Main SpecMain FixMain Command SpecCommand SpecFail SpecReport SpecMerge SpecAdds SpecSteps SpecCompare SpecCompareUsage SpecJsonDiff
  PropProject PropEnd PropCommand PropFail PropReport PropMerge ProofJsonDiff.
Import ListNotations.
Open Scope list_scope.
Open Scope Z_scope.

Local Notation tx := (fun s => list_ascii_of_string s%string).

(** C156: a reference does not change the numbers of the JSON summary; memory types and sections
    that only the reference has come in addition, with no bytes.  Full claim: the same of the bytes
    of sections with short names, which is false (below) *)
Theorem c156_json_partial : forall d c x y k r o o' fs fs' s s' render encode ord pf, of_types (c_args c) -> a_format (c_args c) = FJson2 -> summarised d (comparing c x y) k (Some r) ->
  run_files d (get_memory_types chip_info) render encode ord pf (reporting c x) o (start fs) = (Done tt, s) ->
  run_files d (get_memory_types chip_info) render encode ord pf (comparing c x y) o' (start fs') = (Done tt, s') ->
  exists js js', s_printed s = [PJson js] /\ s_printed s' = [PJson js'] /\ keeps_figures (c_args c) js js'.
Proof. exact json_keeps. Qed.
Print Assumptions c156_json_partial.

(** ** example: a section that only the reference has, with long names *)
Definition jd_x : str := in_dir dir1 (tx "app.map").
Definition jd_y : str := in_dir dir2 (tx "app.map").
Definition jd_cmd (short unify : bool) : cmd :=
  px_cmd (Args FJson2 false false false false None false None (negb short) short unify false false false (Some false) None (tx "1") None false true).
Lemma jd_summarised short unify : summarised vx_disk (comparing (jd_cmd short unify) jd_y jd_x) vx_old (Some vx_new).
Proof.
  split; [|split; [|reflexivity]].
  - exists dir2, (tx "app.map"), rx_text, None. split; [reflexivity|]. split; [exact vx_built2|]. split; [left; reflexivity|]. right. apply vx_filled.
    intros o [<-|[]]; eexists; repeat split.
  - exists jd_x. split; [reflexivity|]. exists dir1, (tx "app.map"), vx_text, None. split; [reflexivity|]. split; [exact vx_built1|]. split; [left; reflexivity|]. right. apply vx_filled.
    intros o [<-|[<-|[]]]; eexists; repeat split.
Qed.
Definition jd_run (c : cmd) := run_files vx_disk (get_memory_types chip_info) mx_render mx_encode mx_order mx_pct c no_faults (start []).
Definition jd_layout (js : jsummary) := map (fun j => (j_name j, j_used j, j_total j, j_parts j)) (js_layout js).
Definition jd_pair (short unify : bool) (alone both : dict str Z) : Prop :=
  of_types (c_args (jd_cmd short unify)) /\ summarised vx_disk (comparing (jd_cmd short unify) jd_y jd_x) vx_old (Some vx_new) /\
  exists s s' js js', jd_run (reporting (jd_cmd short unify) jd_y) = (Done tt, s) /\ s_printed s = [PJson js] /\ jd_layout js = [(tx "IRAM", 16, 130048, alone)] /\
    jd_run (comparing (jd_cmd short unify) jd_y jd_x) = (Done tt, s') /\ s_printed s' = [PJson js'] /\ jd_layout js' = [(tx "IRAM", 16, 130048, both)].
Ltac jd_tac := split; [repeat split|]; split; [apply jd_summarised|]; do 4 eexists; (split; [vm_compute; reflexivity|]); (split; [reflexivity|]); (split; [vm_compute; reflexivity|]); (split; [vm_compute; reflexivity|]); (split; [reflexivity|]); vm_compute; reflexivity.
Example c156_example :
  jd_pair false false [(tx ".iram0.text", 16)] [(tx ".iram0.text", 16); (tx ".iram1.text", 0)] /\
  jd_pair true true [(tx ".text", 16)] [(tx ".text", 16)].
Proof. split; jd_tac. Qed.

(** With short names, the section that only the reference has takes the place of that of the project:
    IRAM has 16 bytes, in .text without the reference, and in no section with it *)
Theorem c156_refuted : exists d c x y k r s s' j j', of_types (c_args c) /\ a_format (c_args c) = FJson2 /\ summarised d (comparing c x y) k (Some r) /\
  run_files d (get_memory_types chip_info) mx_render mx_encode mx_order mx_pct (reporting c x) no_faults (start []) = (Done tt, s) /\
  run_files d (get_memory_types chip_info) mx_render mx_encode mx_order mx_pct (comparing c x y) no_faults (start []) = (Done tt, s') /\
  (exists n, s_printed s = [PJson (JSummary n [j])]) /\ (exists n, s_printed s' = [PJson (JSummary n [j'])]) /\
  j_name j = j_name j' /\ j_used j = 16 /\ j_used j' = 16 /\ j_parts j = [(tx ".text", 16)] /\ j_parts j' = [(tx ".text", 0)].
Proof.
  exists vx_disk, (jd_cmd true false), jd_y, jd_x, vx_old, vx_new. do 4 eexists. split; [repeat split|]. split; [reflexivity|]. split; [apply jd_summarised|].
  split; [vm_compute; reflexivity|]. split; [vm_compute; reflexivity|]. split; [eexists; reflexivity|]. split; [eexists; reflexivity|]. repeat split.
Qed.
Print Assumptions c156_refuted.
