(** * Property C153: the summary says the same as JSON and as a table *)
From Coq Require Import Ascii String List ZArith Lia Bool.
From Verif Require Import Base MemMap SpecTree SpecOps Filter SpecFilter Pipeline SpecPipe SpecBuild SpecBytes SpecShape SpecSyms PyStr MapFile SpecMap FixMap
  ElfRead SpecElf FixElf Project SpecProject FixProject ProofProject2 SpecEnd Chips SpecChips ProofChips Deps Table SpecTable Formats Main SpecMain FixMain Command SpecCommand SpecFail SpecReport SpecMerge SpecAdds SpecGroup SpecForm SpecCompareUsage SpecSumForm
  PropProject PropEnd PropCommand PropFail PropReport PropMerge PropGroupUsage ProofSumForm.
Import ListNotations.
Open Scope list_scope.
Open Scope Z_scope.

Local Notation tx := (fun s => list_ascii_of_string s%string).

(** C153: the summary as table, text or CSV by one command, as JSON by another that differs only in
    how the report is shown; of a project alone or with a reference, with or without --unify *)
Theorem c153_summary : forall d c c' k r o o' fs fs' s s' render encode ord pf,
  summarised d c k r -> other_form c c' -> of_types (c_args c) -> a_format (c_args c) = FTable \/ a_format (c_args c) = FText \/ a_format (c_args c) = FCsv -> a_format (c_args c') = FJson2 ->
  run_files d (get_memory_types chip_info) render encode ord pf c o (start fs) = (Done tt, s) ->
  run_files d (get_memory_types chip_info) render encode ord pf c' o' (start fs') = (Done tt, s') ->
  exists gs js, shows_usage (c_args c) s gs /\ s_printed s' = [PJson js] /\ same_summary (c_args c') gs js.
Proof. exact summary_form. Qed.
Print Assumptions c153_summary.

(** ** example: the table leaves out a section that did not change, the JSON summary does not; all
    rows; --unify; and short names, of which two are the same *)
Definition sf_cmd (f : format) (all short unify : bool) : cmd :=
  px_cmd (Args f false false false false None false (Some (in_dir dir2 (tx "app.map"))) (negb short) short unify false all false (Some false) None (tx "1") None false false).
Lemma sf_summarised f all short unify : summarised vx_disk (sf_cmd f all short unify) vx_new (Some vx_old).
Proof.
  split; [|split; [|reflexivity]].
  - exists dir1, (tx "app.map"), vx_text, None. split; [reflexivity|]. split; [exact vx_built1|]. split; [left; reflexivity|]. right. apply vx_filled.
    intros o [<-|[<-|[]]]; eexists; repeat split.
  - exists (in_dir dir2 (tx "app.map")). split; [reflexivity|]. exists dir2, (tx "app.map"), rx_text, None. split; [reflexivity|]. split; [exact vx_built2|]. split; [left; reflexivity|]. right. apply vx_filled.
    intros o [<-|[]]; eexists; repeat split.
Qed.
Definition sf_run (c : cmd) := run_files vx_disk (get_memory_types chip_info) mx_render mx_encode mx_order mx_pct c no_faults (start []).
Definition sf_layout (js : jsummary) := map (fun j => (j_name j, j_used j, j_parts j)) (js_layout js).
Definition sf_pair (all short unify : bool) (rows : list (str * str)) (parts : dict str Z) : Prop :=
  summarised vx_disk (sf_cmd FTable all short unify) vx_new (Some vx_old) /\ other_form (sf_cmd FTable all short unify) (sf_cmd FJson2 all short unify) /\
  exists s tb s' js, sf_run (sf_cmd FTable all short unify) = (Done tt, s) /\ s_printed s = [PTable tb] /\ gu_cells tb = (tx "IRAM", tx "32 +16") :: rows /\
    sf_run (sf_cmd FJson2 all short unify) = (Done tt, s') /\ s_printed s' = [PJson js] /\ sf_layout js = [(tx "IRAM", 32, parts)].
Example c153_example : of_types (c_args (sf_cmd FTable false false false)) /\
  sf_pair false false false [(tx ".iram1.text", tx "16 +16")] [(tx ".iram1.text", 16); (tx ".iram0.text", 16)] /\
  sf_pair true false false [(tx ".iram1.text", tx "16 +16"); (tx ".iram0.text", tx "16 0")] [(tx ".iram1.text", 16); (tx ".iram0.text", 16)] /\
  sf_pair true true true [(tx ".text", tx "32 +16")] [(tx ".text", 32)] /\
  sf_pair true true false [(tx ".text", tx "16 +16"); (tx ".text", tx "16 0")] [(tx ".text", 16)].
Proof.
  split; [repeat split|]. repeat apply conj; try apply sf_summarised; try (vm_compute; reflexivity);
    do 4 eexists; (split; [vm_compute; reflexivity|]); (split; [reflexivity|]); (split; [vm_compute; reflexivity|]); (split; [vm_compute; reflexivity|]); (split; [reflexivity|]); vm_compute; reflexivity.
Qed.
