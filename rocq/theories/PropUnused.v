(** * Property C157: the summary with and without unused memory types *)
From Coq Require Import Ascii String List ZArith Lia Bool.
From Verif Require Import Base MemMap SpecTree SpecOps Filter SpecFilter Pipeline SpecPipe SpecBuild SpecBytes SpecShape SpecSyms PyStr MapFile SpecMap FixMap
  ElfRead SpecElf FixElf Project SpecProject FixProject SpecEnd Chips SpecChips ProofChips Deps Table SpecTable Formats Main SpecMain FixMain Command SpecCommand SpecFail SpecReport SpecMerge SpecAdds SpecSteps SpecCompare SpecCompareUsage SpecJsonDiff
  PropProject PropEnd PropCommand PropFail PropReport PropMerge PropSizes SpecUnused ProofUnused.
Import ListNotations.
Open Scope list_scope.
Open Scope Z_scope.

Local Notation tx := (fun s => list_ascii_of_string s%string).

(** C157: --show-unused only adds memory types without bytes to the summary, and --use-flash-size
    given with it only changes the sizes of flash memory *)
Theorem c157_table : forall d c f k r o o' fs fs' s s' render encode ord pf,
  summarised d c k r -> of_types (c_args c) -> a_format (c_args c) = FTable \/ a_format (c_args c) = FText \/ a_format (c_args c) = FCsv ->
  run_files d (get_memory_types chip_info) render encode ord pf c o (start fs) = (Done tt, s) ->
  run_files d (get_memory_types chip_info) render encode ord pf (with_unused c f) o' (start fs') = (Done tt, s') ->
  exists gs gs', shows_usage (c_args c) s gs /\ shows_usage (c_args (with_unused c f)) s' gs' /\ adds_unused (c_args c) f gs gs'.
Proof. exact unused_table. Qed.
Print Assumptions c157_table.

Theorem c157_json : forall d c f k r o o' fs fs' s s' render encode ord pf,
  summarised d c k r -> of_types (c_args c) -> a_format (c_args c) = FJson2 ->
  run_files d (get_memory_types chip_info) render encode ord pf c o (start fs) = (Done tt, s) ->
  run_files d (get_memory_types chip_info) render encode ord pf (with_unused c f) o' (start fs') = (Done tt, s') ->
  exists js js', s_printed s = [PJson js] /\ s_printed s' = [PJson js'] /\ adds_unused_json (c_args c) f js js'.
Proof. exact unused_json. Qed.
Print Assumptions c157_json.

(** ** example: a project that uses IRAM only, and the other memory types of the chip *)
Definition un_cmd (f : format) : cmd := reporting (sz_cmd f) sz_y.
Lemma un_summarised f : summarised sz_disk (un_cmd f) sz_old None.
Proof.
  split; [|split; [|reflexivity]].
  - exists dir2, (tx "app.map"), sz_text, None. split; [reflexivity|]. split; [exact sz_built2|]. split; [left; reflexivity|]. right. apply vx_filled.
    intros o [<-|[]]; eexists; repeat split.
  - reflexivity.
Qed.
Definition un_layout (js : jsummary) := map (fun j => (j_name j, j_used j, j_total j, List.length (j_parts j))) (js_layout js).
Example c157_example : exists s1 s2 s3 t1 t2 js,
  of_types (c_args (un_cmd FTable)) /\ summarised sz_disk (un_cmd FTable) sz_old None /\ summarised sz_disk (un_cmd FJson2) sz_old None /\
  sz_run (un_cmd FTable) = (Done tt, s1) /\ s_printed s1 = [PTable t1] /\ sz_cells t1 = [tx "65536"; tx ""] /\
  sz_run (with_unused (un_cmd FTable) true) = (Done tt, s2) /\ s_printed s2 = [PTable t2] /\ sz_cells t2 = [tx ""; tx ""; tx ""; tx ""; tx ""; tx ""; tx "65536"; tx ""] /\
  sz_run (with_unused (un_cmd FJson2) true) = (Done tt, s3) /\ s_printed s3 = [PJson js] /\ un_layout js = [(tx "DRAM", 0, 0, 0%nat); (tx "Flash Code", 0, 0, 0%nat); (tx "Flash Data", 0, 0, 0%nat); (tx "SPI DRAM", 0, 0, 0%nat); (tx "RTC FAST", 0, 0, 0%nat); (tx "RTC SLOW", 0, 0, 0%nat); (tx "IRAM", 16, 65536, 1%nat)].
Proof.
  do 6 eexists. split; [repeat split|]. split; [apply un_summarised|]. split; [apply un_summarised|].
  split; [vm_compute; reflexivity|]. split; [reflexivity|]. split; [vm_compute; reflexivity|].
  split; [vm_compute; reflexivity|]. split; [reflexivity|]. split; [vm_compute; reflexivity|].
  split; [vm_compute; reflexivity|]. split; [reflexivity|]. vm_compute; reflexivity.
Qed.
