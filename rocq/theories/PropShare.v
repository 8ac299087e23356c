(** * Property C127: the percentages in the summary of a project, alone or compared with a reference *)
From Coq Require Import Ascii String List ZArith QArith Lia Bool Sorted.
From Verif Require Import Base MemMap SpecTree SpecOps Filter SpecFilter Pipeline SpecPipe SpecBuild SpecBytes SpecShape PyStr MapFile SpecMap FixMap
  ElfRead SpecElf FixElf Project SpecProject FixProject ProofProject2 SpecEnd Chips SpecChips ProofChips Deps Table SpecTable Formats Main SpecMain FixMain Command SpecCommand SpecFail SpecReport SpecMerge
  Text Percent SpecPercent SpecLayout SpecShare PropProject PropEnd PropCommand PropFail PropReport PropMerge ProofShare.
Import ListNotations.
Open Scope list_scope.
Open Scope Z_scope.

(** C127: the percentage in the row of a memory type is the part of its bytes that are used, and
    in the row of a section the part that the section takes; with a reference, the difference to
    the same percentage of the reference follows. As a table, as text or as CSV: *)
Theorem c127_percentages : forall d c k r o files s render encode ord,
  reported d c k r \/ merged d c k r -> of_types (c_args c) -> a_format (c_args c) = FTable \/ a_format (c_args c) = FText \/ a_format (c_args c) = FCsv ->
  all_small k r ->
  run_files d (get_memory_types chip_info) render encode ord (plain_pct python_floats) c o (start files) = (Done tt, s) ->
  exists tb groups rows, prints (c_args c) s tb /\ tb_rows tb = concat rows /\ Forall2 (figures_rows (c_args c)) groups rows /\
    NoDup (map pg_type groups) /\
    (forall T, In T (map pg_type groups) <-> present k r (lists_type (c_args c) T) /\ exists v, measured k r (used_bytes T) v /\ differs (c_args c) v) /\
    Forall (figures_right k r (c_args c)) groups /\ Forall2 (shares (c_args c)) groups rows.
Proof. exact shares_report. Qed.
Print Assumptions c127_percentages.

(** ** examples *)
Local Notation tx := (fun s => list_ascii_of_string s%string).
(** 32 of 130048 bytes, 16 more than before *)
Example c127_example : exists s tb, reported rx_disk (px_cmd (rx_args FTable false false None)) rx_new (Some rx_old) /\ of_types (rx_args FTable false false None) /\
  all_small rx_new (Some rx_old) /\
  run_files rx_disk (get_memory_types chip_info) mx_render mx_encode mx_order (plain_pct python_floats) (px_cmd (rx_args FTable false false None)) no_faults (start []) = (Done tt, s) /\
  s_printed s = [PTable tb] /\ map (fun r => nth 2 r []) (tb_rows tb) = map tx ["0.02  +0.01"; "0.02  +0.01"]%string.
Proof.
  do 2 eexists. split; [apply rx_reported|]. split; [repeat split|]. split; [vm_compute; repeat split|]. split; [vm_compute; reflexivity|]. split; [reflexivity|]. vm_compute. reflexivity.
Qed.
Example c127_unify_example : exists s tb, merged vx_disk (px_cmd (vx_args FTable false None)) vx_new (Some vx_old) /\ of_types (vx_args FTable false None) /\
  all_small vx_new (Some vx_old) /\
  run_files vx_disk (get_memory_types chip_info) mx_render mx_encode mx_order (plain_pct python_floats) (px_cmd (vx_args FTable false None)) no_faults (start []) = (Done tt, s) /\
  s_printed s = [PTable tb] /\ map (fun r => nth 2 r []) (tb_rows tb) = map tx ["0.02  +0.01"; "0.02  +0.01"]%string.
Proof.
  do 2 eexists. split; [apply vx_merged|]. split; [repeat split|]. split; [vm_compute; repeat split|]. split; [vm_compute; reflexivity|]. split; [reflexivity|]. vm_compute. reflexivity.
Qed.
