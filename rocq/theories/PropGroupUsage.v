(** * Property C151: --unify adds up the sections of the summary with the same short name *)
From Coq Require Import Ascii String List ZArith Lia Bool.
From Verif Require Import Base MemMap SpecTree SpecOps Filter SpecFilter Pipeline SpecPipe SpecBuild SpecBytes SpecShape SpecSyms PyStr MapFile SpecMap FixMap
  ElfRead SpecElf FixElf Project SpecProject FixProject ProofProject2 SpecEnd Chips SpecChips ProofChips Deps Table SpecTable Formats Main SpecMain FixMain Command SpecCommand SpecFail SpecReport SpecMerge SpecAdds SpecGroup SpecCompareUsage SpecGroupUsage
  PropProject PropEnd PropCommand PropFail PropReport PropMerge ProofGroupUsage.
Import ListNotations.
Open Scope list_scope.
Open Scope Z_scope.

Local Notation tx := (fun s => list_ascii_of_string s%string).

(** C151: the summary with --unify, of a project alone or compared with a reference, says what one
    gets from the one without it by adding up *)
Theorem c151_summary : forall d c render encode ord pf,
  of_types (c_args c) -> a_format (c_args c) = FTable \/ a_format (c_args c) = FText \/ a_format (c_args c) = FCsv ->
  forall k r o o' fs fs' s s', summarised d c k r ->
  run_files d (get_memory_types chip_info) render encode ord pf (unify_on false c) o (start fs) = (Done tt, s) ->
  run_files d (get_memory_types chip_info) render encode ord pf (unify_on true c) o' (start fs') = (Done tt, s') ->
  exists plain unified, shows_usage (c_args (unify_on false c)) s plain /\ shows_usage (c_args (unify_on true c)) s' unified /\ grouped_usage (c_args c) plain unified.
Proof. exact summaries_grouped. Qed.
Print Assumptions c151_summary.

(** ** example: the two sections of C124 with the short name .text *)
Definition gu_args (unchanged noabbrev : bool) : args :=
  Args FTable false false false false None false (Some (in_dir dir2 (tx "app.map"))) noabbrev (negb noabbrev) false false unchanged false (Some false) None (tx "1") None false false.
Lemma gu_summarised u n : summarised vx_disk (px_cmd (gu_args u n)) vx_new (Some vx_old).
Proof.
  split; [|split; [|reflexivity]].
  - exists dir1, (tx "app.map"), vx_text, None. split; [reflexivity|]. split; [exact vx_built1|]. split; [left; reflexivity|]. right. apply vx_filled.
    intros o [<-|[<-|[]]]; eexists; repeat split.
  - exists (in_dir dir2 (tx "app.map")). split; [reflexivity|]. exists dir2, (tx "app.map"), rx_text, None. split; [reflexivity|]. split; [exact vx_built2|]. split; [left; reflexivity|]. right. apply vx_filled.
    intros o [<-|[]]; eexists; repeat split.
Qed.
Definition gu_run (unify u n : bool) := run_files vx_disk (get_memory_types chip_info) mx_render mx_encode mx_order mx_pct (unify_on unify (px_cmd (gu_args u n))) no_faults (start []).
(** the first two cells of each row, with single spaces *)
Fixpoint gu_squeeze (s : str) : str :=
  match s with
  | c :: ((d :: _) as t) => if Ascii.eqb c " " && Ascii.eqb d " " then gu_squeeze t else c :: gu_squeeze t
  | _ => s
  end.
Definition gu_cells (tb : table) : list (str * str) := map (fun r => (strip (nth 0 r []), gu_squeeze (nth 1 r []))) (tb_rows tb).
Example c151_example : exists s1 s2 s3 s4 t1 t2 t3 t4,
  summarised vx_disk (px_cmd (gu_args true true)) vx_new (Some vx_old) /\ of_types (gu_args true true) /\ summarised vx_disk (px_cmd (gu_args false true)) vx_new (Some vx_old) /\
  gu_run false true true = (Done tt, s1) /\ s_printed s1 = [PTable t1] /\ gu_cells t1 = [(tx "IRAM", tx "32 +16"); (tx ".iram1.text", tx "16 +16"); (tx ".iram0.text", tx "16 0")] /\
  gu_run true true true = (Done tt, s2) /\ s_printed s2 = [PTable t2] /\ gu_cells t2 = [(tx "IRAM", tx "32 +16"); (tx ".text", tx "32 +16")] /\
  gu_run false false true = (Done tt, s3) /\ s_printed s3 = [PTable t3] /\ gu_cells t3 = [(tx "IRAM", tx "32 +16"); (tx ".iram1.text", tx "16 +16")] /\
  gu_run true false true = (Done tt, s4) /\ s_printed s4 = [PTable t4] /\ gu_cells t4 = [(tx "IRAM", tx "32 +16"); (tx ".text", tx "32 +16")].
Proof.
  do 8 eexists. split; [apply gu_summarised|]. split; [repeat split|]. split; [apply gu_summarised|].
  do 3 (split; [vm_compute; reflexivity|]; split; [reflexivity|]; split; [vm_compute; reflexivity|]). split; [vm_compute; reflexivity|]. split; [reflexivity|]. vm_compute. reflexivity.
Qed.
