(** * Property C136: options of the console *)
From Coq Require Import Ascii String List ZArith Lia Bool.
From Verif Require Import Base MemMap Filter Pipeline PyStr MapFile Deps Table Formats Project Chips Main SpecMain FixMain Command SpecDisplay ProofDisplay PropProject PropCommand PropFile.
Import ListNotations.
Open Scope list_scope.
Open Scope Z_scope.
Local Notation tx := list_ascii_of_string.

(** C136: --quiet, --no-color and --force-terminal do not change how the command ends, which
    values are printed, which messages are given, which directories and files there are and
    what is in the files other than the output file, with any faults *)
Theorem c136_same : forall d chips render encode ord pf c c' o s r s1, same_but_display c c' ->
  run_files d chips render encode ord pf c o s = (r, s1) ->
  exists s2, run_files d chips render encode ord pf c' o s = (r, s2) /\ alike (a_output_file (c_args c)) s1 s2.
Proof. exact display_same. Qed.
Print Assumptions c136_same.
(** with an output file --force-terminal changes nothing at all *)
Theorem c136_terminal : forall d chips render encode ord pf c fn f o s, output c fn ->
  run_files d chips render encode ord pf (with_terminal f c) o s = run_files d chips render encode ord pf c o s.
Proof. exact terminal_same. Qed.
Print Assumptions c136_terminal.
(** with --quiet every successful command leaves an empty output file, whatever was in it *)
Theorem c136_quiet : forall d chips render encode ord pf c o s s1 fn, quiet_is_silent render -> output c fn -> c_quiet c = true ->
  run_files d chips render encode ord pf c o s = (Done tt, s1) -> dget fn (s_files s1) = Some (encode []).
Proof. exact quiet_file. Qed.
Print Assumptions c136_quiet.

(** ** examples *)
Lemma jx_silent : quiet_is_silent jx_render.
Proof. intros co l Q. unfold jx_render. now rewrite Q. Qed.
Definition qx_run := run_files disk1 (get_memory_types chip_info) jx_render (fun s => s) mx_order mx_pct.
Definition qx_files : dict str str := [(tx "out/report.json", tx "the report of yesterday")].
(** hence the wish fails: with --quiet the report is lost, and so is what was there before *)
Theorem c136_quiet_refuted : quiet_is_silent jx_render /\ ~ quiet_keeps_file qx_run.
Proof.
  split; [exact jx_silent|]. intros H. specialize (H (jx_cmd px_args) (tx "out/report.json") no_faults qx_files).
  assert (O : output (jx_cmd px_args) (tx "out/report.json")) by (split; [reflexivity|discriminate]).
  destruct (qx_run (jx_cmd px_args) no_faults (start qx_files)) as [r s] eqn:E. destruct (qx_run (made_quiet (jx_cmd px_args)) no_faults (start qx_files)) as [r' s'] eqn:E'.
  vm_compute in E. injection E as <- <-. vm_compute in E'. injection E' as <- <-. specialize (H _ _ O eq_refl eq_refl). vm_compute in H. discriminate H.
Qed.
Print Assumptions c136_quiet_refuted.
Example c136_same_example : exists s1 s2 text,
  same_but_display (jx_cmd px_args) (made_quiet (jx_cmd px_args)) /\
  qx_run (jx_cmd px_args) no_faults (start qx_files) = (Done tt, s1) /\ qx_run (made_quiet (jx_cmd px_args)) no_faults (start qx_files) = (Done tt, s2) /\
  length (s_printed s1) = 1%nat /\ s_printed s2 = s_printed s1 /\ s_files s1 = [(tx "out/report.json", text)] /\ (100 <= length text)%nat /\ s_files s2 = [(tx "out/report.json", [])].
Proof. do 3 eexists. split; [split; reflexivity|]. split; [vm_compute; reflexivity|]. split; [vm_compute; reflexivity|]. split; [reflexivity|]. split; [reflexivity|]. split; [reflexivity|]. split; [apply Nat.leb_le; vm_compute; reflexivity|vm_compute; reflexivity]. Qed.
Example c136_terminal_example : output (jx_cmd px_args) (tx "out/report.json") /\ with_terminal (Some true) (jx_cmd px_args) <> jx_cmd px_args.
Proof. split; [split; [reflexivity|discriminate]|]. intros E. vm_compute in E. discriminate E. Qed.
