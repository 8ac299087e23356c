(** * Properties C37, C66, C67, C68: the command *)
From Coq Require Import Ascii String List ZArith Lia Bool.
From Verif Require Import Base MemMap SpecTree SpecOps SpecTable Filter Pipeline PyStr MapFile Deps Table Formats Main SpecMain
  ProofMain ProofMain2 ProofMain3 ProofMain4 ProofMain5 ProofMain6 FixPipe FixMain.
Import ListNotations.
Open Scope list_scope.
Open Scope Z_scope.

(** ** C66 *)

(** for every point at which a step may raise or the process may be killed: either no file and
    no directory is touched, or --output-file is used, the report is complete (the same
    command without --output-file succeeds) and only the output file is changed, to a part
    of the report *)
Theorem c66_files : forall render encode ord pf projects c o s r s',
  run_cmd render encode ord pf projects c o s = (r, s') ->
  (s_files s' = s_files s /\ s_dirs s' = s_dirs s) \/
  exists fn s1, output c fn /\ run_cmd render encode ord pf projects (to_stdout c) no_faults s = (Done tt, s1) /\
    (s_files s' = s_files s \/
     exists k, s_files s' = dset fn (firstn k (encode (render (file_console c) (s_printed s1)))) (s_files s)).
Proof. exact run_files. Qed.
Print Assumptions c66_files.

Theorem c66_failing_report : forall render encode ord pf projects c o s r s',
  run_cmd render encode ord pf projects c o s = (r, s') ->
  (forall s1, run_cmd render encode ord pf projects (to_stdout c) no_faults s <> (Done tt, s1)) ->
  s_files s' = s_files s /\ s_dirs s' = s_dirs s.
Proof.
  intros render encode ord pf projects c o s r s' E N. destruct (run_files _ _ _ _ _ _ _ _ _ _ E) as [H|(fn & s1 & _ & F & _)]; [exact H|].
  destruct (N s1 F).
Qed.
Print Assumptions c66_failing_report.

Theorem c66_success : forall render encode ord pf projects c fn o s s',
  output c fn -> run_cmd render encode ord pf projects c o s = (Done tt, s') ->
  exists s1, run_cmd render encode ord pf projects (to_stdout c) no_faults s = (Done tt, s1) /\
    s_files s' = dset fn (encode (render (file_console c) (s_printed s1))) (s_files s).
Proof. exact run_success. Qed.
Print Assumptions c66_success.

Theorem c66_no_output_file : forall render encode ord pf projects c o s r s',
  (forall fn, ~ output c fn) -> run_cmd render encode ord pf projects c o s = (r, s') ->
  s_files s' = s_files s /\ s_dirs s' = s_dirs s.
Proof.
  intros render encode ord pf projects c o s r s' N E. destruct (run_files _ _ _ _ _ _ _ _ _ _ E) as [H|(fn & s1 & F & _)]; [exact H|].
  destruct (N fn F).
Qed.
Print Assumptions c66_no_output_file.

Definition mx_out : cmd := mx_cmd (mx_args FTable None None false false false false (Some (mx "out.txt"))).
Example c66_example : output mx_out (mx "out.txt") /\
  (exists s', mx_run mx_out no_faults mx_start = (Done tt, s') /\
     s_files s' = [(mx "out.txt", mx "report 1"); (mx "other", mx "data")]) /\
  (exists s', mx_run mx_out (mx_fault 3 (FRaise KeyboardInterrupt) 0) mx_start = (Raised SystemExit, s') /\ s_files s' = s_files mx_start) /\
  (exists s', mx_run mx_out (mx_fault 5 FKill 0) mx_start = (Killed, s') /\ s_files s' = s_files mx_start).
Proof.
  split; [split; [reflexivity|discriminate]|]. split; [|split]; eexists; (split; [vm_compute; reflexivity|vm_compute; reflexivity]).
Qed.

Definition mx_bad : cmd := mx_cmd (mx_args FTable (Some (mx "libnone.a")) None false false false false (Some (mx "out.txt"))).
Example c66_failing_example : (forall s1, mx_run (to_stdout mx_bad) no_faults mx_start <> (Done tt, s1)) /\
  exists s', mx_run mx_bad no_faults mx_start = (Raised SystemExit, s') /\ s_notes s' = [Died].
Proof. split; [intros s1; vm_compute; discriminate|]. eexists. split; [vm_compute; reflexivity|]. vm_compute. reflexivity. Qed.

(** the directories on the way to the output file exist after a successful run; no run makes
    any other directory *)
Theorem c66_directories : forall render encode ord pf projects c fn o s r s',
  output c fn -> run_cmd render encode ord pf projects c o s = (r, s') ->
  (forall d, In d (s_dirs s) -> In d (s_dirs s')) /\ (forall d, In d (s_dirs s') -> In d (s_dirs s) \/ on_the_way d fn) /\
  (r = Done tt -> forall d, on_the_way d fn -> In d (s_dirs s')).
Proof. exact run_dirs. Qed.
Print Assumptions c66_directories.

(** Ctrl-C at whichever step of a run that would otherwise succeed ends it with the exit of
    the process, not with an exception *)
Theorem c66_interrupted : forall render encode ord pf projects c n k s s1,
  run_cmd render encode ord pf projects c no_faults s = (Done tt, s1) -> (s_tick s <= n < s_tick s1)%nat ->
  exists s', run_cmd render encode ord pf projects c (interrupt_at n k) s = (Raised SystemExit, s').
Proof. exact interrupted. Qed.
Print Assumptions c66_interrupted.

Definition mx_deep : cmd := mx_cmd (mx_args FTable None None false false false false (Some (mx "/a/b/out.txt"))).
Example c66_directories_example : output mx_deep (mx "/a/b/out.txt") /\ on_the_way (mx "/a/b") (mx "/a/b/out.txt") /\
  exists s1, mx_run mx_deep no_faults mx_start = (Done tt, s1) /\ s_dirs s1 = [mx "/a"; mx "/a/b"] /\ (s_tick mx_start <= 7 < s_tick s1)%nat /\
  exists s2, mx_run mx_deep (interrupt_at 7 0) mx_start = (Raised SystemExit, s2) /\ s_files s2 = s_files mx_start.
Proof.
  split; [split; [reflexivity|discriminate]|]. split; [split; [discriminate|now exists (mx "out.txt")]|]. eexists. split; [vm_compute; reflexivity|]. split; [vm_compute; reflexivity|].
  split; [vm_compute; split; repeat constructor|]. eexists. split; [vm_compute; reflexivity|vm_compute; reflexivity].
Qed.

(** ** C67: replacing the file is not atomic *)

(** a kill, or an error like a full disk, while the file is written leaves a part of the report *)
Theorem c67_atomic_refuted : exists render encode ord pf projects c fn s,
  output c fn /\
  exists s1 old, run_cmd render encode ord pf projects c no_faults s = (Done tt, s1) /\ dget fn (s_files s) = Some old /\
  (exists o s', run_cmd render encode ord pf projects c o s = (Killed, s') /\
     dget fn (s_files s') <> Some old /\ dget fn (s_files s') <> dget fn (s_files s1)) /\
  (exists o s', run_cmd render encode ord pf projects c o s = (Raised SystemExit, s') /\
     dget fn (s_files s') <> Some old /\ dget fn (s_files s') <> dget fn (s_files s1)).
Proof.
  exists mx_render, mx_encode, mx_order, mx_pct, mx_projects, mx_out, (mx "out.txt"), mx_start.
  split; [split; [reflexivity|discriminate]|]. eexists. exists (mx "previous"). split; [vm_compute; reflexivity|]. split; [reflexivity|].
  split.
  - exists (mx_fault 8 FKill 3). eexists. split; [vm_compute; reflexivity|]. split; vm_compute; discriminate.
  - exists (mx_fault 8 (FRaise OSError) 3). eexists. split; [vm_compute; reflexivity|]. split; vm_compute; discriminate.
Qed.
Print Assumptions c67_atomic_refuted.

(** what is guaranteed: the previous content or a part of the new report, from its beginning;
    every other file is as before.  Missing: that it is not a proper part. *)
Theorem c67_prefix_partial : forall render encode ord pf projects c fn o s r s',
  output c fn -> run_cmd render encode ord pf projects c o s = (r, s') ->
  (forall other, other <> fn -> dget other (s_files s') = dget other (s_files s)) /\
  (dget fn (s_files s') = dget fn (s_files s) \/
   exists s1 k, run_cmd render encode ord pf projects (to_stdout c) no_faults s = (Done tt, s1) /\
     dget fn (s_files s') = Some (firstn k (encode (render (file_console c) (s_printed s1))))).
Proof. exact prefix_written. Qed.
Print Assumptions c67_prefix_partial.

(** ** C68 *)

(** the run with conflicting options is that with the ignored options left out, plus warnings *)
Theorem c68_conflicts : forall render encode ord pf projects c s r s1,
  run_cmd render encode ord pf projects c no_faults s = (r, s1) ->
  exists s2 l, run_cmd render encode ord pf projects (with_args c (without_conflicts (c_args c))) no_faults s = (r, s2) /\
    s_files s2 = s_files s1 /\ s_dirs s2 = s_dirs s1 /\ s_console s2 = s_console s1 /\ s_printed s2 = s_printed s1 /\
    s_notes s1 = s_notes s ++ conflict_warnings (c_args c) ++ l /\ s_notes s2 = s_notes s ++ l.
Proof. exact conflicts_dropped. Qed.
Print Assumptions c68_conflicts.

(** without symbols the report is the same unless it shows symbols *)
Theorem c68_symbols_not_needed : forall render encode ord pf projects ls c s s1,
  shows_symbols (c_args c) = false ->
  run_with render encode ls ord pf projects c no_faults s = (Done tt, s1) ->
  run_cmd render encode ord pf projects c no_faults s = (Done tt, s1).
Proof. exact symbols_irrelevant. Qed.
Print Assumptions c68_symbols_not_needed.

(** symbols are loaded for --archive-details and for the raw format ... *)
Theorem c68_symbols_loaded : forall render encode ord pf projects c o s,
  given (a_archive_details (c_args c)) = true \/ a_format (c_args c) = FRaw ->
  run_cmd render encode ord pf projects c o s = run_with render encode (fun _ => true) ord pf projects c o s.
Proof. exact symbols_loaded. Qed.
Print Assumptions c68_symbols_loaded.

(** ... but not for the tree, which has a level of symbols *)
Theorem c68_tree_symbols_refuted : exists render encode ord pf projects c s s1 s2,
  a_format (c_args c) = FTree /\ shows_symbols (c_args c) = true /\
  run_cmd render encode ord pf projects c no_faults s = (Done tt, s1) /\
  run_with render encode (fun _ => true) ord pf projects c no_faults s = (Done tt, s2) /\
  s_printed s1 <> s_printed s2.
Proof.
  exists mx_render, mx_encode, mx_order, mx_pct, mx_projects, (mx_cmd (mx_args FTree None None false false false false None)), mx_start.
  eexists _, _. split; [reflexivity|]. split; [reflexivity|]. split; [vm_compute; reflexivity|]. split; [vm_compute; reflexivity|].
  vm_compute. discriminate.
Qed.
Print Assumptions c68_tree_symbols_refuted.

(** --lto without a detailed report is --no-lto *)
Theorem c68_lto : forall render encode ord pf projects c o s, a_use_dwarf (c_args c) = Some true ->
  given (a_archive_details (c_args c)) = false -> a_archives (c_args c) = false -> a_files (c_args c) = false -> a_format (c_args c) <> FRaw ->
  run_cmd render encode ord pf projects c o s =
  run_cmd render encode ord pf projects (with_args c (set_use_dwarf (Some false) (c_args c))) o s.
Proof. exact lto_ignored. Qed.
Print Assumptions c68_lto.

Definition mx_conflict : cmd := mx_cmd (mx_args FJson2 None (Some (mx "ref.map")) true true true false None).
Example c68_example : conflict_warnings (c_args mx_conflict) = [WarnNoAbbrev; WarnDiff] /\ without_conflicts (c_args mx_conflict) <> c_args mx_conflict.
Proof. split; [reflexivity|discriminate]. Qed.
Example c68_conflict_run_example :
  let c := mx_cmd (mx_args FTable None (Some (mx "app.map")) true true false false None) in
  exists s1, mx_run c no_faults mx_start = (Done tt, s1) /\ hd_error (s_notes s1) = Some WarnNoAbbrev /\ s_printed s1 <> [] /\
  shows_symbols (c_args c) = false.
Proof. eexists. split; [vm_compute; reflexivity|]. split; [vm_compute; reflexivity|]. split; [vm_compute; discriminate|reflexivity]. Qed.

(** ** C37 *)

(** --diff with the project itself: no difference is shown, except (in the raw format) by the
    sizes of flash memory types without --use-flash-size *)
Theorem c37_same_project_partial : forall render encode ord pf projects c o s s1,
  a_diff (c_args c) = Some (c_input c) -> c_input c <> [] -> a_archive_dependencies (c_args c) = false ->
  run_cmd render encode ord pf projects c o s = (Done tt, s1) ->
  exists ps ns skip, s_printed s1 = s_printed s ++ ps /\ s_notes s1 = s_notes s ++ ns /\
    (forall t, skip t = true <-> a_use_flash_size (c_args c) = false /\ flash_name t) /\
    zero_report pf skip ps /\ Forall zero_note ns.
Proof. exact self_diff_shown. Qed.
Print Assumptions c37_same_project_partial.

(** the raw format shows minus the size of the flash memory *)
Theorem c37_same_project_refuted : exists render encode ord pf projects c s s1 m t T,
  a_diff (c_args c) = Some (c_input c) /\ c_input c <> [] /\ a_archive_dependencies (c_args c) = false /\ a_format (c_args c) = FRaw /\
  run_cmd render encode ord pf projects c no_faults s = (Done tt, s1) /\
  s_printed s1 = s_printed s ++ [PRaw m] /\ dget t (m_types m) = Some T /\ t_size_diff T < 0 /\ t_size T = 0.
Proof.
  exists mx_render, mx_encode, mx_order, mx_pct, mx_projects, (mx_cmd (mx_args FRaw None (Some (mx "app.map")) false false false true None)), mx_start.
  eexists _, _, (mx "Flash Code"), _. split; [reflexivity|]. split; [discriminate|]. split; [reflexivity|]. split; [reflexivity|].
  split; [vm_compute; reflexivity|]. split; [reflexivity|]. split; [vm_compute; reflexivity|]. split; [vm_compute; reflexivity|reflexivity].
Qed.
Print Assumptions c37_same_project_refuted.

Example c37_example :
  let c := mx_cmd (mx_args FTable None (Some (mx "app.map")) false false false true None) in
  a_diff (c_args c) = Some (c_input c) /\ c_input c <> [] /\
  exists s1 t, mx_run c no_faults mx_start = (Done tt, s1) /\ s_printed s1 = [PTable t] /\ (3 <= List.length (tb_rows t))%nat.
Proof.
  split; [reflexivity|]. split; [discriminate|]. eexists _, _. split; [vm_compute; reflexivity|]. split; [reflexivity|]. vm_compute. lia.
Qed.
