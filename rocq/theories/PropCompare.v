(** * Property C146: a comparison is the difference of the two reports *)
From Coq Require Import Ascii String List ZArith Lia Bool.
From Verif Require Import Base MemMap SpecTree SpecOps Filter SpecFilter Pipeline SpecPipe SpecBuild SpecBytes SpecShape SpecSyms PyStr MapFile SpecMap FixMap
  ElfRead SpecElf FixElf Project SpecProject FixProject ProofProject2 SpecEnd Chips SpecChips ProofChips Deps Table SpecTable Formats Main SpecMain FixMain Command SpecCommand SpecFail SpecReport SpecSymbols SpecAdds SpecSteps SpecCompare
  PropProject PropEnd PropCommand PropFail PropReport PropSymbols PropAdds PropSteps ProofCompare2.
Import ListNotations.
Open Scope list_scope.
Open Scope Z_scope.

Local Notation tx := (fun s => list_ascii_of_string s%string).

(** C146: the reports on archives or object files, as JSON.  What the comparison of two projects
    says is what one gets by subtracting the report of the one from that of the other *)
Theorem c146_entries : forall d c files render encode ord pf,
  asked files (c_args c) -> (given (a_archive_details (c_args c)) = true -> a_use_dwarf (c_args c) <> Some true) -> a_format (c_args c) = FJson2 ->
  forall x y k r o o' o2 fs fs' fs2 s s' s2, reported d (comparing c x y) k (Some r) -> tells_files files k (Some r) ->
  run_files d (get_memory_types chip_info) render encode ord pf (reporting c x) o (start fs) = (Done tt, s) ->
  run_files d (get_memory_types chip_info) render encode ord pf (reporting c y) o' (start fs') = (Done tt, s') ->
  run_files d (get_memory_types chip_info) render encode ord pf (comparing c x y) o2 (start fs2) = (Done tt, s2) ->
  exists new old both, s_printed s = [PEntries new] /\ s_printed s' = [PEntries old] /\ s_printed s2 = [PEntries both] /\ compares (c_args c) new old both.
Proof. exact compared_runs. Qed.
Print Assumptions c146_entries.

(** The same of the report on the symbols of the archive [x] *)
Theorem c146_symbols : forall d c x render encode ord pf,
  asked_symbols (c_args c) x -> a_format (c_args c) = FJson2 ->
  forall y z q r o o' o2 fs fs' fs2 s s' s2, symbols_reported d (comparing c y z) q (Some r) -> tells_symbols q (Some r) ->
  run_files d (get_memory_types chip_info) render encode ord pf (reporting c y) o (start fs) = (Done tt, s) ->
  run_files d (get_memory_types chip_info) render encode ord pf (reporting c z) o' (start fs') = (Done tt, s') ->
  run_files d (get_memory_types chip_info) render encode ord pf (comparing c y z) o2 (start fs2) = (Done tt, s2) ->
  exists new old both, s_printed s = [PEntries new] /\ s_printed s' = [PEntries old] /\ s_printed s2 = [PEntries both] /\ compares (c_args c) new old both.
Proof. exact scompared_runs. Qed.
Print Assumptions c146_symbols.

(** What C140 says of archives and object files holds of symbols: exchanging the project and its
    reference gives the same rows, with the opposite differences *)
Theorem c146_symbols_turned : forall d c x render encode ord pf,
  asked_symbols (c_args c) x -> a_format (c_args c) = FJson2 ->
  forall y z q r o o' fs fs' s s', symbols_reported d (comparing c y z) q (Some r) -> tells_symbols q (Some r) ->
  run_files d (get_memory_types chip_info) render encode ord pf (comparing c y z) o (start fs) = (Done tt, s) ->
  run_files d (get_memory_types chip_info) render encode ord pf (comparing c z y) o' (start fs') = (Done tt, s') ->
  exists rows rows', s_printed s = [PEntries rows] /\ s_printed s' = [PEntries rows'] /\ turned rows rows'.
Proof. exact sturned_runs. Qed.
Print Assumptions c146_symbols_turned.

(** and the differences of two comparisons in a row add up *)
Theorem c146_symbols_steps : forall d c x render encode ord pf,
  asked_symbols (c_args c) x -> a_format (c_args c) = FJson2 ->
  forall w y z q1 q2 q3 o o' o2 fs fs' fs2 s s' s2, symbols_reported d (comparing c w y) q1 (Some q2) -> symbols_reported d (comparing c y z) q2 (Some q3) ->
  tells_symbols q1 (Some q2) -> tells_symbols q2 (Some q3) ->
  run_files d (get_memory_types chip_info) render encode ord pf (comparing c w y) o (start fs) = (Done tt, s) ->
  run_files d (get_memory_types chip_info) render encode ord pf (comparing c y z) o' (start fs') = (Done tt, s') ->
  run_files d (get_memory_types chip_info) render encode ord pf (comparing c w z) o2 (start fs2) = (Done tt, s2) ->
  exists rows rows' all, s_printed s = [PEntries rows] /\ s_printed s' = [PEntries rows'] /\ s_printed s2 = [PEntries all] /\ steps (c_args c) rows rows' all.
Proof. exact sstep_runs. Qed.
Print Assumptions c146_symbols_steps.

(** ** example: the two builds of C139 *)
Definition co_run (x : str) := run_files cx_disk (get_memory_types chip_info) mx_render mx_encode mx_order mx_pct (reporting cx_cmd x) no_faults (start []).
Example c146_example : exists s1 s2 s3 r1 r2 r3,
  asked true (c_args cx_cmd) /\ reported cx_disk (comparing cx_cmd cx_new cx_old) ax_k (Some ax_r) /\ tells_files true ax_k (Some ax_r) /\
  co_run cx_new = (Done tt, s1) /\ s_printed s1 = [PEntries r1] /\
  ax_figures r1 = [ (tx "lib.a:a.o", 24, 0, [(tx ".iram0.text", 8, 0); (tx ".iram0.vectors", 16, 0)]); (tx "lib.a:b.o", 8, 0, [(tx ".iram0.text", 8, 0); (tx ".iram0.vectors", 0, 0)]) ] /\
  co_run cx_old = (Done tt, s2) /\ s_printed s2 = [PEntries r2] /\
  ax_figures r2 = [ (tx "lib.a:a.o", 24, 0, [(tx ".iram0.text", 16, 0); (tx ".iram0.vectors", 8, 0)]); (tx "lib.a:b.o", 4, 0, [(tx ".iram0.text", 4, 0); (tx ".iram0.vectors", 0, 0)]) ] /\
  cx_run cx_new cx_old = (Done tt, s3) /\ s_printed s3 = [PEntries r3] /\
  ax_figures r3 = [ (tx "lib.a:b.o", 8, 4, [(tx ".iram0.text", 8, 4); (tx ".iram0.vectors", 0, 0)]); (tx "lib.a:a.o", 24, 0, [(tx ".iram0.vectors", 16, 8); (tx ".iram0.text", 8, -8)]) ].
Proof.
  destruct (cx_projects (c_args (comparing cx_cmd cx_new cx_old)) eq_refl) as (P1 & P2 & _).
  do 6 eexists. split; [repeat split|]. split; [split; [exact P1|split; [eexists; split; [reflexivity|exact P2]|split; reflexivity]]|]. split; [apply cx_tells|].
  do 2 (split; [vm_compute; reflexivity|]; split; [reflexivity|]; split; [vm_compute; reflexivity|]). split; [vm_compute; reflexivity|]. split; [reflexivity|]. vm_compute. reflexivity.
Qed.

(** the symbols of C113; the report of the project lists app_main() with 5 bytes and helper with
    3, that of the older one with 12 bytes and one *)
Definition co_cmd : cmd :=
  px_cmd (Args FJson2 false false false false (Some (tx "libmain.a")) false None false true false false true false (Some false) None (tx "1") None true true).
Lemma co_projects a : a_use_dwarf a = Some false -> symbols_project sx_disk a (in_dir dir1 (tx "app.map")) sx_new /\ symbols_project sx_disk a (in_dir dir2 (tx "app.map")) sx_old.
Proof.
  intros U. split.
  - exists dir1, (tx "app.map"), px_text, (Some fx_entries), sx_account_new, (Some sx_new_ys). split; [reflexivity|]. split; [exact sx_built1|]. split; [left; exact U|]. split; [right; exact sx_filled1|].
    split; [|split; [exact sx_clear_new|reflexivity]]. apply (sx_symbols_of _ _ sx_new_syms); [vm_compute; reflexivity|vm_compute; reflexivity|now left].
  - exists dir2, (tx "app.map"), rx_text, None, sx_account_old, (Some sx_old_ys). split; [reflexivity|]. split; [exact sx_built2|]. split; [left; exact U|]. split; [right; exact sx_filled2|].
    split; [|split; [exact sx_clear_old|reflexivity]]. apply (sx_symbols_of _ _ sx_old_syms); [vm_compute; reflexivity|vm_compute; reflexivity|right; now left].
Qed.
Definition co_new : str := in_dir dir1 (tx "app.map").
Definition co_old : str := in_dir dir2 (tx "app.map").
Definition co_alone (x : str) := run_files sx_disk (get_memory_types chip_info) mx_render mx_encode mx_order mx_pct (reporting co_cmd x) no_faults (start []).
Definition co_both (x y : str) := run_files sx_disk (get_memory_types chip_info) mx_render mx_encode mx_order mx_pct (comparing co_cmd x y) no_faults (start []).
Definition co_brief (rows : dict str sentry) : list (str * Z * Z) := map snd (rx_brief rows).
Lemma co_turned_tells : tells_symbols sx_old (Some sx_new).
Proof. intros i [I|I]; apply sx_tells; [right|left]; exact I. Qed.
Example c146_symbols_example : exists s1 s2 s3 s4 s5 r1 r2 r3 r4 r5,
  asked_symbols (c_args co_cmd) (tx "libmain.a") /\ symbols_reported sx_disk (comparing co_cmd co_new co_old) sx_new (Some sx_old) /\ symbols_reported sx_disk (comparing co_cmd co_old co_new) sx_old (Some sx_new) /\
  tells_symbols sx_new (Some sx_old) /\ tells_symbols sx_old (Some sx_new) /\
  co_alone co_new = (Done tt, s1) /\ s_printed s1 = [PEntries r1] /\
  co_brief r1 = [(tx "app_main()", 5, 0); (tx "helper", 3, 0)] /\
  co_alone co_old = (Done tt, s2) /\ s_printed s2 = [PEntries r2] /\
  co_brief r2 = [(tx "app_main()", 12, 0); (tx "helper", 1, 0)] /\
  co_both co_new co_old = (Done tt, s3) /\ s_printed s3 = [PEntries r3] /\
  co_brief r3 = [(tx "helper", 3, 2); (tx "app_main()", 5, -7)] /\
  co_both co_old co_new = (Done tt, s4) /\ s_printed s4 = [PEntries r4] /\
  co_brief r4 = [(tx "app_main()", 12, 7); (tx "helper", 1, -2)] /\
  co_both co_new co_new = (Done tt, s5) /\ s_printed s5 = [PEntries r5] /\
  co_brief r5 = [(tx "app_main()", 5, 0); (tx "helper", 3, 0)].
Proof.
  destruct (co_projects (c_args (comparing co_cmd co_new co_old)) eq_refl) as (P1 & P2). destruct (co_projects (c_args (comparing co_cmd co_old co_new)) eq_refl) as (Q1 & Q2).
  do 10 eexists. split; [split; [reflexivity|split; [reflexivity|discriminate]]|].
  split; [split; [exact P1|split; [eexists; split; [reflexivity|exact P2]|split; reflexivity]]|]. split; [split; [exact Q2|split; [eexists; split; [reflexivity|exact Q1]|split; reflexivity]]|].
  split; [exact sx_tells|]. split; [exact co_turned_tells|].
  do 4 (split; [vm_compute; reflexivity|]; split; [reflexivity|]; split; [vm_compute; reflexivity|]). split; [vm_compute; reflexivity|]. split; [reflexivity|]. vm_compute. reflexivity.
Qed.
