(** * Property C131: the messages of a command; a killed command *)
From Coq Require Import Ascii String List ZArith Bool Lia.
From Verif Require Import Base MemMap Filter Pipeline PyStr MapFile Deps Table Formats Main SpecMain ElfRead Project Command Chips SpecProject FixMap FixMain FixProject PropProject PropCommand PropReport SpecNotes ProofNotes.
Import ListNotations.
Open Scope list_scope.
Open Scope Z_scope.

(** C131: a command that succeeds gives exactly these messages *)
Theorem c131_messages : forall d chips render encode ord pf c o files s,
  run_files d chips render encode ord pf c o (start files) = (Done tt, s) ->
  let a := c_args c in let ls := load_symbols a in let ud := dwarf_option a in
  exists cur ref, get_files d chips (c_input c) ls ud = Ok cur /\
    match reference a with Some fn => exists r, ref = Some r /\ get_files d chips fn ls ud = Ok r | None => ref = None end /\
    messages a cur ref (s_notes s).
Proof. exact run_messages. Qed.
Print Assumptions c131_messages.

(** a process that is killed does nothing more, and is not taken for one that ended by itself *)
Theorem c131_killed : forall render encode ord pf projects c o s r s', run_cmd render encode ord pf projects c o s = (r, s') ->
  (r = Killed -> killed_last o s') /\
  (forall n k, (s_tick s <= n < s_tick s')%nat -> o n = Some (FKill, k) -> r = Killed /\ s_tick s' = S n).
Proof. exact run_killed. Qed.
Print Assumptions c131_killed.

(** ** examples: the summary, archives and JSON compared with a reference for another chip; dependencies *)
Local Notation tx := (fun s => list_ascii_of_string s%string).
Definition nx_disk : disk :=
  {| d_cwd := d_cwd rx_disk; d_text := d_text rx_disk; d_isfile := d_isfile rx_disk; d_bytes := d_bytes rx_disk;
     d_json := fun fn => match d_json rx_disk fn with
       | Some (JObj o) => if fn =?= in_dir dir2 (tx "project_description.json") then Some (JObj (dset (tx "target") (JStr (tx "esp32s3")) o)) else Some (JObj o)
       | j => j
       end |}.
Definition nx_args (f : format) (archives deps unify no_abbrev : bool) : args :=
  Args f archives deps false false None false (Some (in_dir dir2 (tx "app.map"))) no_abbrev true unify false false false (Some false) None (tx "1") None true true.
Definition nx_run (a : args) := run_files nx_disk (get_memory_types chip_info) mx_render mx_encode mx_order mx_pct (px_cmd a) no_faults (start []).
Example c131_example :
  let maps := (in_dir dir1 (tx "app.map"), in_dir dir2 (tx "app.map")) in
  let other := WarnTarget (tx "esp32") (tx "esp32s3") in
  let compared := DiffInfo (fst maps) (snd maps) in
  (exists s, nx_run (nx_args FTable false false true true) = (Done tt, s) /\ s_notes s = [WarnNoAbbrev; other; compared; ImageInfo 0 0; SizeNote]) /\
  (exists s, nx_run (nx_args FText true false false false) = (Done tt, s) /\ s_notes s = [other; compared]) /\
  (exists s, nx_run (nx_args FJson2 false false false false) = (Done tt, s) /\ s_notes s = [other]) /\
  (exists s, nx_run (nx_args FTable false true false false) = (Done tt, s) /\ s_notes s = [WarnDiff]).
Proof. cbv zeta. repeat split; eexists; (split; [vm_compute; reflexivity|vm_compute; reflexivity]). Qed.
Example c131_example_killed : exists s', mx_run (mx_cmd (mx_args FTable None None false false false false None)) (mx_fault 5 FKill 0) mx_start = (Killed, s') /\ s_tick s' = 6%nat.
Proof. eexists. split; [vm_compute; reflexivity|reflexivity]. Qed.
