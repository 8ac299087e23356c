(** * Specification vocabulary: --lto, --no-lto and the setting of the project *)
From Coq Require Import Ascii String List Bool.
From Verif Require Import Base MemMap PyStr Project SpecProject Main SpecMain Command SpecEnd SpecLto2.
Import ListNotations.
Open Scope list_scope.

(** the command with --lto ([Some true]), --no-lto ([Some false]) or neither *)
Definition with_lto (u : option bool) (c : cmd) : cmd :=
  Cmd (Args (a_format (c_args c)) (a_archives (c_args c)) (a_archive_dependencies (c_args c)) (a_dep_symbols (c_args c)) (a_dep_reverse (c_args c))
         (a_archive_details (c_args c)) (a_files (c_args c)) (a_diff (c_args c)) (a_no_abbrev (c_args c)) (a_abbrev (c_args c)) (a_unify (c_args c))
         (a_show_unused (c_args c)) (a_show_unchanged (c_args c)) (a_use_flash_size (c_args c)) u (a_output_file (c_args c)) (a_sort (c_args c))
         (a_filter (c_args c)) (a_sort_diff (c_args c)) (a_sort_reverse (c_args c)))
    (c_input c) (c_quiet c) (c_no_color c) (c_force_terminal c).

(** the projects of a command *)
Definition project_of (c : cmd) (fn : str) : Prop := fn = c_input c \/ a_diff (c_args c) = Some fn.
(** the configuration of a project says that link time optimisation is on, or that it is not *)
Definition configured (d : disk) (b : bool) (fn : str) : Prop :=
  exists dir name, directory dir /\ proper name /\ fn = in_dir dir name /\ if b then with_dwarf d dir None else no_dwarf d dir None.
Definition all_configured (d : disk) (b : bool) (c : cmd) : Prop := forall fn, project_of c fn -> fn <> [] -> configured d b fn.

(** reports with archives, object files or symbols (main.py:115: "We need DWARF only for
    detailed outputs like archives") *)
Definition detailed (a : args) : Prop := given (a_archive_details a) = true \/ a_archives a = true \/ a_files a = true \/ a_format a = FRaw.
(** the summary of memory types *)
Definition summary_asked (a : args) : Prop :=
  given (a_archive_details a) = false /\ a_archives a = false /\ a_files a = false /\ a_archive_dependencies a = false /\
  (a_format a = FTable \/ a_format a = FText \/ a_format a = FCsv \/ a_format a = FJson2).

(** what is wanted of a summary: it is the same with and without --lto *)
Definition summary_without_debugging (size : cmd -> prog unit) : Prop :=
  forall c o s s1 s2, summary_asked (c_args c) -> size (with_lto None c) o s = (Done tt, s1) -> size (with_lto (Some true) c) o s = (Done tt, s2) -> s_printed s1 = s_printed s2.
(** and: the summary needs no debugging information *)
Definition summary_whatever_debugging (size : cmd -> prog unit) : Prop :=
  forall c o s s2, summary_asked (c_args c) -> size (with_lto (Some true) c) o s = (Done tt, s2) -> exists s1, size (with_lto None c) o s = (Done tt, s1).
(** what is wanted of --lto: it changes nothing if all projects are configured with it *)
Definition lto_as_configured (d : disk) (size : cmd -> prog unit) : Prop :=
  forall c o s, all_configured d true c -> c_input c <> [] -> size (with_lto (Some true) c) o s = size (with_lto None c) o s.
