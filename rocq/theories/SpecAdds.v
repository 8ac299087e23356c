(** * Specification vocabulary: reports that add up *)
From Coq Require Import Ascii String List ZArith Bool.
From Verif Require Import Base MemMap Filter Pipeline Deps Table SpecTable Formats Main SpecMain SpecReport.
Import ListNotations.
Open Scope list_scope.
Open Scope Z_scope.

(** the command with --files or --archives in place of the report it asks for *)
Definition report_on (files : bool) (c : cmd) : cmd :=
  let a := c_args c in
  with_args c (Args (a_format a) (negb files) (a_archive_dependencies a) (a_dep_symbols a) (a_dep_reverse a) None files
    (a_diff a) (a_no_abbrev a) (a_abbrev a) (a_unify a) (a_show_unused a) (a_show_unchanged a) (a_use_flash_size a) (a_use_dwarf a)
    (a_output_file a) (a_sort a) (a_filter a) (a_sort_diff a) (a_sort_reverse a)).
(** nothing is left out because it is the same in the reference *)
Definition shows_all (a : args) : Prop := given (a_diff a) = false \/ a_show_unchanged a = true.
(** a row of the object file report is about a file of this archive *)
Definition file_of (x n : str) : Prop := exists o, n = x ++ ":"%char :: o /\ ~ In ":"%char o.
(** the figures of an archive are the sums of those of its object files *)
Definition adds_up (a : args) (archives files : dict str sentry) : Prop :=
  forall x part, (forall n, part n = true <-> file_of x n) ->
    let rows := filter (fun kv => part (fst kv)) files in
    (** the difference of all bytes *)
    (forall e, In (x, e) archives -> se_diff e = zsumf (fun kv => se_diff (snd kv)) rows) /\
    (~ In x (map fst archives) -> zsumf (fun kv => se_diff (snd kv)) rows = 0) /\
    (** every figure *)
    (shows_all a ->
       (forall e c, In (x, e) archives -> col_value e c = (zsumf (fun kv => fst (col_value (snd kv) c)) rows, zsumf (fun kv => snd (col_value (snd kv) c)) rows)) /\
       (In x (map fst archives) <-> rows <> [])).
(** what one would want: also without --show-unchanged, the differences in each memory type and
    section *)
Definition differences_add_up (archives files : dict str sentry) : Prop :=
  forall x part e c, (forall n, part n = true <-> file_of x n) -> In (x, e) archives ->
    snd (col_value e c) = zsumf (fun kv => snd (col_value (snd kv) c)) (filter (fun kv => part (fst kv)) files).
