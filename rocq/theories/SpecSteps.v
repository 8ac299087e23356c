(** * Specification vocabulary: comparing projects with each other *)
From Coq Require Import Ascii String List ZArith Bool.
From Verif Require Import Base MemMap Filter Pipeline Deps Table SpecTable Formats Main SpecMain SpecReport SpecAdds.
Import ListNotations.
Open Scope list_scope.
Open Scope Z_scope.

(** the command with another map file and with --diff *)
Definition comparing (c : cmd) (x y : str) : cmd :=
  let a := c_args c in
  Cmd (Args (a_format a) (a_archives a) (a_archive_dependencies a) (a_dep_symbols a) (a_dep_reverse a) (a_archive_details a) (a_files a)
    (Some y) (a_no_abbrev a) (a_abbrev a) (a_unify a) (a_show_unused a) (a_show_unchanged a) (a_use_flash_size a) (a_use_dwarf a)
    (a_output_file a) (a_sort a) (a_filter a) (a_sort_diff a) (a_sort_reverse a)) x (c_quiet c) (c_no_color c) (c_force_terminal c).
(** the figures of a report in a row; nothing if there is no such row *)
Definition figure (rows : dict str sentry) (n : str) (c : col) (v : Z * Z) : Prop :=
  (exists e, In (n, e) rows /\ v = col_value e c) \/ (~ In n (map fst rows) /\ v = (0, 0)).
(** what is compared the other way around: the same rows, with what the reference has and the
    opposite differences *)
Definition turned (rows rows' : dict str sentry) : Prop :=
  (forall n, In n (map fst rows) <-> In n (map fst rows')) /\
  forall n c v v', figure rows n c v -> figure rows' n c v' -> v' = (fst v - snd v, - snd v).
(** the differences of two comparisons are those of the comparison of the first with the last:
    of all bytes, and of the bytes of each memory type and section if nothing is left out *)
Definition steps (a : args) (rows rows' all : dict str sentry) : Prop :=
  forall n c v v' w, c = ColTotal \/ a_show_unchanged a = true ->
    figure rows n c v -> figure rows' n c v' -> figure all n c w ->
    snd w = snd v + snd v' /\ (a_show_unchanged a = true -> fst w = fst v).
