(** * Specification vocabulary: comparisons with and without what has not changed *)
From Coq Require Import Ascii String List ZArith Bool Permutation.
From Verif Require Import Base MemMap SpecTree SpecOps Filter Pipeline Deps Table SpecTable Formats Main SpecMain SpecCommand SpecReport SpecForm.
Import ListNotations.
Open Scope list_scope.
Open Scope Z_scope.

(** the command with or without --show-unchanged *)
Definition with_unchanged (c : cmd) (all : bool) : cmd :=
  let a := c_args c in
  Cmd (Args (a_format a) (a_archives a) (a_archive_dependencies a) (a_dep_symbols a) (a_dep_reverse a) (a_archive_details a) (a_files a)
    (a_diff a) (a_no_abbrev a) (a_abbrev a) (a_unify a) (a_show_unused a) all (a_use_flash_size a) (a_use_dwarf a)
    (a_output_file a) (a_sort a) (a_filter a) (a_sort_diff a) (a_sort_reverse a)) (c_input c) (c_quiet c) (c_no_color c) (c_force_terminal c).
(** of all rows, the report has exactly those whose totals differ, with all their columns and
    the same figures *)
Definition rows_changed (rows all : dict str sentry) : Prop :=
  (forall n, In n (map fst rows) <-> exists e, In (n, e) all /\ se_diff e <> 0) /\
  forall n e e', In (n, e) rows -> In (n, e') all -> (forall c, has_col e c <-> has_col e' c) /\ forall c, col_value e c = col_value e' c.
(** of all memory types, the summary has exactly those whose used bytes differ, and in each
    exactly the sections whose bytes differ; the figures are the same *)
Definition usage_changed (gs all : list pgroup) : Prop :=
  (forall T, In T (map pg_type gs) <-> exists g, In g all /\ pg_type g = T /\ snd (pg_used g) <> 0) /\
  forall g g', In g gs -> In g' all -> pg_type g = pg_type g' ->
    pg_used g = pg_used g' /\ fst (pg_total g) = fst (pg_total g') /\ (fst (pg_total g) <> 0 -> pg_total g = pg_total g') /\
    forall x, In x (pg_sections g) <-> In x (pg_sections g') /\ snd (snd x) <> 0.
