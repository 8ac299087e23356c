(** * Specification vocabulary: a comparison and the reports of the two projects *)
From Coq Require Import Ascii String List ZArith Bool.
From Verif Require Import Base MemMap Filter Pipeline Deps Table SpecTable Formats Main SpecMain SpecReport SpecAdds SpecSteps.
Import ListNotations.
Open Scope list_scope.
Open Scope Z_scope.

(** the command for another map file, without --diff *)
Definition reporting (c : cmd) (x : str) : cmd :=
  let a := c_args c in
  Cmd (Args (a_format a) (a_archives a) (a_archive_dependencies a) (a_dep_symbols a) (a_dep_reverse a) (a_archive_details a) (a_files a)
    None (a_no_abbrev a) (a_abbrev a) (a_unify a) (a_show_unused a) (a_show_unchanged a) (a_use_flash_size a) (a_use_dwarf a)
    (a_output_file a) (a_sort a) (a_filter a) (a_sort_diff a) (a_sort_reverse a)) x (c_quiet c) (c_no_color c) (c_force_terminal c).
(** [both] is what one gets from the two reports by subtracting them row by row and figure by
    figure: a row is there if it is in one of them and its totals differ (or all rows are asked
    for), and each figure is that of the project with its difference to that of the reference *)
Definition compares (a : args) (new old both : dict str sentry) : Prop :=
  (forall n, In n (map fst both) <-> (In n (map fst new) \/ In n (map fst old)) /\
     (a_show_unchanged a = true \/ forall v w, figure new n ColTotal v -> figure old n ColTotal w -> fst v <> fst w)) /\
  forall n e c v w, In (n, e) both -> figure new n c v -> figure old n c w -> col_value e c = (fst v, fst v - fst w).
