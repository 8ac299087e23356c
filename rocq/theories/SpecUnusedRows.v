(** * Specification vocabulary: a report with and without unused memory types *)
From Coq Require Import Ascii String List ZArith Bool.
From Verif Require Import Base MemMap SpecTree SpecOps Filter Pipeline Deps Table SpecTable Formats Main SpecMain SpecCommand SpecReport SpecForm.
Import ListNotations.
Open Scope list_scope.
Open Scope Z_scope.

(** the second report has the same rows, in each of them all figures of the first one, and every
    figure is the same; what it has in addition are figures of memory types, which are 0, and no
    sections *)
Definition adds_types (rows rows' : dict str sentry) : Prop :=
  (forall n, In n (map fst rows') <-> In n (map fst rows)) /\
  forall n e e', In (n, e) rows -> In (n, e') rows' ->
    (forall c, col_value e' c = col_value e c) /\ (forall c, has_col e c -> has_col e' c) /\
    forall c, has_col e' c -> ~ has_col e c -> (exists T, c = ColType T) /\ col_value e' c = (0, 0).
