(** * Specification vocabulary: two reports that differ in the order only *)
From Coq Require Import Ascii String List ZArith Bool Permutation.
From Verif Require Import Base MemMap SpecTree SpecOps Filter Pipeline Deps Table SpecTable Formats Main SpecMain SpecCommand SpecReport SpecForm.
Import ListNotations.
Open Scope list_scope.
Open Scope Z_scope.

(** the same rows in some order; each with the same short name, the same memory types and
    sections in some order, and the same figures *)
Definition order_only (rows rows' : dict str sentry) : Prop :=
  Permutation (map fst rows) (map fst rows') /\
  forall n e e', In (n, e) rows -> In (n, e') rows' ->
    se_abbrev e' = se_abbrev e /\ (forall c, has_col e' c <-> has_col e c) /\ (forall c, col_value e' c = col_value e c) /\
    Permutation (map fst (se_types e)) (map fst (se_types e')).
