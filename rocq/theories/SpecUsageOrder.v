(** * Specification vocabulary: two summaries that differ in the order only *)
From Coq Require Import Ascii String List ZArith Bool Permutation.
From Verif Require Import Base MemMap SpecTree SpecOps Filter Pipeline Deps Table SpecTable Formats Main SpecMain SpecCommand SpecReport.
Import ListNotations.
Open Scope list_scope.
Open Scope Z_scope.

(** the same memory types in some order, each with the same used bytes, size and sections, the
    latter in some order; the difference of a size that is not shown is left out *)
Definition usage_order (gs gs' : list pgroup) : Prop :=
  Permutation (map pg_type gs) (map pg_type gs') /\
  forall g g', In g gs -> In g' gs' -> pg_type g' = pg_type g ->
    pg_used g' = pg_used g /\ fst (pg_total g') = fst (pg_total g) /\ (fst (pg_total g) <> 0 -> pg_total g' = pg_total g) /\
    Permutation (pg_sections g) (pg_sections g').
