(** * Specification vocabulary: the sizes of memory types in several comparisons *)
From Coq Require Import Ascii String List ZArith Bool.
From Verif Require Import Base MemMap Filter Pipeline Deps Table Formats Main SpecReport.
Import ListNotations.
Open Scope list_scope.
Open Scope Z_scope.

(** the difference of a size is that to the reference: the size is not 0, or --use-flash-size is given *)
Definition size_known (a : args) (g : pgroup) : Prop := fst (pg_total g) <> 0 \/ a_use_flash_size a = true.
(** exchanging the project and its reference: the size in the reference, and the opposite difference *)
Definition turned_sizes (a : args) (gs gs' : list pgroup) : Prop :=
  forall g g', In g gs -> In g' gs' -> pg_type g' = pg_type g -> size_known a g ->
    fst (pg_total g') = fst (pg_total g) - snd (pg_total g) /\ (size_known a g' -> snd (pg_total g') = - snd (pg_total g)).
(** two comparisons in a row: the second starts with the size the first ends with, and the
    differences add up *)
Definition steps_sizes (a : args) (gs gs' all : list pgroup) : Prop :=
  (forall g g', In g gs -> In g' gs' -> pg_type g' = pg_type g -> size_known a g -> fst (pg_total g') = fst (pg_total g) - snd (pg_total g)) /\
  (forall g h, In g gs -> In h all -> pg_type h = pg_type g -> fst (pg_total h) = fst (pg_total g)) /\
  forall g g' h, In g gs -> In g' gs' -> In h all -> pg_type g' = pg_type g -> pg_type h = pg_type g -> size_known a g -> size_known a g' ->
    snd (pg_total h) = snd (pg_total g) + snd (pg_total g').
