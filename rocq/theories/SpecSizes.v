(** * Specification vocabulary: the sizes of memory types in the summaries *)
From Coq Require Import Ascii String List ZArith Bool.
From Verif Require Import Base MemMap Filter Pipeline Deps Table SpecTable Formats Main SpecMain SpecCommand SpecReport SpecCompareUsage.
Import ListNotations.
Open Scope list_scope.
Open Scope Z_scope.

(** the size of a memory type; 0 if the summary has no such row *)
Definition size_in (gs : list pgroup) (T : str) (v : Z * Z) : Prop :=
  (exists g, In g gs /\ pg_type g = T /\ v = pg_total g) \/ (~ In T (map pg_type gs) /\ v = (0, 0)).
(** a comparison shows the size in the project, and the difference to that in the reference; the
    difference of a size that is 0 only if --use-flash-size is given *)
Definition compares_sizes (a : args) (new old both : list pgroup) : Prop :=
  forall g v w, In g both -> size_in new (pg_type g) v -> size_in old (pg_type g) w ->
    fst (pg_total g) = fst v /\ (fst v <> 0 \/ a_use_flash_size a = true -> snd (pg_total g) = fst v - fst w).
(** the JSON summary has the sizes of the table *)
Definition same_sizes (gs : list pgroup) (js : jsummary) : Prop :=
  forall g j, In g gs -> In j (js_layout js) -> j_name j = pg_type g -> j_total j = fst (pg_total g).
