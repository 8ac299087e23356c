(** * Specification vocabulary: comparisons with --unify *)
From Coq Require Import Ascii String List ZArith Bool.
From Verif Require Import Base MemMap Filter Pipeline Deps Table SpecTable Formats Main SpecMain SpecReport SpecAdds SpecSteps SpecMergeFiles SpecMergeSyms.
Import ListNotations.
Open Scope list_scope.
Open Scope Z_scope.

(** What C146, C140 and C139 say of two reports, of those figures that are [good] only *)
Definition compares_in (good : str -> col -> Prop) (a : args) (new old both : dict str sentry) : Prop :=
  (forall n, In n (map fst both) <-> (In n (map fst new) \/ In n (map fst old)) /\
     (a_show_unchanged a = true \/ forall v w, figure new n ColTotal v -> figure old n ColTotal w -> fst v <> fst w)) /\
  forall n e c v w, good n c -> In (n, e) both -> figure new n c v -> figure old n c w -> col_value e c = (fst v, fst v - fst w).
Definition turned_in (good : str -> col -> Prop) (rows rows' : dict str sentry) : Prop :=
  (forall n, In n (map fst rows) <-> In n (map fst rows')) /\
  forall n c v v', good n c -> figure rows n c v -> figure rows' n c v' -> v' = (fst v - snd v, - snd v).
Definition steps_in (good : str -> col -> Prop) (a : args) (rows rows' all : dict str sentry) : Prop :=
  forall n c v v' w, good n c -> c = ColTotal \/ a_show_unchanged a = true ->
    figure rows n c v -> figure rows' n c v' -> figure all n c w ->
    snd w = snd v + snd v' /\ (a_show_unchanged a = true -> fst w = fst v).
(** every total and every figure of a memory type is good; that of a section is if all object
    files of the name, in both projects, are in archives with one base name *)
Definition files_good (k r : account) (n : str) (c : col) : Prop := of_section c -> one_archive k (Some r) n.
(** or if all symbols of the name are in object files with one base name *)
Definition symbols_good (x : str) (k r : account) (n : str) (c : col) : Prop := of_section c -> one_file k (Some r) x n.
