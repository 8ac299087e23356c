(** * Specification vocabulary: comparisons of summaries *)
From Coq Require Import Ascii String List ZArith Bool.
From Verif Require Import Base MemMap Filter Pipeline Project SpecProject SpecEnd Deps Table SpecTable Formats Main SpecMain SpecCommand SpecFail SpecReport SpecMerge.
Import ListNotations.
Open Scope list_scope.
Open Scope Z_scope.

(** the table of a summary and the memory types it shows, with or without --unify *)
Definition shows_usage (a : args) (s : state) (gs : list pgroup) : Prop :=
  exists tb rows, prints a s tb /\ tb_headers tb = usage_headers /\ tb_rows tb = concat rows /\
    Forall2 (if a_unify a then mgroup_rows a else pgroup_rows a) gs rows /\ NoDup (map pg_type gs) /\ Forall (fun g => NoDup (map fst (pg_sections g))) gs.
(** the used bytes of a memory type and of a section in it, with the difference; 0 if the
    summary has no such row *)
Definition used_in (gs : list pgroup) (T : str) (v : Z * Z) : Prop :=
  (exists g, In g gs /\ pg_type g = T /\ v = pg_used g) \/ (~ In T (map pg_type gs) /\ v = (0, 0)).
Definition has_section (gs : list pgroup) (T N : str) : Prop := exists g, In g gs /\ pg_type g = T /\ In N (map fst (pg_sections g)).
Definition section_in (gs : list pgroup) (T N : str) (v : Z * Z) : Prop :=
  (exists g, In g gs /\ pg_type g = T /\ In (N, v) (pg_sections g)) \/ (~ has_section gs T N /\ v = (0, 0)).

(** [both] is what one gets by subtracting the one summary from the other: a memory type is there
    if it is in one of them and its used bytes differ (or all are asked for), the same of the
    sections of each such memory type, and each number is that of the project with its difference
    to that of the reference *)
Definition compares_usage (a : args) (new old both : list pgroup) : Prop :=
  (forall T, In T (map pg_type both) <-> (In T (map pg_type new) \/ In T (map pg_type old)) /\
     (a_show_unchanged a = true \/ forall v w, used_in new T v -> used_in old T w -> fst v <> fst w)) /\
  (forall g v w, In g both -> used_in new (pg_type g) v -> used_in old (pg_type g) w -> pg_used g = (fst v, fst v - fst w)) /\
  (forall g N, In g both -> (In N (map fst (pg_sections g)) <-> (has_section new (pg_type g) N \/ has_section old (pg_type g) N) /\
     (a_show_unchanged a = true \/ forall v w, section_in new (pg_type g) N v -> section_in old (pg_type g) N w -> fst v <> fst w))) /\
  forall g N u v w, In g both -> In (N, u) (pg_sections g) -> section_in new (pg_type g) N v -> section_in old (pg_type g) N w -> u = (fst v, fst v - fst w).
(** exchanging the project and its reference: the same rows, the number of the reference, and the
    opposite difference *)
Definition turned_usage (gs gs' : list pgroup) : Prop :=
  (forall T, In T (map pg_type gs) <-> In T (map pg_type gs')) /\
  (forall T N, has_section gs T N <-> has_section gs' T N) /\
  (forall T v v', used_in gs T v -> used_in gs' T v' -> v' = (fst v - snd v, - snd v)) /\
  forall T N v v', section_in gs T N v -> section_in gs' T N v' -> v' = (fst v - snd v, - snd v).
(** the differences of two comparisons in a row add up: those of the memory types always, those
    of the sections if all rows are asked for *)
Definition steps_usage (a : args) (gs gs' all : list pgroup) : Prop :=
  (forall T v v' w, used_in gs T v -> used_in gs' T v' -> used_in all T w -> snd w = snd v + snd v' /\ (a_show_unchanged a = true -> fst w = fst v)) /\
  (a_show_unchanged a = true -> forall T N v v' w, section_in gs T N v -> section_in gs' T N v' -> section_in all T N w -> snd w = snd v + snd v' /\ fst w = fst v).
(** the project and the reference of a command, with or without --unify *)
Definition summarised (d : disk) (c : cmd) (k : account) (r : option account) : Prop :=
  project_at d (c_args c) (c_input c) k /\ reference d (c_args c) r /\ a_archive_dependencies (c_args c) = false.
