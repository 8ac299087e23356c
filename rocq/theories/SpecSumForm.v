(** * Specification vocabulary: the summary in two formats *)
From Coq Require Import Ascii String List ZArith Bool.
From Verif Require Import Base MemMap Filter Pipeline Deps Table SpecTable Formats Main SpecMain SpecCommand SpecReport SpecAdds SpecCompareUsage.
Import ListNotations.
Open Scope list_scope.
Open Scope Z_scope.

(** the name a section of the summary (with --unify, a short name) has in the JSON summary *)
Definition json_name (a : args) (N n : str) : Prop := if a_unify a then n = N else shown_section a N n.
(** The memory types of the table are in the JSON summary, with the same used bytes; each section
    of such a memory type is there by its name, and with its bytes if no other one in the table has this name.
    If no row is left out in the table, there are no others, and each figure is that of a section
    with this name *)
Definition same_summary (a : args) (gs : list pgroup) (js : jsummary) : Prop :=
  NoDup (map j_name (js_layout js)) /\
  (forall g, In g gs -> exists j, In j (js_layout js) /\ j_name j = pg_type g /\ j_used j = fst (pg_used g) /\ NoDup (map fst (j_parts j)) /\
     (forall N v, In (N, v) (pg_sections g) -> exists n, json_name a N n /\ In n (map fst (j_parts j))) /\
     (shows_all a \/ a_unify a = true \/ a_no_abbrev a = true -> forall N v n, In (N, v) (pg_sections g) -> json_name a N n ->
        (forall M w, In (M, w) (pg_sections g) -> json_name a M n -> M = N) -> In (n, fst v) (j_parts j)) /\
     (shows_all a -> forall n z, In (n, z) (j_parts j) -> exists N v, In (N, v) (pg_sections g) /\ json_name a N n /\ z = fst v)) /\
  (shows_all a -> forall j, In j (js_layout js) -> In (j_name j) (map pg_type gs)).
