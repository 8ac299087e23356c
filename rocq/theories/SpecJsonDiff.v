(** * Specification vocabulary: the JSON summary of a project with and without a reference *)
From Coq Require Import Ascii String List ZArith Bool.
From Verif Require Import Base MemMap Filter Pipeline Deps Table Formats Main.
Import ListNotations.
Open Scope list_scope.
Open Scope Z_scope.

(** The JSON summary of a project with a reference has all memory types of that without, with the
    same numbers, and all names of sections; with --unify or long names, also the bytes of the
    sections.  Whatever else is in it has no bytes *)
Definition keeps_figures (a : args) (alone both : jsummary) : Prop :=
  (forall j, In j (js_layout alone) -> exists j', In j' (js_layout both) /\ j_name j' = j_name j /\ j_used j' = j_used j /\ j_total j' = j_total j /\ j_free j' = j_free j /\
     (forall n, In n (map fst (j_parts j)) -> In n (map fst (j_parts j'))) /\
     (a_unify a = true \/ a_no_abbrev a = true ->
        (forall n z, In (n, z) (j_parts j) -> In (n, z) (j_parts j')) /\ (forall n z, In (n, z) (j_parts j') -> In (n, z) (j_parts j) \/ (~ In n (map fst (j_parts j)) /\ z = 0)))) /\
  (forall j', In j' (js_layout both) -> ~ In (j_name j') (map j_name (js_layout alone)) -> j_used j' = 0 /\ j_total j' = 0 /\ j_free j' = 0 /\ forall n z, In (n, z) (j_parts j') -> z = 0).
