(** * Specification vocabulary: two JSON summaries that differ in the order only *)
From Coq Require Import Ascii String List ZArith Bool Permutation.
From Verif Require Import Base MemMap SpecTree SpecOps Filter Pipeline Deps Table SpecTable Formats Main SpecMain SpecCommand SpecReport SpecForm.
Import ListNotations.
Open Scope list_scope.
Open Scope Z_scope.

(** two commands that differ only in format and output file, order and filter *)
Definition other_order (c c' : cmd) : Prop :=
  other_form c c' /\ a_no_abbrev (c_args c') = a_no_abbrev (c_args c) /\ a_use_flash_size (c_args c') = a_use_flash_size (c_args c).
(** the same memory types in some order, with the same used, total and free bytes and the same
    names of sections; these with the same bytes, if each section has a name of its own *)
Definition layout_order (a : args) (js js' : jsummary) : Prop :=
  Permutation (map j_name (js_layout js)) (map j_name (js_layout js')) /\
  forall j j', In j (js_layout js) -> In j' (js_layout js') -> j_name j' = j_name j ->
    j_used j' = j_used j /\ j_total j' = j_total j /\ j_free j' = j_free j /\ Permutation (map fst (j_parts j)) (map fst (j_parts j')) /\
    (a_unify a = true \/ a_no_abbrev a = true -> Permutation (j_parts j) (j_parts j')).
