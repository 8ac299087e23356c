(** * Specification vocabulary: the JSON summary, alone or compared with a reference *)
From Coq Require Import Ascii String List ZArith Bool Sorted.
From Verif Require Import Base MemMap SpecTree Filter Pipeline SpecPipe SpecBuild SpecBytes SpecShape PyStr MapFile SpecMap ElfRead SpecElf Project SpecProject SpecEnd Chips Deps Table SpecTable Formats Main SpecMain SpecCommand SpecReport SpecMerge.
Import ListNotations.
Open Scope list_scope.
Open Scope Z_scope.

(** bytes of a part of a memory type that has a name of its own: the sections with this
    short name with --unify, the section of this name else *)
Definition part_bytes (a : args) (T n : str) : account -> Z -> Prop := if a_unify a then label_bytes T n else name_bytes T n.
(** a part with this name: the sections with this short name together with --unify, one of the
    sections that are shown by this name else *)
Definition part_right (k : account) (r : option account) (a : args) (T n : str) (z : Z) : Prop :=
  if a_unify a then label_bytes T n k z
  else exists N, present k r (lists_section T N) /\ shown_section a N n /\ name_bytes T N k z.
Definition figure_order (k : account) (r : option account) (a : args) (f g : account -> Z -> Prop) : Prop :=
  forall v w, measured k r f v -> measured k r g w -> in_order (a_sort_reverse a) (pick (a_sort_diff a) v) (pick (a_sort_diff a) w).

(** a memory type in the JSON summary: numbers of the project, names of both *)
Record jtype_right (k : account) (r : option account) (a : args) (j : jtype) : Prop := {
  jt_used : used_bytes (j_name j) k (j_used j);
  jt_total : total_bytes a (j_name j) k (j_total j);
  jt_free : j_free j = if j_total j =? 0 then 0 else j_total j - j_used j;
  jt_once : NoDup (map fst (j_parts j));
  jt_names : forall n, In n (map fst (j_parts j)) <-> exists N, present k r (lists_section (j_name j) N) /\ shown_section a N n;
  jt_part : forall n z, In (n, z) (j_parts j) -> part_right k r a (j_name j) n z;
  jt_sorted : a_unify a = true \/ a_no_abbrev a = true ->
    StronglySorted (fun x y => figure_order k r a (part_bytes a (j_name j) (fst x)) (part_bytes a (j_name j) (fst y))) (j_parts j) }.
Record layout_right (k : account) (r : option account) (a : args) (js : jsummary) : Prop := {
  lr_once : NoDup (map j_name (js_layout js));
  lr_types : forall T, In T (map j_name (js_layout js)) <-> present k r (lists_type a T);
  lr_type : Forall (jtype_right k r a) (js_layout js);
  lr_sorted : StronglySorted (fun i j => figure_order k r a (used_bytes (j_name i)) (used_bytes (j_name j))) (js_layout js);
  lr_image : image_bytes (ac_im k) (ac_l k) (js_total_size js) }.
