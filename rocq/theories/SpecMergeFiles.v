(** * Specification vocabulary: the report on object files with --unify *)
From Coq Require Import Ascii String List ZArith Bool Sorted.
From Verif Require Import Base MemMap SpecTree Filter SpecFilter Pipeline SpecPipe SpecBuild SpecBytes SpecShape PyStr MapFile SpecMap ElfRead SpecElf Project SpecProject SpecEnd Chips Deps Table SpecTable Formats Main SpecMain SpecCommand SpecFail SpecReport SpecMerge.
Import ListNotations.
Open Scope list_scope.
Open Scope Z_scope.

(** ** object files with the same base name are one object file *)
(** the base name of an object file *)
Definition file_name (i : item) (y : str) : Prop := after_last "/"%char (it_object i) y.
(** bytes of the input sections of all object files with this base name, in whatever archive:
    all, those in a memory type, those in the sections of it with an abbreviated name *)
Definition file_bytes (y : str) (c : col) (k : account) (n : Z) : Prop :=
  exists own, (forall i, own i = true <-> file_name i y) /\
  match c with
  | ColSect T B => exists keep b, (forall o, keep o = true <-> counted (ac_im k) o /\ label [pr_name o] B) /\
      (forall o a, b o a = true <-> byte_goes (ac_types k) (pr_name o) a T) /\
      n = zsumf (fun o => zsumf (fun i => bytes_with (b o) (it_addr i) (it_size i)) (filter own (pr_items o))) (filter keep (ac_l k))
  | _ => own_bytes own c k n
  end.
(** the object files with this base name are in archives with one base name *)
Definition one_archive (k : account) (r : option account) (y : str) : Prop :=
  exists x, forall i, present k r (places i) -> file_name i y -> base_name i x.

(** ** an entry for each base name *)
Record fentry_right (k : account) (r : option account) (a : args) (y : str) (e : sentry) : Prop := {
  fe_name : se_abbrev e = y;
  fe_size : measured k r (file_bytes y ColTotal) (se_size e, se_diff e);
  fe_types_once : NoDup (map fst (se_types e));
  fe_types : forall T, In T (map fst (se_types e)) <-> present k r (lists_type a T);
  fe_type : forall T st, In (T, st) (se_types e) -> measured k r (file_bytes y (ColType T)) (st_size st, st_diff st);
  fe_sections_once : forall T st, In (T, st) (se_types e) -> NoDup (map fst (st_sections st));
  fe_sections : forall T st B, In (T, st) (se_types e) -> In B (map fst (st_sections st)) <-> present k r (lists_label T B);
  fe_section : forall T st B q, one_archive k r y -> In (T, st) (se_types e) -> In (B, q) (st_sections st) -> measured k r (file_bytes y (ColSect T B)) (ss_size q, ss_diff q);
  fe_label : forall T st B q, In (T, st) (se_types e) -> In (B, q) (st_sections st) -> ss_abbrev q = B }.
Definition fentries_right (k : account) (r : option account) (a : args) (rows : dict str sentry) : Prop :=
  NoDup (map fst rows) /\
  (forall y, In y (map fst rows) <-> exists i v, present k r (places i) /\ file_name i y /\ measured k r (file_bytes y ColTotal) v /\ differs a v) /\
  forall y e, In (y, e) rows -> fentry_right k r a y e.

(** ** the table *)
Definition of_section (c : col) : Prop := match c with ColSect _ _ => True | _ => False end.
Definition ftable_row (k : account) (r : option account) (a : args) (cs : list col) (y : str) (row : list str) : Prop :=
  exists cells, row = y :: cells /\
    Forall2 (fun c s => exists v, cell_text (given (a_diff a)) v s /\ ((of_section c -> one_archive k r y) -> measured k r (file_bytes y c) v)) cs cells.
Definition ftable_names (k : account) (r : option account) (a : args) (ps : option (list (list SpecFilter.piece))) (ys : list str) : Prop :=
  NoDup ys /\
  forall y, In y ys <-> exists i v, present k r (places i) /\ file_name i y /\ measured k r (file_bytes y ColTotal) v /\ differs a v /\ selected ps y.
