(** * Specification vocabulary: the report on the symbols of an archive with --unify *)
From Coq Require Import Ascii String List ZArith Bool Sorted.
From Verif Require Import Base MemMap SpecTree Filter SpecFilter Pipeline SpecPipe SpecBuild SpecBytes SpecShape SpecSyms PyStr MapFile SpecMap ElfRead SpecElf Project SpecProject SpecEnd Chips Deps Table SpecTable Formats Main SpecMain SpecCommand SpecFail SpecReport SpecSymbols SpecMerge SpecMergeFiles.
Import ListNotations.
Open Scope list_scope.
Open Scope Z_scope.

(** the symbols of the project and of the reference of a command with --unify *)
Definition symbols_merged (d : disk) (c : cmd) (q : account) (r : option account) : Prop :=
  symbols_project d (c_args c) (c_input c) q /\
  match r with
  | None => given (a_diff (c_args c)) = false
  | Some q' => exists fn, a_diff (c_args c) = Some fn /\ symbols_project d (c_args c) fn q'
  end /\
  a_unify (c_args c) = true /\ a_archive_dependencies (c_args c) = false.

(** ** symbols with the same name, in archives with the same base name, are one symbol *)
Definition named (x y : str) (i : item) : Prop := base_name i x /\ it_name i = y.
(** their bytes: all, those in a memory type, those in the sections of it with an abbreviated name *)
Definition named_bytes (x y : str) (c : col) (k : account) (n : Z) : Prop :=
  exists own, (forall i, own i = true <-> named x y i) /\
  match c with
  | ColSect T B => exists keep b, (forall o, keep o = true <-> counted (ac_im k) o /\ label [pr_name o] B) /\
      (forall o a, b o a = true <-> byte_goes (ac_types k) (pr_name o) a T) /\
      n = zsumf (fun o => zsumf (fun i => bytes_with (b o) (it_addr i) (it_size i)) (filter own (pr_items o))) (filter keep (ac_l k))
  | _ => own_bytes own c k n
  end.
(** the symbols of this name are in object files with one base name *)
Definition one_file (q : account) (r : option account) (x y : str) : Prop :=
  exists z, forall i, present q r (places i) -> named x y i -> file_name i z.

(** ** an entry for each name *)
Record nentry_right (q : account) (r : option account) (a : args) (x y : str) (e : sentry) : Prop := {
  ne_name : se_abbrev e = y;
  ne_size : measured q r (named_bytes x y ColTotal) (se_size e, se_diff e);
  ne_types_once : NoDup (map fst (se_types e));
  ne_types : forall T, In T (map fst (se_types e)) <-> present q r (lists_type a T);
  ne_type : forall T st, In (T, st) (se_types e) -> measured q r (named_bytes x y (ColType T)) (st_size st, st_diff st);
  ne_sections_once : forall T st, In (T, st) (se_types e) -> NoDup (map fst (st_sections st));
  ne_sections : forall T st B, In (T, st) (se_types e) -> In B (map fst (st_sections st)) <-> present q r (lists_label T B);
  ne_section : forall T st B z, one_file q r x y -> In (T, st) (se_types e) -> In (B, z) (st_sections st) -> measured q r (named_bytes x y (ColSect T B)) (ss_size z, ss_diff z);
  ne_label : forall T st B z, In (T, st) (se_types e) -> In (B, z) (st_sections st) -> ss_abbrev z = B }.
Definition nentries_right (x : str) (q : account) (r : option account) (a : args) (rows : dict str sentry) : Prop :=
  NoDup (map fst rows) /\
  (forall y, In y (map fst rows) <-> exists i v, present q r (places i) /\ named x y i /\ measured q r (named_bytes x y ColTotal) v /\ differs a v) /\
  forall y e, In (y, e) rows -> nentry_right q r a x y e.

(** ** the table *)
Definition ntable_row (x : str) (q : account) (r : option account) (a : args) (cs : list col) (y : str) (row : list str) : Prop :=
  exists cells, row = y :: cells /\
    Forall2 (fun c s => exists v, cell_text (given (a_diff a)) v s /\ ((of_section c -> one_file q r x y) -> measured q r (named_bytes x y c) v)) cs cells.
Definition ntable_names (x : str) (q : account) (r : option account) (a : args) (ps : option (list (list SpecFilter.piece))) (ys : list str) : Prop :=
  NoDup ys /\
  forall y, In y ys <-> exists i v, present q r (places i) /\ named x y i /\ measured q r (named_bytes x y ColTotal) v /\ differs a v /\ selected ps y.
