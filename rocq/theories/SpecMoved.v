(** * Specification vocabulary: code and data that are only moved *)
From Coq Require Import Ascii String List ZArith Bool Permutation.
From Verif Require Import Base MemMap Filter Pipeline SpecPipe SpecBytes MapFile SpecMap Deps Table SpecTable Formats Main SpecMain SpecEnd SpecCommand SpecReport.
Import ListNotations.
Open Scope list_scope.
Open Scope Z_scope.

(** bytes of an output section that are moved, each to a byte of the same memory type *)
Definition same_memory (types : list chip_type) (N : str) (a a' n : Z) : Prop :=
  forall j T, 0 <= j < n -> (byte_goes types N (a + j) T <-> byte_goes types N (a' + j) T).
(** an input section at another address and perhaps with another name and other padding *)
Definition moved_item (types : list chip_type) (N : str) (i i' : item) : Prop :=
  it_archive i' = it_archive i /\ it_object i' = it_object i /\ it_size i' = it_size i /\ same_memory types N (it_addr i) (it_addr i') (it_size i).
(** an output section at another address, its input sections in another order *)
Definition moved_section (k k' : account) (o o' : printed) : Prop :=
  pr_name o' = pr_name o /\ pr_size o' = pr_size o /\ same_memory (ac_types k) (pr_name o) (pr_addr o) (pr_addr o') (pr_size o) /\
  (counted (ac_im k) o <-> counted (ac_im k') o') /\
  exists is, Permutation (pr_items o') is /\ Forall2 (moved_item (ac_types k) (pr_name o)) (pr_items o) is.
(** the same for all output sections, which may also be in another order *)
Definition moved (k k' : account) : Prop :=
  ac_types k' = ac_types k /\ exists l, Permutation (ac_l k') l /\ Forall2 (moved_section k k') (ac_l k) l.

(** the command for another map file *)
Definition with_input (c : cmd) (fn : str) : cmd := Cmd (c_args c) fn (c_quiet c) (c_no_color c) (c_force_terminal c).
(** the same rows with the same figures, in any order *)
Definition same_entry (e e' : sentry) : Prop := se_abbrev e' = se_abbrev e /\ forall c, col_value e' c = col_value e c.
Definition rows_in (rows rows' : dict str sentry) : Prop := forall n e, In (n, e) rows -> exists e', In (n, e') rows' /\ same_entry e e'.
