(** * Specification vocabulary: the reports with --unify, alone or compared with a reference *)
From Coq Require Import Ascii String List ZArith Bool Sorted.
From Verif Require Import Base MemMap SpecTree Filter SpecFilter Pipeline SpecPipe SpecBuild SpecBytes SpecShape PyStr MapFile SpecMap ElfRead SpecElf Project SpecProject SpecEnd Chips Deps Table SpecTable Formats Main SpecMain SpecCommand SpecFail SpecReport.
Import ListNotations.
Open Scope list_scope.
Open Scope Z_scope.

(** the project and the reference of a command with --unify *)
Definition merged (d : disk) (c : cmd) (k : account) (r : option account) : Prop :=
  project_at d (c_args c) (c_input c) k /\ reference d (c_args c) r /\
  a_unify (c_args c) = true /\ a_archive_dependencies (c_args c) = false.

(** ** output sections with the same abbreviated name are one section *)
Definition lists_label (T B : str) (k : account) : Prop := exists N, label [N] B /\ lists_section T N k.
Definition label_bytes (T B : str) (k : account) (n : Z) : Prop :=
  exists keep b, (forall o, keep o = true <-> counted (ac_im k) o /\ label [pr_name o] B) /\
    (forall o a, b o a = true <-> byte_goes (ac_types k) (pr_name o) a T) /\
    n = zsumf (fun o => bytes_with (b o) (pr_addr o) (pr_size o)) (filter keep (ac_l k)).

(** ** archives with the same base name are one archive *)
(** the base name of an archive *)
Definition base_name (i : item) (x : str) : Prop := after_last "/"%char (it_archive i) x.
(** bytes of the input sections of all archives with this base name: all, those in a memory
    type, those in the sections of it with an abbreviated name *)
Definition base_bytes (x : str) (c : col) (k : account) (n : Z) : Prop :=
  exists own, (forall i, own i = true <-> base_name i x) /\
  match c with
  | ColSect T B => exists keep b, (forall o, keep o = true <-> counted (ac_im k) o /\ label [pr_name o] B) /\
      (forall o a, b o a = true <-> byte_goes (ac_types k) (pr_name o) a T) /\
      n = zsumf (fun o => zsumf (fun i => bytes_with (b o) (it_addr i) (it_size i)) (filter own (pr_items o))) (filter keep (ac_l k))
  | _ => own_bytes own c k n
  end.

(** ** the summary table *)
Record mgroup_right (k : account) (r : option account) (a : args) (g : pgroup) : Prop := {
  mg_used_is : measured k r (used_bytes (pg_type g)) (pg_used g);
  mg_total_is : total_bytes a (pg_type g) k (fst (pg_total g));
  mg_total_diff : fst (pg_total g) <> 0 \/ a_use_flash_size a = true -> measured k r (total_bytes a (pg_type g)) (pg_total g);
  mg_once : NoDup (map fst (pg_sections g));
  mg_sections_are : forall B v, In (B, v) (pg_sections g) <->
    present k r (lists_label (pg_type g) B) /\ measured k r (label_bytes (pg_type g) B) v /\ differs a v }.
(** the sections are shown by their abbreviated names *)
Definition msection_cells (a : args) (s : str * (Z * Z)) (r : list str) : Prop :=
  exists used pct, r = [list_ascii_of_string "   " ++ fst s; used; pct; []; []] /\ cell_text (given (a_diff a)) (snd s) used.
Definition mgroup_rows (a : args) (g : pgroup) (rows : list (list str)) : Prop :=
  exists used pct remain total rest, rows = [pg_type g; used; pct; remain; total] :: rest /\
    cell_text (given (a_diff a)) (pg_used g) used /\
    (if fst (pg_total g) =? 0 then pct = [] /\ remain = [] /\ total = []
     else cell_text (given (a_diff a)) (pg_value 3 g) remain /\ cell_text (given (a_diff a)) (pg_total g) total) /\
    Forall2 (msection_cells a) (pg_sections g) rest.

(** ** the report on archives: an entry for each base name *)
Record mentry_right (k : account) (r : option account) (a : args) (x : str) (e : sentry) : Prop := {
  me_name : se_abbrev e = x;
  me_size : measured k r (base_bytes x ColTotal) (se_size e, se_diff e);
  me_types_once : NoDup (map fst (se_types e));
  me_types : forall T, In T (map fst (se_types e)) <-> present k r (lists_type a T);
  me_type : forall T st, In (T, st) (se_types e) -> measured k r (base_bytes x (ColType T)) (st_size st, st_diff st);
  me_sections_once : forall T st, In (T, st) (se_types e) -> NoDup (map fst (st_sections st));
  me_sections : forall T st B, In (T, st) (se_types e) -> In B (map fst (st_sections st)) <-> present k r (lists_label T B);
  me_section : forall T st B q, In (T, st) (se_types e) -> In (B, q) (st_sections st) -> measured k r (base_bytes x (ColSect T B)) (ss_size q, ss_diff q);
  me_label : forall T st B q, In (T, st) (se_types e) -> In (B, q) (st_sections st) -> ss_abbrev q = B }.
Definition mentries_right (k : account) (r : option account) (a : args) (rows : dict str sentry) : Prop :=
  NoDup (map fst rows) /\
  (forall x, In x (map fst rows) <-> exists i v, present k r (places i) /\ base_name i x /\ measured k r (base_bytes x ColTotal) v /\ differs a v) /\
  forall x e, In (x, e) rows -> mentry_right k r a x e.

(** ** the table on archives *)
Definition mcolumns_right (k : account) (r : option account) (a : args) (groups : list (str * list str)) : Prop :=
  NoDup (map fst groups) /\ (forall T, In T (map fst groups) <-> present k r (lists_type a T)) /\
  forall T Bs, In (T, Bs) groups -> NoDup Bs /\ forall B, In B Bs <-> present k r (lists_label T B).
Definition mcolumn_title (c : col) (s : str) : Prop :=
  match c with
  | ColTotal => s = list_ascii_of_string "Total Size"
  | ColType T => s = T
  | ColSect _ B => s = B
  end.
Definition mtable_row (k : account) (r : option account) (a : args) (cs : list col) (x : str) (row : list str) : Prop :=
  exists cells, row = x :: cells /\
    Forall2 (fun c s => exists v, measured k r (base_bytes x c) v /\ cell_text (given (a_diff a)) v s) cs cells.
Definition mtable_names (k : account) (r : option account) (a : args) (ps : option (list (list SpecFilter.piece))) (xs : list str) : Prop :=
  NoDup xs /\
  forall x, In x xs <-> exists i v, present k r (places i) /\ base_name i x /\ measured k r (base_bytes x ColTotal) v /\ differs a v /\ selected ps x.
