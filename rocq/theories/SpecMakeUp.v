(** * Specification vocabulary: the summary and the reports on archives and object files *)
From Coq Require Import Ascii String List ZArith Bool.
From Verif Require Import Base MemMap Filter Pipeline SpecBytes MapFile SpecMap Project SpecProject SpecEnd Chips SpecChips Deps Table SpecTable Formats Main SpecMain SpecCommand SpecReport SpecAdds SpecCompareUsage.
Import ListNotations.
Open Scope list_scope.
Open Scope Z_scope.

(** the command with --files or --archives and --format json2 in place of what it asks for *)
Definition json_report (files : bool) (c : cmd) : cmd :=
  let a := c_args c in
  with_args c (Args FJson2 (negb files) (a_archive_dependencies a) (a_dep_symbols a) (a_dep_reverse a) None files
    (a_diff a) (a_no_abbrev a) (a_abbrev a) (a_unify a) (a_show_unused a) (a_show_unchanged a) (a_use_flash_size a) (a_use_dwarf a)
    (a_output_file a) (a_sort a) (a_filter a) (a_sort_diff a) (a_sort_reverse a)).

(** an address of an input section; the input sections of an output section do not overlap *)
Definition in_item (i : item) (x : Z) : Prop := it_addr i <= x < it_addr i + it_size i.
Definition apart (l : list item) : Prop := ForallOrdPairs (fun i j => forall x, ~ (in_item i x /\ in_item j x)) l.
Definition separate (k : account) : Prop := forall o, In o (ac_l k) -> counted (ac_im k) o -> apart (pr_items o).

(** the bytes of a memory type, and of a section in it, that are in no input section *)
Definition between (k : account) (o : printed) (T : str) (x : Z) : Prop :=
  byte_goes (ac_types k) (pr_name o) x T /\ forall i, In i (pr_items o) -> ~ in_item i x.
Definition between_bytes (T : str) (k : account) (n : Z) : Prop :=
  exists keep b, (forall o, keep o = true <-> counted (ac_im k) o) /\ (forall o x, b o x = true <-> between k o T x) /\
    n = zsumf (fun o => bytes_with (b o) (pr_addr o) (pr_size o)) (filter keep (ac_l k)).
Definition between_in (T N : str) (k : account) (n : Z) : Prop :=
  exists keep b, (forall o, keep o = true <-> counted (ac_im k) o /\ pr_name o = N) /\ (forall o x, b o x = true <-> between k o T x) /\
    n = zsumf (fun o => bytes_with (b o) (pr_addr o) (pr_size o)) (filter keep (ac_l k)).

(** the sum of a column *)
Definition column_sum (rows : dict str sentry) (c : col) : Z * Z :=
  (zsumf (fun kv => fst (col_value (snd kv) c)) rows, zsumf (fun kv => snd (col_value (snd kv) c)) rows).
(** what the summary has is what the rows of the report have together, and the bytes in no input
    section; there are not less than none of these *)
Definition makes_up (k : account) (r : option account) (f : account -> Z -> Prop) (v sum : Z * Z) : Prop :=
  exists w, measured k r f w /\ 0 <= fst w /\ v = (fst sum + fst w, snd sum + snd w).
Definition accounts_for (k : account) (r : option account) (gs : list pgroup) (rows : dict str sentry) : Prop :=
  (forall T v, used_in gs T v -> makes_up k r (between_bytes T) v (column_sum rows (ColType T))) /\
  forall T N v, section_in gs T N v -> makes_up k r (between_in T N) v (column_sum rows (ColSect T N)).
(** every byte of the output sections is in an input section *)
Definition packed (k : account) : Prop :=
  forall o x, In o (ac_l k) -> counted (ac_im k) o -> pr_addr o <= x < pr_addr o + pr_size o -> exists i, In i (pr_items o) /\ in_item i x.
Definition equals_sums (gs : list pgroup) (rows : dict str sentry) : Prop :=
  (forall T v, used_in gs T v -> v = column_sum rows (ColType T)) /\ forall T N v, section_in gs T N v -> v = column_sum rows (ColSect T N).
