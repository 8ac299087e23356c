(** * Specification vocabulary: a report in two formats *)
From Coq Require Import Ascii String List ZArith Bool.
From Verif Require Import Base MemMap Filter SpecFilter Pipeline SpecPipe SpecBytes MapFile SpecMap Deps Table SpecTable Formats Main SpecMain SpecEnd SpecCommand SpecReport.
Import ListNotations.
Open Scope list_scope.
Open Scope Z_scope.

(** two commands that differ only in how the report is shown: its format and file, order,
    filter, and long or short names *)
Definition other_form (c c' : cmd) : Prop :=
  let a := c_args c in let a' := c_args c' in
  c_input c' = c_input c /\ a_archives a' = a_archives a /\ a_archive_dependencies a' = a_archive_dependencies a /\
  a_archive_details a' = a_archive_details a /\ a_files a' = a_files a /\ a_diff a' = a_diff a /\ a_unify a' = a_unify a /\
  a_show_unused a' = a_show_unused a /\ a_show_unchanged a' = a_show_unchanged a /\ a_use_dwarf a' = a_use_dwarf a.
(** a memory type or section a JSON entry has a figure for *)
Definition has_col (e : sentry) (c : col) : Prop :=
  match c with
  | ColTotal => True
  | ColType T => In T (map fst (se_types e))
  | ColSect T N => exists st, In (T, st) (se_types e) /\ In N (map fst (st_sections st))
  end.
Definition entry_name (a : args) (x : str * sentry) : str := if a_no_abbrev a then fst x else se_abbrev (snd x).
Definition shows_entry (a : args) (cs : list col) (x : str * sentry) (row : list str) : Prop :=
  exists cells, row = entry_name a x :: cells /\ Forall2 (fun c s => cell_text (given (a_diff a)) (col_value (snd x) c) s) cs cells.
(** the table has a row for every JSON entry that --filter selects and no others, and a column
    for every figure of the entries; each cell is the figure of the entry *)
Definition shows_entries (a : args) (ps : option (list (list SpecFilter.piece))) (first : str) (rows : dict str sentry) (tb : table) : Prop :=
  exists es, NoDup (map fst es) /\ (forall x, In x es <-> In x rows /\ selected ps (entry_name a x)) /\
    (es = [] -> tb_headers tb = [first; list_ascii_of_string "Total Size"] /\ tb_rows tb = []) /\
    (es <> [] -> exists cs titles, NoDup cs /\ (forall x c, In x es -> In c cs <-> has_col (snd x) c) /\
      tb_headers tb = first :: titles /\ Forall2 (column_title a) cs titles /\ Forall2 (shows_entry a cs) es (tb_rows tb)).
