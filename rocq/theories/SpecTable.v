(** * Specification vocabulary for tables *)
From Coq Require Import Ascii String List ZArith Bool Sorting.Permutation Sorting.Sorted.
From Verif Require Import Base MemMap SpecTree SpecOps Filter PyStr Deps Table.
Import ListNotations.
Open Scope list_scope.
Open Scope Z_scope.

(** ** decimal numbers *)
Definition digit_is (c : ascii) (d : Z) : Prop := 0 <= d <= 9 /\ nat_of_ascii c = (48 + Z.to_nat d)%nat.
(** digits of a number, most significant first *)
Inductive decimal : str -> Z -> Prop :=
| dec_one : forall c d, digit_is c d -> decimal [c] d
| dec_more : forall s n c d, decimal s n -> digit_is c d -> decimal (s ++ [c]) (10 * n + d).
(** the way numbers are written: no leading zeros *)
Definition written (s : str) (z : Z) : Prop :=
  (0 <= z /\ decimal s z /\ (forall r, s = "0"%char :: r -> r = [])) \/
  (z < 0 /\ exists r, s = "-"%char :: r /\ decimal r (- z) /\ (forall q, r <> "0"%char :: q)).

(** ** columns of the reports *)
Inductive col := ColTotal | ColType (t : str) | ColSect (t s : str).
Definition cols (m : memmap) : list col :=
  ColTotal :: flat_map (fun t => ColType (fst t) :: map (fun s => ColSect (fst t) (fst s)) (t_sections (snd t))) (m_types m).

Definition col_title (m : memmap) (a : args) (c : col) : str :=
  match c with
  | ColTotal => list_ascii_of_string "Total Size"
  | ColType t => t
  | ColSect t s => if a_abbrev a then match look m t [s] with Some e => e_abbrev e | None => [] end else s
  end.

(** size and difference of an entry in a column *)
Definition col_value (e : sentry) (c : col) : Z * Z :=
  match c with
  | ColTotal => (se_size e, se_diff e)
  | ColType t => match dget t (se_types e) with Some T => (st_size T, st_diff T) | None => (0, 0) end
  | ColSect t s =>
    match dget t (se_types e) with
    | Some T => match dget s (st_sections T) with Some q => (ss_size q, ss_diff q) | None => (0, 0) end
    | None => (0, 0)
    end
  end.

(** text of a cell: the size, and with --diff the difference: with a sign unless it is
    zero, at least six characters wide *)
Definition cell_text (diff : bool) (v : Z * Z) (s : str) : Prop :=
  if diff then
    exists n d pad, written n (fst v) /\ written d (Z.abs (snd v)) /\
      s = n ++ " "%char :: pad ++ (if snd v <? 0 then "-"%char :: d else if 0 <? snd v then "+"%char :: d else d) /\
      Forall (eq " "%char) pad /\
      length pad = (6 - length (if (snd v =? 0)%Z then d else (" "%char :: d)%list))%nat
  else written s (fst v).

(** the column that an argument of --sort names *)
Definition names_column (titles : list str) (arg : str) (i : nat) : Prop :=
  (exists z, py_int10 arg = Some z /\ (1 <= z /\ Z.of_nat i = z \/ z <= -1 /\ Z.of_nat i = Z.of_nat (length titles) + z /\ (1 <= i)%nat) /\ (i < length titles)%nat) \/
  (py_int10 arg = None /\ (1 <= i)%nat /\ nth_error titles i = Some arg /\ forall j, (j < i)%nat -> nth_error titles j <> Some arg).

(** [c] is a character of a number *)
Definition number_char (c : ascii) : bool :=
  let n := nat_of_ascii c in (Nat.leb 48 n && Nat.leb n 57) || mem c ["_"%char; "+"%char; "-"%char] || is_space c.

(** order of values *)
Definition in_order (reverse : bool) (x y : Z) : Prop := if reverse then y <= x else x <= y.
Definition pick (sort_diff : bool) (v : Z * Z) : Z := if sort_diff then snd v else fst v.

(** the value in a column of a row whose section values are [val] *)
Definition section_values (m : memmap) (val : str -> str -> option entry) (t : str) : list (option entry) :=
  match dget t (m_types m) with Some T => map (fun s => val t s) (keys (t_sections T)) | None => [] end.
Definition entry_value (m : memmap) (val : str -> str -> option entry) (c : col) : Z * Z :=
  let sum l := (zsumf esize l, zsumf ediff l) in
  match c with
  | ColSect t s => (esize (val t s), ediff (val t s))
  | ColType t => sum (section_values m val t)
  | ColTotal => sum (flat_map (section_values m val) (keys (m_types m)))
  end.

(** the three tables, with the title of the first column and the rows of the summary *)
Definition is_report (m : memmap) (a : args) (first : str) (d : dict str sentry) (t : tres table) : Prop :=
  (first = list_ascii_of_string "Archive File" /\ d = get_summary_filtered (get_archives_summary m a) a /\ t = get_archives_table m a) \/
  (first = list_ascii_of_string "Object File" /\ d = get_summary_filtered (get_object_files_summary m a) a /\ t = get_object_files_table m a) \/
  (first = list_ascii_of_string "Symbol" /\ exists s, get_symbols_summary m a = Ok s /\ d = get_summary_filtered s a /\ get_symbols_table m a = Ok t).

Definition titles (m : memmap) (a : args) (first : str) : list str := first :: map (col_title m a) (cols m).

(** a row: the name, then a cell for every column *)
Definition row_shows (m : memmap) (a : args) (kv : str * sentry) (r : list str) : Prop :=
  exists cells, r = (if a_abbrev a then se_abbrev (snd kv) else fst kv) :: cells /\
    Forall2 (fun c s => cell_text (given (a_diff a)) (col_value (snd kv) c) s) (cols m) cells.

(** ** the summary table *)

(** value and difference in a column of the summary table; 2 is the percent column *)
Definition type_value (i : nat) (t : mtype) : Z * Z :=
  match i with
  | 1%nat => (t_used t, t_used_diff t)
  | 3%nat => (if t_size t =? 0 then 0 else t_size t - t_used t, t_size_diff t - t_used_diff t)
  | 4%nat => (t_size t, t_size_diff t)
  | _ => (0, 0)
  end.
Definition sect_value (i : nat) (s : sect) : Z * Z :=
  match i with 1%nat => (n_size s, n_diff s) | _ => (0, 0) end.

Definition type_row_shows (a : args) (kv : str * mtype) (r : list str) : Prop :=
  exists used pct remain total, r = [fst kv; used; pct; remain; total] /\
    cell_text (given (a_diff a)) (type_value 1 (snd kv)) used /\
    if t_size (snd kv) =? 0 then pct = [] /\ remain = [] /\ total = []
    else cell_text (given (a_diff a)) (type_value 3 (snd kv)) remain /\ cell_text (given (a_diff a)) (type_value 4 (snd kv)) total.
Definition sect_row_shows (a : args) (kv : str * sect) (r : list str) : Prop :=
  exists used pct, r = [list_ascii_of_string "   " ++ (if a_abbrev a then n_abbrev (snd kv) else fst kv); used; pct; []; []] /\
    cell_text (given (a_diff a)) (sect_value 1 (snd kv)) used.

(** the rows of a memory type: its own, then its sections *)
Definition shown_type (a : args) (ts : (str * mtype) * list (str * sect)) (rs : list (list str)) : Prop :=
  exists r l, rs = r :: l /\ type_row_shows a (fst ts) r /\ Forall2 (sect_row_shows a) (snd ts) l.

(** ** reading CSV: quoted fields with doubled quotes inside, commas between fields, one
    record per line.  Characters after a closing quote are kept, as the csv module of
    Python does. *)
Inductive csv_state := FieldStart | InField (acc : str) | InQuotes (acc : str) | QuoteInQuotes (acc : str).
Fixpoint csv_read (st : csv_state) (row : list str) (s : str) : list (list str) :=
  match s with
  | [] => match st, row with FieldStart, [] => [] | FieldStart, _ => [row ++ [[]]] | InField f, _ | InQuotes f, _ | QuoteInQuotes f, _ => [row ++ [f]] end
  | c :: r =>
    match st with
    | FieldStart =>
        if Ascii.eqb c """"%char then csv_read (InQuotes []) row r
        else if Ascii.eqb c ","%char then csv_read FieldStart (row ++ [[]]) r
        else if Ascii.eqb c newline then match row with [] => [] | _ => row ++ [[]] end :: csv_read FieldStart [] r
        else csv_read (InField [c]) row r
    | InField f =>
        if Ascii.eqb c ","%char then csv_read FieldStart (row ++ [f]) r
        else if Ascii.eqb c newline then (row ++ [f]) :: csv_read FieldStart [] r
        else csv_read (InField (f ++ [c])) row r
    | InQuotes f =>
        if Ascii.eqb c """"%char then csv_read (QuoteInQuotes f) row r else csv_read (InQuotes (f ++ [c])) row r
    | QuoteInQuotes f =>
        if Ascii.eqb c """"%char then csv_read (InQuotes (f ++ [c])) row r
        else if Ascii.eqb c ","%char then csv_read FieldStart (row ++ [f]) r
        else if Ascii.eqb c newline then (row ++ [f]) :: csv_read FieldStart [] r
        else csv_read (InField (f ++ [c])) row r
    end
  end.
Definition csv_records (s : str) : list (list str) := csv_read FieldStart [] s.

(** a table whose texts can be in a CSV file as they are *)
Definition plain_table (t : table) : Prop :=
  tb_headers t <> [] /\ Forall (fun h => ~ In """"%char h) (tb_headers t) /\
  Forall (fun r => r <> [] /\ Forall (fun c => ~ In """"%char c) r) (tb_rows t).

(** ** the tree *)

(** one line of an entry: depth, then name and size *)
Definition tree_line (a : args) (pe : list str * entry) (l : nat * str) : Prop :=
  fst l = S (List.length (fst pe)) /\
  exists cell, snd l = (if a_abbrev a && (List.length (fst pe) <? 4)%nat then e_abbrev (snd pe) else last (fst pe) []) ++ " "%char :: cell /\
    cell_text (given (a_diff a)) (e_size (snd pe), e_diff (snd pe)) cell.
Definition tree_type_line (a : args) (kv : str * mtype) (l : nat * str) : Prop :=
  fst l = 1%nat /\
  exists used total, cell_text (given (a_diff a)) (t_used (snd kv), t_used_diff (snd kv)) used /\
    cell_text (given (a_diff a)) (t_size (snd kv), t_size_diff (snd kv)) total /\
    snd l = fst kv ++ " "%char :: used ++ (if t_size (snd kv) =? 0 then [] else list_ascii_of_string " / " ++ total).

(** ** the dependency table *)

(** cells after the second of a row; a row with a second cell starts an archive *)
Definition dep_group : Type := str * str * list (list str).
Fixpoint dep_groups (rows : list (list str)) : list (list str) * list dep_group :=
  match rows with
  | (n :: s :: rest) :: rows' =>
      let (pending, gs) := dep_groups rows' in
      match s with [] => (rest :: pending, gs) | _ => ([], (n, s, rest :: pending) :: gs) end
  | _ => ([], [])
  end.
(** lines of a text *)
Fixpoint lines_of (s : str) : list str :=
  match s with
  | [] => [[]]
  | c :: r => match lines_of r with
              | l :: ls => if Ascii.eqb c newline then [] :: l :: ls else (c :: l) :: ls
              | [] => [[c]]
              end
  end.
Definition dep_cells (a : args) (kv : str * dent) (cells : list str) : Prop :=
  exists size symbols, cells = [if a_abbrev a then de_abbrev (snd kv) else fst kv; size] ++ (if a_dep_symbols a then [symbols] else []) /\
    written size (de_size (snd kv)) /\
    (de_symbols (snd kv) <> [] -> Forall (fun s => ~ In newline s) (de_symbols (snd kv)) -> lines_of symbols = de_symbols (snd kv)).
Definition dep_group_is (a : args) (kv : str * darch) (g : dep_group) : Prop :=
  exists size cells, g = (if a_abbrev a then da_abbrev (snd kv) else fst kv, size, cells) /\
    written size (da_size (snd kv)) /\ Forall2 (dep_cells a) (da_archives (snd kv)) cells.
