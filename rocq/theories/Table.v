(** * Model of format_table.py.

    A table is a list of headers and a list of rows of texts.  Texts are without colour
    markup: [color_diff] and [color_size] (format_table.py:33-54) differ in colours only.
    Headers are modelled as they are shown, i.e. [Used [bytes]] for the markup
    [Used \[bytes]]. *)
From Coq Require Import Ascii String List ZArith Bool SpecFloat.
From Verif Require Import Base MemMap Filter PyStr Pipeline MapFile Deps.
Import ListNotations.
Open Scope list_scope.
Open Scope Z_scope.

(** ** numbers as text *)

Definition digit_char (d : Z) : ascii := ascii_of_nat (48 + Z.to_nat d).
Fixpoint dec_digits (fuel : nat) (n : Z) (acc : str) : str :=
  match fuel with
  | O => acc
  | S f => if n <? 10 then digit_char n :: acc else dec_digits f (n / 10) (digit_char (n mod 10) :: acc)
  end.
Definition show_nonneg (n : Z) : str := dec_digits (S (Z.to_nat (Z.log2 n))) n [].
(** [f'{z}'] *)
Definition show_Z (z : Z) : str := if z <? 0 then "-"%char :: show_nonneg (- z) else show_nonneg z.
(** [f'{z:+}'] *)
Definition show_signed (z : Z) : str := if z <? 0 then show_Z z else "+"%char :: show_Z z.
(** the [6] in [f'{z:+6}']: at least six characters, numbers to the right *)
Definition pad6 (s : str) : str := repeat " "%char (6 - List.length s) ++ s.

(** color_diff and color_size (format_table.py:33-54) for integers *)
Definition num_cell (diff : bool) (size sdiff : Z) : str :=
  if negb diff then show_Z size
  else show_Z size ++ " "%char :: pad6 (if sdiff =? 0 then show_Z sdiff else show_signed sdiff).

(** [int(s)] for a string: base 10, surrounding white space, sign, underscores between digits *)
Definition py_int10 (s : str) : option Z :=
  match strip s with
  | "-"%char :: r => option_map Z.opp (int_digits 10 r 0 true)
  | "+"%char :: r => int_digits 10 r 0 true
  | r => int_digits 10 r 0 true
  end.

(** ** column selection *)

Inductive sort_error :=
| NoColumn (name : str)                      (* Column "..." not found *)
| DescriptionColumn                          (* Sorting based on column 0 *)
| OutOfRange (idx lo hi nlo nhi : Z).        (* out of range, use lo..hi or nlo..nhi *)
Inductive tres (A : Type) := TOk (x : A) | TDie (e : sort_error).
Arguments TOk {A} x.
Arguments TDie {A} e.

(** index of the first header equal to the argument (format_table.py:115-120, 229-232) *)
Fixpoint header_index (headers : list str) (name : str) (i : Z) : option Z :=
  match headers with
  | [] => None
  | h :: r => if h =?= name then Some i else header_index r name (i + 1)
  end.
(** format_table.py:112-125 and 226-237 *)
Definition sort_column (headers : list str) (arg : str) : tres Z :=
  match (match py_int10 arg with Some z => Some z | None => header_index headers arg 0 end) with
  | None => TDie (NoColumn arg)
  | Some z => if z =? 0 then TDie DescriptionColumn else TOk z
  end.
(** [args['sort'] - 1 if args['sort'] > 0 else args['sort']] *)
Definition key_index (z : Z) : Z := if 0 <? z then z - 1 else z.
(** [l[i]] *)
Definition py_nth {A} (l : list A) (i : Z) : option A :=
  let n := Z.of_nat (List.length l) in
  if 0 <=? i then nth_error l (Z.to_nat i) else if 0 <=? n + i then nth_error l (Z.to_nat (n + i)) else None.

(** ** tables of entries *)

Record table := Tab { tb_headers : list str; tb_rows : list (list str) }.
(** the namedtuples Column and Row (format_table.py:197-199) *)
Record column := Column { cl_info : str; cl_size : Z; cl_diff : Z }.
Record trow := TRow { tr_name : str; tr_columns : list column }.

Definition mk_column (a : args) (size sdiff : Z) : column := Column (num_cell (given (a_diff a)) size sdiff) size sdiff.
(** format_table.py:204-224 *)
Definition entry_columns (a : args) (e : sentry) : list column :=
  mk_column a (se_size e) (se_diff e) ::
  flat_map (fun t => mk_column a (st_size (snd t)) (st_diff (snd t)) ::
    map (fun s => mk_column a (ss_size (snd s)) (ss_diff (snd s))) (st_sections (snd t))) (se_types e).
Definition shown (a : args) (full abbrev : str) : str := if a_abbrev a then abbrev else full.
Definition entry_row (a : args) (kv : str * sentry) : trow := TRow (shown a (fst kv) (se_abbrev (snd kv))) (entry_columns a (snd kv)).

(** format_table.py:239-245 *)
Definition row_key (a : args) (z : Z) (r : trow) : option Z :=
  option_map (fun c => if a_sort_diff a then cl_diff c else cl_size c) (py_nth (tr_columns r) (key_index z)).
(** _get_table_sorted (format_table.py:189-261).  [columns] in the message is that of the last row *)
Definition get_table_sorted (a : args) (headers : list str) (summary : dict str sentry) : tres (list (list str)) :=
  let rows := map (entry_row a) summary in
  match sort_column headers (a_sort a) with
  | TDie e => TDie e
  | TOk z =>
    if forallb (fun r => match row_key a z r with Some _ => true | None => false end) rows then
      TOk (map (fun r => tr_name r :: map cl_info (tr_columns r))
             (py_sorted (fun r => match row_key a z r with Some k => k | None => 0 end) (a_sort_reverse a) rows))
    else
      let n := Z.of_nat (List.length (last (map tr_columns rows) [])) in
      TDie (OutOfRange z 1 (n - 1) (- n) (-1))
  end.

(** headers from the first entry (format_table.py:269-278, 292-301, 315-324) *)
Definition summary_headers (a : args) (first : str) (summary : dict str sentry) : list str :=
  first :: list_ascii_of_string "Total Size" ::
  match summary with
  | [] => []
  | e :: _ => flat_map (fun t => fst t :: map (fun s => shown a (fst s) (ss_abbrev (snd s))) (st_sections (snd t))) (se_types (snd e))
  end.
Definition entries_table (a : args) (first : str) (summary : dict str sentry) : tres table :=
  let headers := summary_headers a first summary in
  match get_table_sorted a headers summary with TOk rows => TOk (Tab headers rows) | TDie e => TDie e end.

(** format_table.py:264-284 *)
Definition get_object_files_table (m : memmap) (a : args) : tres table :=
  entries_table a (list_ascii_of_string "Object File") (get_summary_filtered (get_object_files_summary m a) a).
(** format_table.py:287-307 *)
Definition get_archives_table (m : memmap) (a : args) : tres table :=
  entries_table a (list_ascii_of_string "Archive File") (get_summary_filtered (get_archives_summary m a) a).
(** format_table.py:310-330 *)
Definition get_symbols_table (m : memmap) (a : args) : res (tres table) :=
  do s <- get_symbols_summary m a;
  Ok (entries_table a (list_ascii_of_string "Symbol") (get_summary_filtered s a)).

(** ** the summary table (format_table.py:57-186) *)

(** Python floats: IEEE binary64 as specified by the standard library of Coq.
    Simplification: the OverflowError of [/] for quotients above 2^1024 is not modelled. *)
Definition f64 (z : Z) : spec_float := binary_normalize 53 1024 z 0 false.
Definition fdiv := SFdiv 53 1024.
Definition fmul := SFmul 53 1024.
Definition fsub := SFsub 53 1024.
(** [int(x)]; an infinite value or not-a-number would raise, sizes are too small for that *)
Definition ftrunc (x : spec_float) : Z :=
  match x with
  | S754_finite s m e => let v := if 0 <=? e then Zpos m * 2 ^ e else Zpos m / 2 ^ (- e) in if s then - v else v
  | _ => 0
  end.
(** an integer as operand of [/]: Python rounds the quotient of two integers once, however
    large they are *)
Definition int_operand (z : Z) : spec_float :=
  match z with Z0 => S754_zero false | Zpos p => S754_finite false p 0 | Zneg p => S754_finite true p 0 end.
(** [used / size * 100] *)
Definition percent (used size : Z) : spec_float :=
  if size =? 0 then f64 0 else fmul (fdiv (int_operand used) (int_operand size)) (f64 100).

(** the values added to a memory type or section (format_table.py:67-110) *)
Record usage := Usage {
  u_used : Z; u_used_diff : Z; u_pct : spec_float; u_pct_diff : spec_float;
  u_remain : Z; u_remain_diff : Z; u_total : Z; u_total_diff : Z }.

Definition type_usage (t : mtype) : usage :=
  let pct := percent (t_used t) (t_size t) in
  Usage (t_used t) (t_used_diff t) pct
    (fsub pct (percent (t_used t - t_used_diff t) (t_size t - t_size_diff t)))
    (if t_size t =? 0 then 0 else t_size t - t_used t) (t_size_diff t - t_used_diff t)
    (t_size t) (t_size_diff t).
Definition sect_usage (t : mtype) (s : sect) : usage :=
  let pct := percent (n_size s) (t_size t) in
  Usage (n_size s) (n_diff s) pct
    (fsub pct (percent (n_size s - n_diff s) (t_size t - t_size_diff t))) 0 0 0 0.

Inductive sort_by := ByUsed | ByPct | ByRemain | ByTotal.
Definition usage_key (a : args) (k : sort_by) (u : usage) : Z :=
  match k with
  | ByUsed => if a_sort_diff a then u_used_diff u else u_used u
  | ByPct => ftrunc (if a_sort_diff a then u_pct_diff u else u_pct u)
  | ByRemain => if a_sort_diff a then u_remain_diff u else u_remain u
  | ByTotal => if a_sort_diff a then u_total_diff u else u_total u
  end.

Definition usage_headers : list str :=
  map list_ascii_of_string ["Memory Type/Section"; "Used [bytes]"; "Used [%]"; "Remain [bytes]"; "Total [bytes]"]%string.

(** [pf]: text of the percent column, color_diff(round(pct, 2), round(pct_diff, 2), diff) *)
Definition pct_format := bool -> spec_float -> spec_float -> str.

(** format_table.py:142-160 *)
Definition type_row (pf : pct_format) (a : args) (name : str) (t : mtype) : list str :=
  let u := type_usage t in
  let d := given (a_diff a) in
  name :: num_cell d (u_used u) (u_used_diff u) ::
  (if negb (t_size t =? 0)
   then [pf d (u_pct u) (u_pct_diff u); num_cell d (u_remain u) (u_remain_diff u); num_cell d (u_total u) (u_total_diff u)]
   else [[]; []; []]).
(** format_table.py:162-184 *)
Definition sect_row (pf : pct_format) (a : args) (t : mtype) (kv : str * sect) : list str :=
  let u := sect_usage t (snd kv) in
  let d := given (a_diff a) in
  (list_ascii_of_string "   " ++ shown a (fst kv) (n_abbrev (snd kv))) :: num_cell d (u_used u) (u_used_diff u) ::
  (if negb (t_size t =? 0) then [pf d (u_pct u) (u_pct_diff u); []; []] else [[]; []; []]).

Definition get_summary_table (pf : pct_format) (m0 : memmap) (a : args) : tres table :=
  let m := trim m0 a in
  match sort_column usage_headers (a_sort a) with
  | TDie e => TDie e
  | TOk z =>
    match py_nth [ByUsed; ByPct; ByRemain; ByTotal] (key_index z) with
    | None => TDie (OutOfRange z 1 4 (-4) (-1))
    | Some k =>
      TOk (Tab usage_headers
        (flat_map (fun t =>
           type_row pf a (fst t) (snd t) ::
           map (sect_row pf a (snd t))
             (sort_dict_by_key (fun s => usage_key a k (sect_usage (snd t) s)) (a_sort_reverse a) (t_sections (snd t))))
          (sort_dict_by_key (fun t => usage_key a k (type_usage t)) (a_sort_reverse a) (m_types m))))
    end
  end.

(** ** the dependency table (format_table.py:333-371); newlines between symbols *)
Definition newline : ascii := "010"%char.
Fixpoint join_lines (l : list str) : str :=
  match l with [] => [] | [x] => x | x :: r => x ++ newline :: join_lines r end.
Definition dep_row (a : args) (name : str) (d : darch) (i : nat) (kv : str * dent) : list str :=
  (if Nat.eqb i 0 then [shown a name (da_abbrev d); show_Z (da_size d)] else [[]; []]) ++
  [shown a (fst kv) (de_abbrev (snd kv)); show_Z (de_size (snd kv))] ++
  (if a_dep_symbols a then [join_lines (de_symbols (snd kv))] else []).
Fixpoint dep_rows (a : args) (name : str) (d : darch) (i : nat) (l : dict str dent) : list (list str) :=
  match l with [] => [] | kv :: r => dep_row a name d i kv :: dep_rows a name d (S i) r end.
Definition dependencies_table (a : args) (deps : dict str darch) : table :=
  let dep := list_ascii_of_string (if a_dep_reverse a then "Dependents" else "Dependencies") in
  Tab ([list_ascii_of_string "Archive"; list_ascii_of_string "Archive Size"; dep; dep ++ list_ascii_of_string " Sizes"] ++
       (if a_dep_symbols a then [list_ascii_of_string "Symbols"] else []))
      (flat_map (fun kv => dep_rows a (fst kv) (snd kv) 0 (da_archives (snd kv))) deps).
Definition get_archives_dependencies_table (ord : set_order) (crt : option crt_table) (m : memmap) (elf : option (list dsym)) (a : args) : res table :=
  do deps <- get_archives_dependencies ord crt m elf a;
  Ok (dependencies_table a (summary_filtered da_abbrev deps a)).
