(** * Model of the texts with markup that the formats hand over to rich
    (format_table.py, format_csv.py, format_tree.py, format_dot.py).

    Table.v, Formats.v and Deps.v have the same tables, trees and graphs without colours;
    the proofs relate the two.  The text of a percentage is assembled from texts of the
    rounded numbers, which are parameters. *)
From Coq Require Import Ascii String List ZArith Bool SpecFloat.
From Verif Require Import Base MemMap Filter PyStr Pipeline MapFile Deps Table Formats Markup JsonText.
Import ListNotations.
Open Scope list_scope.
Open Scope Z_scope.

(** ** color_diff and color_size, format_table.py:33-54 *)

(** a text between two tags *)
Definition colored (opening closing : string) (s : str) : str := list_ascii_of_string opening ++ s ++ list_ascii_of_string closing.

(** format_table.py:33-42 for integers *)
Definition color_diff (diff : bool) (size sdiff : Z) : str :=
  if negb diff then show_Z size
  else if sdiff <? 0 then show_Z size ++ colored "[green]" "[/green]" (" "%char :: pad6 (show_signed sdiff))
  else if 0 <? sdiff then show_Z size ++ colored "[red]" "[/red]" (" "%char :: pad6 (show_signed sdiff))
  else show_Z size ++ " "%char :: pad6 (show_Z sdiff).
(** format_table.py:45-54: the second green tag is no closing one *)
Definition color_size (diff : bool) (size sdiff : Z) : str :=
  if negb diff then show_Z size
  else if sdiff <? 0 then show_Z size ++ colored "[red]" "[/red]" (" "%char :: pad6 (show_signed sdiff))
  else if 0 <? sdiff then show_Z size ++ colored "[green]" "[green]" (" "%char :: pad6 (show_signed sdiff))
  else show_Z size ++ " "%char :: pad6 (show_Z sdiff).

(** texts of rounded percentages: the number, the difference with sign and padding, and
    the sign of the rounded difference *)
Record float_text := FloatText { ft_num : spec_float -> str; ft_diff : spec_float -> str; ft_sign : spec_float -> comparison }.
(** format_table.py:33-42 for floats *)
Definition color_pct (f : float_text) (diff : bool) (p d : spec_float) : str :=
  if negb diff then ft_num f p
  else match ft_sign f d with
       | Lt => ft_num f p ++ colored "[green]" "[/green]" (" "%char :: ft_diff f d)
       | Gt => ft_num f p ++ colored "[red]" "[/red]" (" "%char :: ft_diff f d)
       | Eq => ft_num f p ++ " "%char :: ft_diff f d
       end.
(** the same without colours: the parameter of Table.v *)
Definition plain_pct (f : float_text) : pct_format := fun diff p d =>
  if negb diff then ft_num f p else ft_num f p ++ " "%char :: ft_diff f d.

(** ** the tables *)

(** format_table.py:204-224 *)
Definition color_column (a : args) (size sdiff : Z) : column := Column (color_diff (given (a_diff a)) size sdiff) size sdiff.
Definition color_columns (a : args) (e : sentry) : list column :=
  color_column a (se_size e) (se_diff e) ::
  flat_map (fun t => color_column a (st_size (snd t)) (st_diff (snd t)) ::
    map (fun s => color_column a (ss_size (snd s)) (ss_diff (snd s))) (st_sections (snd t))) (se_types e).
Definition color_row (a : args) (kv : str * sentry) : trow := TRow (shown a (fst kv) (se_abbrev (snd kv))) (color_columns a (snd kv)).
(** format_table.py:189-261 *)
Definition color_table_sorted (a : args) (headers : list str) (summary : dict str sentry) : tres (list (list str)) :=
  let rows := map (color_row a) summary in
  match sort_column headers (a_sort a) with
  | TDie e => TDie e
  | TOk z =>
    if forallb (fun r => match row_key a z r with Some _ => true | None => false end) rows then
      TOk (map (fun r => tr_name r :: map cl_info (tr_columns r))
             (py_sorted (fun r => match row_key a z r with Some k => k | None => 0 end) (a_sort_reverse a) rows))
    else
      let n := Z.of_nat (List.length (last (map tr_columns rows) [])) in
      TDie (OutOfRange z 1 (n - 1) (- n) (-1))
  end.
(** format_table.py:264-330, the part shared by the three tables *)
Definition color_entries (a : args) (first : str) (summary : dict str sentry) : tres table :=
  let headers := summary_headers a first summary in
  match color_table_sorted a headers summary with TOk rows => TOk (Tab headers rows) | TDie e => TDie e end.

(** format_table.py:59-63: the opening brackets are escaped *)
Definition color_headers : list str :=
  map list_ascii_of_string ["Memory Type/Section"; "Used \[bytes]"; "Used \[%]"; "Remain \[bytes]"; "Total \[bytes]"]%string.
(** format_table.py:142-160 *)
Definition color_type_row (f : float_text) (a : args) (name : str) (t : mtype) : list str :=
  let u := type_usage t in
  let d := given (a_diff a) in
  name :: color_diff d (u_used u) (u_used_diff u) ::
  (if negb (t_size t =? 0)
   then [color_pct f d (u_pct u) (u_pct_diff u); color_size d (u_remain u) (u_remain_diff u); color_size d (u_total u) (u_total_diff u)]
   else [[]; []; []]).
(** format_table.py:162-184 *)
Definition color_sect_row (f : float_text) (a : args) (t : mtype) (kv : str * sect) : list str :=
  let u := sect_usage t (snd kv) in
  let d := given (a_diff a) in
  (list_ascii_of_string "   " ++ shown a (fst kv) (n_abbrev (snd kv))) :: color_diff d (u_used u) (u_used_diff u) ::
  (if negb (t_size t =? 0) then [color_pct f d (u_pct u) (u_pct_diff u); []; []] else [[]; []; []]).
(** format_table.py:57-186; a column is found by the text its title is shown with
    (line 118), see [color_titles] in the proofs *)
Definition color_summary (f : float_text) (m0 : memmap) (a : args) : tres table :=
  let m := trim m0 a in
  match sort_column usage_headers (a_sort a) with
  | TDie e => TDie e
  | TOk z =>
    match py_nth [ByUsed; ByPct; ByRemain; ByTotal] (key_index z) with
    | None => TDie (OutOfRange z 1 4 (-4) (-1))
    | Some k =>
      TOk (Tab color_headers
        (flat_map (fun t =>
           color_type_row f a (fst t) (snd t) ::
           map (color_sect_row f a (snd t))
             (sort_dict_by_key (fun s => usage_key a k (sect_usage (snd t) s)) (a_sort_reverse a) (t_sections (snd t))))
          (sort_dict_by_key (fun t => usage_key a k (type_usage t)) (a_sort_reverse a) (m_types m))))
    end
  end.

(** ** format_tree.show_memmap, format_tree.py:13-47 *)
Definition color_label (a : args) (name : str) (size sdiff : Z) : str := name ++ " "%char :: color_diff (given (a_diff a)) size sdiff.
Definition color_node {C} (a : args) (depth : nat) (name : str) (sub : str * C -> list (nat * str)) (n : node C) : list (nat * str) :=
  (depth, color_label a name (n_size n) (n_diff n)) :: flat_map sub (n_sub n).
Definition color_sym (a : args) (kv : str * sym) : list (nat * str) := [(5%nat, color_label a (fst kv) (y_size (snd kv)) (y_diff (snd kv)))].
Definition color_obj (a : args) (kv : str * obj) := color_node a 4 (shown a (fst kv) (n_abbrev (snd kv))) (color_sym a) (snd kv).
Definition color_arch (a : args) (kv : str * arch) := color_node a 3 (shown a (fst kv) (n_abbrev (snd kv))) (color_obj a) (snd kv).
Definition color_sect (a : args) (kv : str * sect) := color_node a 2 (shown a (fst kv) (n_abbrev (snd kv))) (color_arch a) (snd kv).
Definition color_type (a : args) (kv : str * mtype) : list (nat * str) :=
  let d := given (a_diff a) in
  let t := snd kv in
  (1%nat, fst kv ++ " "%char :: color_diff d (t_used t) (t_used_diff t) ++
     (if t_size t =? 0 then [] else list_ascii_of_string " / " ++ color_size d (t_size t) (t_size_diff t))) ::
  flat_map (color_sect a) (t_sections t).
Definition color_tree (m0 : memmap) (a : args) : list (nat * str) :=
  let m := sort (trim m0 a) a in
  (0%nat, list_ascii_of_string "Memory Types") :: flat_map (color_type a) (m_types m).

(** ** format_dot.show_archives_dependencies, format_dot.py:10-50: the text given to log.print *)

(** format_dot.py:28 and 38-45 *)
Definition dot_line_text (l : dot_line) : str :=
  match l with
  | DotNode name label size outer =>
    list_ascii_of_string """" ++ name ++ list_ascii_of_string """ \[shape=" ++
    list_ascii_of_string (if outer then "box" else "ellipse") ++ list_ascii_of_string ", label=""" ++ label ++
    list_ascii_of_string " (" ++ show_Z size ++ list_ascii_of_string ")"", style=filled, fillcolor=""" ++
    list_ascii_of_string (if outer then "darkorange3" else "azure") ++ list_ascii_of_string """]"
  | DotEdge x y syms =>
    list_ascii_of_string """" ++ x ++ list_ascii_of_string """ -> """ ++ y ++ list_ascii_of_string """" ++
    match syms with
    | Some l => list_ascii_of_string " \[label=""" ++ join_lines l ++ list_ascii_of_string """]"
    | None => []
    end
  end.
(** format_dot.py:20, 48-50 *)
Definition dot_text (l : list dot_line) : str :=
  join_lines (list_ascii_of_string "strict digraph {" :: map dot_line_text l ++ [list_ascii_of_string "}"]).

(** ** show_diff_info and show_image_info, format_table.py:15-30: the texts given to log.eprint *)
Definition color_diff_info (cur ref : str) : list str :=
  [list_ascii_of_string "[bold]CURRENT[/]   project file: """ ++ cur ++ list_ascii_of_string """";
   list_ascii_of_string "[bold]REFERENCE[/] project file: """ ++ ref ++ list_ascii_of_string """";
   list_ascii_of_string "Difference is counted as [bold]CURRENT - REFERENCE[/], i.e. a positive number means that [bold]CURRENT[/] is larger."].
Definition color_image_info (diff : bool) (size sdiff : Z) : str :=
  list_ascii_of_string "Total image size: " ++ color_diff diff size sdiff ++ list_ascii_of_string " bytes (.bin may be padded larger)".
