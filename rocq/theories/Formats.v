(** * Model of format_csv.py, format_json.py and format_tree.py *)
From Coq Require Import Ascii String List ZArith Bool.
From Verif Require Import Base MemMap Filter PyStr Deps Table.
Import ListNotations.
Open Scope list_scope.
Open Scope Z_scope.

(** ** format_csv.show_table (format_csv.py:12-28): header and rows, cells stripped and
    quoted.  Simplification: rich's reading of [...] in names as markup is not modelled. *)
Definition quoted (s : str) : str := """"%char :: s ++ [""""%char].
Fixpoint join_commas (l : list str) : str :=
  match l with [] => [] | [x] => x | x :: r => x ++ ","%char :: join_commas r end.
Definition csv_lines (t : table) : list str :=
  join_commas (map quoted (tb_headers t)) :: map (fun r => join_commas (map (fun c => quoted (strip c)) r)) (tb_rows t).
(** every line is printed with a line end *)
Definition csv_text (t : table) : str := flat_map (fun l => l ++ [newline]) (csv_lines t).

(** ** format_json.show_summary (format_json.py:11-36), the value that is dumped *)
Record jtype := JType { j_name : str; j_total : Z; j_used : Z; j_free : Z; j_parts : dict str Z }.
Record jsummary := JSummary { js_total_size : Z; js_layout : list jtype }.
Definition json_type (a : args) (kv : str * mtype) : jtype :=
  JType (fst kv) (t_size (snd kv)) (t_used (snd kv)) (if t_size (snd kv) =? 0 then 0 else t_size (snd kv) - t_used (snd kv))
    (fold_left (fun d s => dset (shown a (fst s) (n_abbrev (snd s))) (n_size (snd s)) d) (t_sections (snd kv)) []).
Definition json_summary (m0 : memmap) (a : args) : jsummary :=
  let m := sort m0 a in JSummary (m_image_size m0) (map (json_type a) (m_types m)).

(** ** format_tree.py:13-47: nodes of the tree in the order they are printed, with their depth *)
Definition tree_label (a : args) (name : str) (size sdiff : Z) : str := name ++ " "%char :: num_cell (given (a_diff a)) size sdiff.
Definition tree_node {C} (a : args) (depth : nat) (name : str) (sub : str * C -> list (nat * str)) (n : node C) : list (nat * str) :=
  (depth, tree_label a name (n_size n) (n_diff n)) :: flat_map sub (n_sub n).
Definition tree_sym (a : args) (kv : str * sym) : list (nat * str) := [(5%nat, tree_label a (fst kv) (y_size (snd kv)) (y_diff (snd kv)))].
Definition tree_obj (a : args) (kv : str * obj) := tree_node a 4 (shown a (fst kv) (n_abbrev (snd kv))) (tree_sym a) (snd kv).
Definition tree_arch (a : args) (kv : str * arch) := tree_node a 3 (shown a (fst kv) (n_abbrev (snd kv))) (tree_obj a) (snd kv).
Definition tree_sect (a : args) (kv : str * sect) := tree_node a 2 (shown a (fst kv) (n_abbrev (snd kv))) (tree_arch a) (snd kv).
Definition tree_type (a : args) (kv : str * mtype) : list (nat * str) :=
  let d := given (a_diff a) in
  let t := snd kv in
  (1%nat, fst kv ++ " "%char :: num_cell d (t_used t) (t_used_diff t) ++
     (if t_size t =? 0 then [] else list_ascii_of_string " / " ++ num_cell d (t_size t) (t_size_diff t))) ::
  flat_map (tree_sect a) (t_sections t).
Definition tree_lines (m0 : memmap) (a : args) : list (nat * str) :=
  let m := sort (trim m0 a) a in
  (0%nat, list_ascii_of_string "Memory Types") :: flat_map (tree_type a) (m_types m).

(** format_tree.py:50-77 *)
Definition tree_dep (a : args) (kv : str * dent) : list (nat * str) :=
  (2%nat, shown a (fst kv) (de_abbrev (snd kv)) ++ " "%char :: show_Z (de_size (snd kv))) ::
  (if a_dep_symbols a then map (fun s => (3%nat, s)) (de_symbols (snd kv)) else []).
Definition tree_dependencies (a : args) (deps : dict str darch) : list (nat * str) :=
  (0%nat, list_ascii_of_string (if a_dep_reverse a then "Archive reverse dependencies" else "Archive dependencies")) ::
  flat_map (fun kv => (1%nat, shown a (fst kv) (da_abbrev (snd kv)) ++ " "%char :: show_Z (da_size (snd kv))) ::
                      flat_map (tree_dep a) (da_archives (snd kv))) deps.
