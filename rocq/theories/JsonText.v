(** * Model of the JSON texts: json.dumps(value, indent=4) and the values that are dumped
    (format_json.py:11-61, format_raw.py:11-16) *)
From Coq Require Import Ascii String List ZArith Bool.
From Verif Require Import Base MemMap Filter Pipeline PyStr MapFile Deps Table Formats ElfRead Dwarf Project Main.
Import ListNotations.
Open Scope list_scope.
Open Scope Z_scope.

Definition quote : ascii := """"%char.
(** hexadecimal digit, lower case *)
Definition hex_char (n : nat) : ascii := ascii_of_nat (if (n <? 10)%nat then 48 + n else 87 + n)%nat.
(** json.encoder.py_encode_basestring_ascii for one character *)
Definition escape_char (c : ascii) : str :=
  let n := nat_of_ascii c in
  if c =?= quote then ["\"%char; quote]
  else if c =?= "\"%char then ["\"%char; "\"%char]
  else if (n =? 10)%nat then ["\"%char; "n"%char]
  else if (n =? 13)%nat then ["\"%char; "r"%char]
  else if (n =? 9)%nat then ["\"%char; "t"%char]
  else if (n =? 12)%nat then ["\"%char; "f"%char]
  else if (n =? 8)%nat then ["\"%char; "b"%char]
  else if ((32 <=? n) && (n <=? 126))%nat then [c]
  else ["\"%char; "u"%char; "0"%char; "0"%char; hex_char (Nat.div n 16); hex_char (Nat.modulo n 16)].
Definition json_string (s : str) : str := quote :: flat_map escape_char s ++ [quote].

(** [sep.join(l)] *)
Fixpoint join_with (sep : str) (l : list str) : str :=
  match l with [] => [] | [x] => x | x :: r => x ++ sep ++ join_with sep r end.
(** a new line at an indentation level *)
Definition new_line (n : nat) : str := newline :: repeat " "%char (4 * n).
(** json.encoder._make_iterencode with indent=4 at level [n] *)
Fixpoint dumps (n : nat) (j : json) : str :=
  match j with
  | JNull => list_ascii_of_string "null"
  | JBool true => list_ascii_of_string "true"
  | JBool false => list_ascii_of_string "false"
  | JNum z => show_Z z
  | JStr s => json_string s
  | JList [] => list_ascii_of_string "[]"
  | JList l =>
    "["%char :: new_line (S n) ++ join_with (","%char :: new_line (S n)) (map (dumps (S n)) l) ++ new_line n ++ ["]"%char]
  | JObj [] => list_ascii_of_string "{}"
  | JObj d =>
    "{"%char :: new_line (S n) ++
    join_with (","%char :: new_line (S n)) (map (fun kv => json_string (fst kv) ++ list_ascii_of_string ": " ++ dumps (S n) (snd kv)) d) ++
    new_line n ++ ["}"%char]
  end.

Notation key := list_ascii_of_string.

(** format_json.show_summary, format_json.py:11-36 *)
Definition json_of_type (j : jtype) : json :=
  JObj [(key "name", JStr (j_name j)); (key "total", JNum (j_total j)); (key "used", JNum (j_used j)); (key "free", JNum (j_free j));
        (key "parts", JObj (map (fun p => (fst p, JObj [(key "size", JNum (snd p))])) (j_parts j)))].
Definition json_of_summary (s : jsummary) : json :=
  JObj [(key "version", JStr (key "1.2")); (key "total_size", JNum (js_total_size s)); (key "layout", JList (map json_of_type (js_layout s)))].

(** entries of the summaries, memorymap.py:653-665 and 745-751, 793-799, 826-832 *)
Definition json_of_sect (s : ssect) : json :=
  JObj [(key "size", JNum (ss_size s)); (key "size_diff", JNum (ss_diff s)); (key "abbrev_name", JStr (ss_abbrev s))].
Definition json_of_stype (t : stype) : json :=
  JObj [(key "size", JNum (st_size t)); (key "size_diff", JNum (st_diff t));
        (key "sections", JObj (map (fun kv => (fst kv, json_of_sect (snd kv))) (st_sections t)))].
Definition json_of_entry (e : sentry) : json :=
  JObj [(key "abbrev_name", JStr (se_abbrev e)); (key "size", JNum (se_size e)); (key "size_diff", JNum (se_diff e));
        (key "memory_types", JObj (map (fun kv => (fst kv, json_of_stype (snd kv))) (se_types e)))].
Definition json_of_entries (d : dict str sentry) : json := JObj (map (fun kv => (fst kv, json_of_entry (snd kv))) d).

(** the dependencies, deps.py:34-48 and 75-90 *)
Definition json_of_dent (e : dent) : json :=
  JObj [(key "abbrev_name", JStr (de_abbrev e)); (key "size", JNum (de_size e)); (key "symbols", JList (map JStr (de_symbols e)))].
Definition json_of_darch (d : darch) : json :=
  JObj [(key "abbrev_name", JStr (da_abbrev d)); (key "size", JNum (da_size d));
        (key "archives", JObj (map (fun kv => (fst kv, json_of_dent (snd kv))) (da_archives d)))].
Definition json_of_deps (d : dict str darch) : json := JObj (map (fun kv => (fst kv, json_of_darch (snd kv))) d).

(** the memory map, memorymap.py:187-196, 887-960, 1273-1310; a symbol with the key [None]
    (memorymap.py:459-464) has a member called null *)
Definition json_of_sym (y : sym) : json :=
  JObj ([(key "abbrev_name", JStr (y_abbrev y)); (key "size", JNum (y_size y)); (key "size_diff", JNum (y_diff y))] ++
        (if y_null y then [(key "null", JObj [])] else [])).
Definition json_of_node {C} (children : string) (f : C -> json) (n : node C) : json :=
  JObj [(key "abbrev_name", JStr (n_abbrev n)); (key "size", JNum (n_size n)); (key "size_diff", JNum (n_diff n));
        (key children, JObj (map (fun kv => (fst kv, f (snd kv))) (n_sub n)))].
Definition json_of_section (s : sect) : json :=
  json_of_node "archives" (json_of_node "object_files" (json_of_node "symbols" json_of_sym)) s.
Definition json_of_mtype (t : mtype) : json :=
  JObj [(key "size", JNum (t_size t)); (key "size_diff", JNum (t_size_diff t)); (key "used", JNum (t_used t)); (key "used_diff", JNum (t_used_diff t));
        (key "sections", JObj (map (fun kv => (fst kv, json_of_section (snd kv))) (t_sections t)))].
Definition json_of_memmap (m : memmap) : json :=
  JObj [(key "version", JStr (key "1.0")); (key "target", JStr (m_target m)); (key "target_diff", JStr (m_target_diff m));
        (key "image_size", JNum (m_image_size m)); (key "image_size_diff", JNum (m_image_size_diff m));
        (key "project_path", JStr (m_project_path m)); (key "project_path_diff", JStr (m_project_path_diff m));
        (key "memory_types", JObj (map (fun kv => (fst kv, json_of_mtype (snd kv))) (m_types m)))].

(** the text given to log.print, format_json.py:36, 42, 48, 54, 61 and format_raw.py:14, 16 *)
Definition json_of_piece (p : piece) : option json :=
  match p with
  | PJson s => Some (json_of_summary s)
  | PEntries d => Some (json_of_entries d)
  | PDeps d => Some (json_of_deps d)
  | PRaw m => Some (json_of_memmap m)
  | _ => None
  end.
Definition json_text (p : piece) : option str := option_map (dumps 0) (json_of_piece p).
