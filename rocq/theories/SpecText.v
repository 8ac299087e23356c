(** * Specification vocabulary for printed texts: a reader of JSON texts (RFC 8259),
    a reader of DOT graphs *)
From Coq Require Import Ascii String List ZArith Bool Permutation.
From Verif Require Import Base MemMap Filter PyStr Pipeline MapFile Deps Table Formats Markup Project Main SpecMap SpecTable.
Import ListNotations.
Open Scope list_scope.
Open Scope Z_scope.

(** ** JSON *)

(** white space: space, tab, line feed, carriage return *)
Definition json_ws (c : ascii) : bool := let n := nat_of_ascii c in (n =? 32)%nat || (n =? 9)%nat || (n =? 10)%nat || (n =? 13)%nat.
Fixpoint skip_ws (s : str) : str := match s with c :: s' => if json_ws c then skip_ws s' else s | [] => [] end.

Definition digit_of (c : ascii) : option Z :=
  let n := nat_of_ascii c in if ((48 <=? n) && (n <=? 57))%nat then Some (Z.of_nat n - 48) else None.
Definition hex_of (c : ascii) : option nat :=
  let n := nat_of_ascii c in
  if ((48 <=? n) && (n <=? 57))%nat then Some (n - 48)%nat
  else if ((97 <=? n) && (n <=? 102))%nat then Some (n - 87)%nat
  else if ((65 <=? n) && (n <=? 70))%nat then Some (n - 55)%nat
  else None.

(** the digits at the beginning: their number, their value, and the rest *)
Fixpoint read_digits (count : nat) (value : Z) (s : str) : nat * Z * str :=
  match s with
  | c :: s' => match digit_of c with Some d => read_digits (S count) (10 * value + d) s' | None => (count, value, s) end
  | [] => (count, value, s)
  end.
(** an integer: no leading zeros, no fraction, no exponent *)
Definition read_natural (s : str) : option (Z * str) :=
  match read_digits 0 0 s with
  | (O, _, _) => None
  | (S k, v, r) =>
    match s, k, r with
    | "0"%char :: _, S _, _ => None
    | _, _, "."%char :: _ => None
    | _, _, "e"%char :: _ => None
    | _, _, "E"%char :: _ => None
    | _, _, _ => Some (v, r)
    end
  end.
Definition read_integer (s : str) : option (Z * str) :=
  match s with
  | "-"%char :: s' => match read_natural s' with Some (v, r) => Some (- v, r) | None => None end
  | _ => read_natural s
  end.

(** the characters of a string up to the closing quotation mark; code points up to 255 *)
Fixpoint read_chars (s : str) : option (str * str) :=
  let more c s' := match read_chars s' with Some (t, r) => Some (c :: t, r) | None => None end in
  match s with
  | [] => None
  | c :: s1 =>
    if (nat_of_ascii c <? 32)%nat then None
    else if c =?= """"%char then Some ([], s1)
    else if c =?= "\"%char then
      match s1 with
      | """"%char :: s2 => more """"%char s2
      | "\"%char :: s2 => more "\"%char s2
      | "/"%char :: s2 => more "/"%char s2
      | "b"%char :: s2 => more "008"%char s2
      | "f"%char :: s2 => more "012"%char s2
      | "n"%char :: s2 => more "010"%char s2
      | "r"%char :: s2 => more "013"%char s2
      | "t"%char :: s2 => more "009"%char s2
      | "u"%char :: "0"%char :: "0"%char :: a :: b :: s2 =>
        match hex_of a, hex_of b with Some x, Some y => more (ascii_of_nat (16 * x + y)) s2 | _, _ => None end
      | _ => None
      end
    else more c s1
  end.

Fixpoint expect (p s : str) : option str :=
  match p, s with
  | [], _ => Some s
  | c :: p', d :: s' => if c =?= d then expect p' s' else None
  | _ :: _, [] => None
  end.

Fixpoint read_value (fuel : nat) (s : str) : option (json * str) :=
  match fuel with
  | O => None
  | S f =>
    match skip_ws s with
    | "n"%char :: r => option_map (fun r => (JNull, r)) (expect (list_ascii_of_string "ull") r)
    | "t"%char :: r => option_map (fun r => (JBool true, r)) (expect (list_ascii_of_string "rue") r)
    | "f"%char :: r => option_map (fun r => (JBool false, r)) (expect (list_ascii_of_string "alse") r)
    | """"%char :: r => option_map (fun p => (JStr (fst p), snd p)) (read_chars r)
    | "["%char :: r =>
      match skip_ws r with
      | "]"%char :: r' => Some (JList [], r')
      | _ => option_map (fun p => (JList (fst p), snd p)) (read_items f r)
      end
    | "{"%char :: r =>
      match skip_ws r with
      | "}"%char :: r' => Some (JObj [], r')
      | _ => option_map (fun p => (JObj (fst p), snd p)) (read_members f r)
      end
    | r => option_map (fun p => (JNum (fst p), snd p)) (read_integer r)
    end
  end
with read_items (fuel : nat) (s : str) : option (list json * str) :=
  match fuel with
  | O => None
  | S f =>
    match read_value f s with
    | Some (v, r) =>
      match skip_ws r with
      | ","%char :: r' => option_map (fun p => (v :: fst p, snd p)) (read_items f r')
      | "]"%char :: r' => Some ([v], r')
      | _ => None
      end
    | None => None
    end
  end
with read_members (fuel : nat) (s : str) : option (dict str json * str) :=
  match fuel with
  | O => None
  | S f =>
    match skip_ws s with
    | """"%char :: r =>
      match read_chars r with
      | Some (k, r1) =>
        match skip_ws r1 with
        | ":"%char :: r2 =>
          match read_value f r2 with
          | Some (v, r3) =>
            match skip_ws r3 with
            | ","%char :: r4 => option_map (fun p => ((k, v) :: fst p, snd p)) (read_members f r4)
            | "}"%char :: r4 => Some ([(k, v)], r4)
            | _ => None
            end
          | None => None
          end
        | _ => None
        end
      | None => None
      end
    | _ => None
    end
  end.

(** the value of a text, if it is a JSON text *)
Definition read_json (s : str) : option json :=
  match read_value (2 * length s + 2) s with
  | Some (v, r) => match skip_ws r with [] => Some v | _ => None end
  | None => None
  end.

(** ** DOT (https://graphviz.org/doc/info/lang.html): tokens are names, quoted names,
    arrows and punctuation; statements are nodes and edges with attributes *)
Inductive dot_token := DotId (s : str) | DotPunct (c : ascii) | DotArrow.
Inductive dot_state := Between | InId (acc : str) | InString (acc : str) | Escaped (acc : str) | AfterDash.
Definition id_char (c : ascii) : bool :=
  let n := nat_of_ascii c in
  ((48 <=? n) && (n <=? 57) || (65 <=? n) && (n <=? 90) || (97 <=? n) && (n <=? 122))%nat || (c =?= "_"%char).
(** a character between tokens *)
Definition dot_start (c : ascii) : option (list dot_token * dot_state) :=
  if json_ws c then Some ([], Between)
  else if c =?= """"%char then Some ([], InString [])
  else if c =?= "-"%char then Some ([], AfterDash)
  else if id_char c then Some ([], InId [c])
  else if mem c ["{"%char; "}"%char; "["%char; "]"%char; "="%char; ","%char; ";"%char] then Some ([DotPunct c], Between)
  else None.
Definition dot_step (st : dot_state) (c : ascii) : option (list dot_token * dot_state) :=
  match st with
  | Between => dot_start c
  | InId acc => if id_char c then Some ([], InId (acc ++ [c])) else match dot_start c with Some (t, st') => Some (DotId acc :: t, st') | None => None end
  | InString acc => if c =?= """"%char then Some ([DotId acc], Between) else if c =?= "\"%char then Some ([], Escaped acc) else Some ([], InString (acc ++ [c]))
  | Escaped acc => if c =?= """"%char then Some ([], InString (acc ++ [c])) else Some ([], InString (acc ++ ["\"%char; c]))
  | AfterDash => if c =?= ">"%char then Some ([DotArrow], Between) else None
  end.
Fixpoint dot_tokens (st : dot_state) (s : str) : option (list dot_token) :=
  match s with
  | [] => match st with Between => Some [] | InId acc => Some [DotId acc] | _ => None end
  | c :: s' =>
    match dot_step st c with
    | Some (t, st') => option_map (app t) (dot_tokens st' s')
    | None => None
    end
  end.
Fixpoint read_attrs (l : list dot_token) : option (list (str * str) * list dot_token) :=
  match l with
  | DotPunct "]"%char :: r => Some ([], r)
  | DotId k :: DotPunct "="%char :: DotId v :: r =>
    match (match r with DotPunct ","%char :: r' => read_attrs r' | _ => read_attrs r end) with
    | Some (a, r') => Some ((k, v) :: a, r')
    | None => None
    end
  | _ => None
  end.
Definition opt_attrs (l : list dot_token) : option (list (str * str) * list dot_token) :=
  match l with DotPunct "["%char :: r => read_attrs r | _ => Some ([], l) end.
Inductive dot_stmt := NodeStmt (name : str) (attrs : list (str * str)) | EdgeStmt (from to : str) (attrs : list (str * str)).
Fixpoint read_stmts (fuel : nat) (l : list dot_token) : option (list dot_stmt) :=
  match fuel with
  | O => None
  | S f =>
    match l with
    | [DotPunct "}"%char] => Some []
    | DotId x :: DotArrow :: DotId y :: r =>
      match opt_attrs r with Some (a, r') => option_map (cons (EdgeStmt x y a)) (read_stmts f r') | None => None end
    | DotId x :: r =>
      match opt_attrs r with Some (a, r') => option_map (cons (NodeStmt x a)) (read_stmts f r') | None => None end
    | _ => None
    end
  end.
(** the statements of a strict directed graph *)
Definition read_dot (s : str) : option (list dot_stmt) :=
  match dot_tokens Between s with
  | Some (DotId a :: DotId b :: DotPunct "{"%char :: r) =>
    if (a =?= list_ascii_of_string "strict") && (b =?= list_ascii_of_string "digraph") then read_stmts (length r) r else None
  | _ => None
  end.

(** texts with a character between them *)
Inductive separated (c : ascii) : list str -> str -> Prop :=
| sep_none : separated c [] []
| sep_one s : separated c [s] s
| sep_more s l t : l <> [] -> separated c l t -> separated c (s :: l) (s ++ c :: t).
(** a statement is what is expected of a line of the graph *)
Definition states (st : dot_stmt) (l : dot_line) : Prop :=
  let attr := list_ascii_of_string in
  match l with
  | DotNode name label size outer => exists number, written number size /\
    st = NodeStmt name
      [(attr "shape", attr (if outer then "box" else "ellipse")%string);
       (attr "label", label ++ attr " (" ++ number ++ attr ")");
       (attr "style", attr "filled");
       (attr "fillcolor", attr (if outer then "darkorange3" else "azure")%string)]
  | DotEdge x y None => st = EdgeStmt x y []
  | DotEdge x y (Some symbols) => exists label, separated (ascii_of_nat 10) symbols label /\ st = EdgeStmt x y [(attr "label", label)]
  end.
(** names as they are in archives: no brackets, quotation marks or backslashes *)
Definition dot_name (s : str) : Prop := Forall (fun c => ~ In c ["["%char; "]"%char; """"%char; "\"%char]) s.
Definition dot_names (l : dot_line) : Prop :=
  match l with
  | DotNode name label _ _ => dot_name name /\ dot_name label
  | DotEdge x y symbols => dot_name x /\ dot_name y /\ match symbols with Some l => Forall dot_name l | None => True end
  end.

(** ** What is shown of texts with markup *)

(** names that rich leaves alone *)
Definition no_bracket (s : str) : Prop := ~ In "["%char s.
(** no string in the value has an opening bracket *)
Fixpoint names_free (j : json) : Prop :=
  match j with
  | JStr s => no_bracket s
  | JList l => (fix all (l : list json) : Prop := match l with [] => True | x :: r => names_free x /\ all r end) l
  | JObj d => (fix all (d : dict str json) : Prop := match d with [] => True | x :: r => no_bracket (fst x) /\ names_free (snd x) /\ all r end) d
  | _ => True
  end.

(** a text with markup is shown as [t]; the function is rich's Style.normalize *)
Definition shown_as (normalize : str -> str) (s t : str) : Prop := plain normalize s = Some t.
(** every title and every cell of the first table is shown as that of the second *)
Definition table_shown_as (normalize : str -> str) (t' t : table) : Prop :=
  Forall2 (shown_as normalize) (tb_headers t') (tb_headers t) /\
  Forall2 (Forall2 (shown_as normalize)) (tb_rows t') (tb_rows t).
(** the lines of a tree, with their depths *)
Definition tree_shown_as (normalize : str -> str) (l' l : list (nat * str)) : Prop :=
  Forall2 (fun x' x => fst x' = fst x /\ shown_as normalize (snd x') (snd x)) l' l.

(** the descriptions of the rows have no opening bracket *)
Definition rows_plain (t : table) : Prop := Forall (fun r => no_bracket (hd [] r)) (tb_rows t).
(** the titles neither *)
Definition titles_plain (t : table) : Prop := Forall no_bracket (tb_headers t).

(** the text of a number: no white space, no brackets, no backslashes *)
Definition numeral (s : str) : Prop := s <> [] /\ Forall (fun c => ~ ws c /\ c <> "["%char /\ c <> "\"%char) s.

(** texts of floats as Python has them: a numeral, and a numeral that spaces may precede *)
Definition float_texts (num diff : SpecFloat.spec_float -> str) : Prop :=
  (forall x, numeral (num x)) /\ forall x, exists k s, diff x = repeat " "%char k ++ s /\ numeral s.

(** ** What JSON values say *)

(** an object with exactly these members, in any order *)
Definition fields (j : json) (l : list (string * json)) : Prop :=
  exists d, j = JObj d /\ Permutation d (map (fun kv => (list_ascii_of_string (fst kv), snd kv)) l).
(** an object with one member for each item of a dict *)
Definition members {A} (R : json -> A -> Prop) (j : json) (d : dict str A) : Prop :=
  exists l, j = JObj l /\ Forall2 (fun kv x => fst kv = fst x /\ R (snd kv) (snd x)) l d.
Definition list_of {A} (R : json -> A -> Prop) (j : json) (l : list A) : Prop := exists js, j = JList js /\ Forall2 R js l.
Definition is_text (j : json) (s : str) : Prop := j = JStr s.

Definition says_part (j : json) (size : Z) : Prop := fields j [("size", JNum size)]%string.
Definition says_jtype (j : json) (t : jtype) : Prop :=
  exists parts, members says_part parts (j_parts t) /\
    fields j [("name", JStr (j_name t)); ("total", JNum (j_total t)); ("used", JNum (j_used t)); ("free", JNum (j_free t)); ("parts", parts)]%string.
Definition says_summary (j : json) (s : jsummary) : Prop :=
  exists layout, list_of says_jtype layout (js_layout s) /\
    fields j [("version", JStr (list_ascii_of_string "1.2")); ("total_size", JNum (js_total_size s)); ("layout", layout)]%string.

Definition says_ssect (j : json) (s : ssect) : Prop :=
  fields j [("abbrev_name", JStr (ss_abbrev s)); ("size", JNum (ss_size s)); ("size_diff", JNum (ss_diff s))]%string.
Definition says_stype (j : json) (t : stype) : Prop :=
  exists sections, members says_ssect sections (st_sections t) /\
    fields j [("size", JNum (st_size t)); ("size_diff", JNum (st_diff t)); ("sections", sections)]%string.
Definition says_entry (j : json) (e : sentry) : Prop :=
  exists types, members says_stype types (se_types e) /\
    fields j [("abbrev_name", JStr (se_abbrev e)); ("size", JNum (se_size e)); ("size_diff", JNum (se_diff e)); ("memory_types", types)]%string.

Definition says_dent (j : json) (e : dent) : Prop :=
  exists symbols, list_of is_text symbols (de_symbols e) /\
    fields j [("abbrev_name", JStr (de_abbrev e)); ("size", JNum (de_size e)); ("symbols", symbols)]%string.
Definition says_darch (j : json) (d : darch) : Prop :=
  exists archives, members says_dent archives (da_archives d) /\
    fields j [("abbrev_name", JStr (da_abbrev d)); ("size", JNum (da_size d)); ("archives", archives)]%string.

Definition says_sym (j : json) (y : sym) : Prop :=
  fields j ([("abbrev_name", JStr (y_abbrev y)); ("size", JNum (y_size y)); ("size_diff", JNum (y_diff y))]%string ++ (if y_null y then [("null", JObj [])]%string else [])).
Definition says_node {C} (children : string) (R : json -> C -> Prop) (j : json) (n : node C) : Prop :=
  exists sub, members R sub (n_sub n) /\
    fields j [("abbrev_name", JStr (n_abbrev n)); ("size", JNum (n_size n)); ("size_diff", JNum (n_diff n)); (children, sub)]%string.
Definition says_mtype (j : json) (t : mtype) : Prop :=
  exists sections, members (says_node "archives" (says_node "object_files" (says_node "symbols" says_sym))) sections (t_sections t) /\
    fields j [("size", JNum (t_size t)); ("size_diff", JNum (t_size_diff t)); ("used", JNum (t_used t)); ("used_diff", JNum (t_used_diff t)); ("sections", sections)]%string.
Definition says_memmap (j : json) (m : memmap) : Prop :=
  exists types, members says_mtype types (m_types m) /\
    fields j [("version", JStr (list_ascii_of_string "1.0")); ("target", JStr (m_target m)); ("target_diff", JStr (m_target_diff m));
              ("image_size", JNum (m_image_size m)); ("image_size_diff", JNum (m_image_size_diff m));
              ("project_path", JStr (m_project_path m)); ("project_path_diff", JStr (m_project_path_diff m)); ("memory_types", types)]%string.
Definition says (j : json) (p : piece) : Prop :=
  match p with
  | PJson s => says_summary j s
  | PEntries d => members says_entry j d
  | PDeps d => members says_darch j d
  | PRaw m => says_memmap j m
  | _ => False
  end.

(** the names in it *)
Definition entry_names (e : sentry) : list str :=
  se_abbrev e :: flat_map (fun t => fst t :: flat_map (fun s => [fst s; ss_abbrev (snd s)]) (st_sections (snd t))) (se_types e).
Definition darch_names (d : darch) : list str :=
  da_abbrev d :: flat_map (fun e => fst e :: de_abbrev (snd e) :: de_symbols (snd e)) (da_archives d).
Definition node_names {C} (f : C -> list str) (n : node C) : list str := n_abbrev n :: flat_map (fun kv => fst kv :: f (snd kv)) (n_sub n).
Definition section_names (s : sect) : list str := node_names (node_names (node_names (fun y => [y_abbrev y]))) s.
Definition piece_names (p : piece) : list str :=
  match p with
  | PJson s => flat_map (fun t => j_name t :: map fst (j_parts t)) (js_layout s)
  | PEntries d => flat_map (fun kv => fst kv :: entry_names (snd kv)) d
  | PDeps d => flat_map (fun kv => fst kv :: darch_names (snd kv)) d
  | PRaw m =>
    [m_target m; m_target_diff m; m_project_path m; m_project_path_diff m] ++
    flat_map (fun t => fst t :: flat_map (fun s => fst s :: section_names (snd s)) (t_sections (snd t))) (m_types m)
  | _ => []
  end.

(** ** texts without colours *)
(** the characters that may follow the bracket of a tag *)
Definition tag_char (c : ascii) : Prop := (97 <= nat_of_ascii c <= 122)%nat \/ c = "#"%char \/ c = "/"%char \/ c = "@"%char.
Definition has_tag (s : str) : Prop :=
  exists p c t q, s = p ++ "["%char :: c :: t ++ "]"%char :: q /\ tag_char c /\ Forall (fun d => d <> "["%char /\ d <> "]"%char) t.
(** printable, or a new line *)
Definition printable (c : ascii) : Prop := nat_of_ascii c = 10%nat \/ (32 <= nat_of_ascii c <= 126)%nat.
