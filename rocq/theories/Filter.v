(** * Model of get_summary_filtered (memorymap.py:689-708) and of the standard
    library function fnmatch it calls (fnmatch.py of CPython, posix). *)
From Coq Require Import Ascii String List ZArith Bool.
From Verif Require Import Base MemMap.
Import ListNotations.
Open Scope list_scope.

(** items of a translated pattern (CPython fnmatch.translate): '*', '?', one
    literal character, or a class with negation flag and inclusive ranges *)
Inductive glob :=
| GStar
| GAny
| GLit (c : ascii)
| GSet (neg : bool) (ranges : list (ascii * ascii)).

(** first ']' at or after the beginning of [s]: text before it and text after it
    (CPython fnmatch.translate, "while j < n and pat[j] != ']'") *)
Fixpoint upto_bracket (s : str) : option (str * str) :=
  match s with
  | [] => None
  | c :: s' => if c =?= "]"%char then Some ([], s')
               else match upto_bracket s' with Some (a, b) => Some (c :: a, b) | None => None end
  end.

(** the text of a class, after '[' ("if pat[j] == '!'", "if pat[j] == ']'"): a ']'
    in the first place, after an optional '!', does not close the class *)
Definition class_text (s : str) : option (str * str) :=
  match s with
  | c :: s' =>
    if c =?= "!"%char then
      match s' with
      | d :: s'' => if d =?= "]"%char
                    then match upto_bracket s'' with Some (a, b) => Some (c :: d :: a, b) | None => None end
                    else match upto_bracket s' with Some (a, b) => Some (c :: a, b) | None => None end
      | [] => None
      end
    else if c =?= "]"%char then match upto_bracket s' with Some (a, b) => Some (c :: a, b) | None => None end
    else upto_bracket s
  | [] => None
  end.

(** ranges of a class text without '!': [a-b] is a range, anything else stands for
    itself.  Simplification: a class whose text begins with an empty range followed
    by '!' or '^' is read differently by CPython. *)
Fixpoint class_ranges (s : str) : list (ascii * ascii) :=
  match s with
  | a :: ((d :: b :: s'') as s') => if d =?= "-"%char then (a, b) :: class_ranges s'' else (a, a) :: class_ranges s'
  | a :: s' => (a, a) :: class_ranges s'
  | [] => []
  end.

(** CPython fnmatch.translate; [fuel] is the length of the pattern *)
Fixpoint translate_n (fuel : nat) (s : str) : list glob :=
  match fuel with
  | O => []
  | S fuel' =>
    match s with
    | [] => []
    | c :: s' =>
      if c =?= "*"%char then GStar :: translate_n fuel' s'
      else if c =?= "?"%char then GAny :: translate_n fuel' s'
      else if c =?= "["%char then
        match class_text s' with
        | None => GLit c :: translate_n fuel' s'
        | Some (text, rest) =>
          (match text with
           | x :: text' => if x =?= "!"%char then GSet true (class_ranges text') else GSet false (class_ranges text)
           | [] => GSet false []
           end) :: translate_n fuel' rest
        end
      else GLit c :: translate_n fuel' s'
    end
  end.
Definition translate (s : str) : list glob := translate_n (length s) s.

(** membership in a class (the regular expression engine) *)
Definition in_range (c : ascii) (r : ascii * ascii) : bool :=
  ((nat_of_ascii (fst r) <=? nat_of_ascii c) && (nat_of_ascii c <=? nat_of_ascii (snd r)))%nat.
Definition in_set (neg : bool) (ranges : list (ascii * ascii)) (c : ascii) : bool :=
  xorb neg (existsb (in_range c) ranges).

(** matching of the whole string (the regular expression engine on the translated
    pattern, with the "(?s:...)\Z" wrapper) *)
Fixpoint gmatch (g : list glob) (s : str) : bool :=
  match g with
  | [] => match s with [] => true | _ => false end
  | GStar :: g' =>
    (fix star (s : str) : bool :=
       gmatch g' s || match s with [] => false | _ :: s' => star s' end) s
  | GAny :: g' => match s with [] => false | _ :: s' => gmatch g' s' end
  | GLit c :: g' => match s with [] => false | d :: s' => (d =?= c) && gmatch g' s' end
  | GSet n r :: g' => match s with [] => false | d :: s' => in_set n r d && gmatch g' s' end
  end.

(** CPython fnmatch.fnmatch; [normcase] is the identity on posix *)
Definition fnmatch (name pat : str) : bool := gmatch (translate pat) name.

(** memorymap.py:689-708, for any kind of entry with an 'abbrev_name' *)
Definition summary_filtered {V} (abbrev_name : V -> str) (entries : dict str V) (a : args) : dict str V :=
  match a_filter a with
  | None => entries
  | Some patterns =>
    filter (fun kv =>
      let name := if a_abbrev a then abbrev_name (snd kv) else fst kv in
      existsb (fun p => fnmatch name ("*"%char :: p ++ ["*"%char])) patterns) entries
  end.
Definition get_summary_filtered (entries : dict str sentry) (a : args) : dict str sentry :=
  summary_filtered se_abbrev entries a.
