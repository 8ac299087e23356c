(** * Specification vocabulary: text with markup

    What rich's documentation says of console markup
    (https://rich.readthedocs.io/en/stable/markup.html): tags in brackets begin and end
    styles, a backslash before a tag makes it text, a backslash before it is one itself. *)
From Coq Require Import Ascii String List Arith Bool.
From Verif Require Import Base SpecMap SpecText.
Import ListNotations.
Open Scope list_scope.

(** what may be between the brackets of a tag *)
Definition tag_words (t : str) : Prop := exists c r, t = c :: r /\ tag_char c /\ Forall (fun d => d <> "["%char /\ d <> "]"%char) r.

(** [k] backslashes and a tag behind some text *)
Definition ends_in_backslash (p : str) : Prop := exists q, p = q ++ ["092"%char].
Definition tag_text_of (k : nat) (t : str) : str := repeat "092"%char k ++ "["%char :: t ++ ["]"%char].
(** the tags of a text, each with the text before it and the number of backslashes directly
    before it, and the text behind the last one *)
Inductive written : str -> list (str * nat * str) -> str -> Prop :=
| written_end s : ~ has_tag s -> written s [] s
| written_tag p k t s l q : ~ has_tag p -> ~ ends_in_backslash p -> tag_words t -> written s l q ->
    written (p ++ tag_text_of k t ++ s) ((p, k, t) :: l) q.

(** outside of tags only a backslash before an opening bracket is not shown *)
Inductive unescaped : str -> str -> Prop :=
| un_nil : unescaped [] []
| un_bracket s t : unescaped s t -> unescaped ("092"%char :: "["%char :: s) ("["%char :: t)
| un_char c s t : (c = "092"%char -> forall r, s <> "["%char :: r) -> unescaped s t -> unescaped (c :: s) (c :: t).

(** the name in a tag, before the first equals sign *)
Definition tag_name (t n : str) : Prop := ~ In "="%char n /\ (t = n \/ exists r, t = n ++ "="%char :: r).

Section Styles.
Variable normalize : str -> str.

(** the open styles, the last one first, before and after a tag *)
Inductive tag_does : str -> list str -> list str -> Prop :=
| opens t n st : tag_name t n -> (forall r, n <> "/"%char :: r) -> tag_does t st (normalize n :: st)
| closes_last t b x st : tag_name t ("/"%char :: b) -> blank b -> tag_does t (x :: st) st
| closes t b n a st : tag_name t ("/"%char :: b) -> trimmed n -> line_of n b -> ~ In (normalize n) a -> tag_does t (a ++ normalize n :: st) (a ++ st).

(** what is shown *)
Inductive shows : list str -> list (str * nat * str) -> str -> str -> list str -> Prop :=
| shows_end st q u : unescaped q u -> shows st [] q u st
| shows_tag st p k t l q u v st' st'' : unescaped p u -> tag_does t st st' -> shows st' l q v st'' ->
    shows st ((p, 2 * k, t) :: l) q (u ++ repeat "092"%char k ++ v) st''
| shows_escaped st p k t l q u v st'' : unescaped p u -> shows st l q v st'' ->
    shows st ((p, 2 * k + 1, t) :: l) q (u ++ repeat "092"%char k ++ "["%char :: t ++ "]"%char :: v) st''.
End Styles.

(** an opening bracket behind a backslash *)
Definition has_escape (s : str) : Prop := exists p q, s = p ++ "092"%char :: "["%char :: q.
