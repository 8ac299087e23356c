(** * Specification vocabulary: the lines of a text *)
From Coq Require Import Ascii String List ZArith Bool.
From Verif Require Import Base.
Import ListNotations.
Open Scope list_scope.

(** the characters that end a line: line feed, vertical tab, form feed, carriage return, the
    separators of files, groups and records, and next line *)
Definition break_chars : list ascii := ["010"; "011"; "012"; "013"; "028"; "029"; "030"; "133"]%char.
Definition unbroken_text (l : str) : Prop := forall c, In c break_chars -> ~ In c l.
(** what ends a line: one of them, or a carriage return with a line feed *)
Inductive line_end : str -> str -> Prop :=
| end_crlf : forall rest, line_end ["013"; "010"]%char rest
| end_char : forall c rest, In c break_chars -> (c = "013"%char -> forall r, rest <> "010"%char :: r) -> line_end [c] rest.
(** the lines of a text; the last one need not end *)
Inductive text_lines : str -> list str -> Prop :=
| lines_nil : text_lines [] []
| lines_last : forall l, unbroken_text l -> l <> [] -> text_lines l [l]
| lines_cons : forall l e rest ls, unbroken_text l -> line_end e rest -> text_lines rest ls -> text_lines (l ++ e ++ rest) (l :: ls).
