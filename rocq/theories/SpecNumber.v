(** * Specification vocabulary: integers as Python reads them with [int(word, 0)] *)
From Coq Require Import Ascii String List ZArith Bool.
From Verif Require Import Base.
Import ListNotations.
Open Scope list_scope.
Open Scope Z_scope.

Definition low_digits : str := list_ascii_of_string "0123456789abcdefghijklmnopqrstuvwxyz".
Definition high_digits : str := list_ascii_of_string "0123456789ABCDEFGHIJKLMNOPQRSTUVWXYZ".
(** a digit and its value *)
Definition digit_of (c : ascii) (d : Z) : Prop := exists n, d = Z.of_nat n /\ (nth_error low_digits n = Some c \/ nth_error high_digits n = Some c).
(** a numeral: digits, with single underscores between them *)
Inductive numeral (b : Z) : str -> Z -> Prop :=
| num_digit : forall c d, digit_of c d -> d < b -> numeral b [c] d
| num_next : forall s v c d, numeral b s v -> digit_of c d -> d < b -> numeral b (s ++ [c]) (v * b + d)
| num_under : forall s v c d, numeral b s v -> digit_of c d -> d < b -> numeral b (s ++ ["_"%char; c]) (v * b + d).
(** the letters that tell the base *)
Inductive base_letter : ascii -> Z -> Prop :=
| base_x : base_letter "x" 16 | base_X : base_letter "X" 16
| base_o : base_letter "o" 8 | base_O : base_letter "O" 8
| base_b : base_letter "b" 2 | base_B : base_letter "B" 2.
Inductive literal : str -> Z -> Prop :=
| lit_based : forall l b s v, base_letter l b -> numeral b s v -> literal ("0"%char :: l :: s) v
| lit_based_under : forall l b s v, base_letter l b -> numeral b s v -> literal ("0"%char :: l :: "_"%char :: s) v
| lit_decimal : forall s v, numeral 10 s v -> (forall r, s <> "0"%char :: r) -> literal s v
| lit_zero : forall s, numeral 10 s 0 -> literal s 0.
Inductive integer_text : str -> Z -> Prop :=
| int_plain : forall s v, literal s v -> integer_text s v
| int_plus : forall s v, literal s v -> integer_text ("+"%char :: s) v
| int_minus : forall s v, literal s v -> integer_text ("-"%char :: s) (- v).
