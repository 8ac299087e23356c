(** * Percent: the texts of rounded percentages (format_table.py:147, 171)

    [round(x, 2)] and the text of the resulting float: Python rounds the exact value of the
    float to the nearest number of hundredths (of two to the even one); the text of the float
    nearest to a number of hundredths is that number with at least one digit after the point.

    Simplifications: this holds of numbers below 10^13 (15 digits); larger ones are shown
    with an exponent or with other digits.  Infinite values and not-a-number do not occur. *)
From Coq Require Import Ascii String List ZArith Bool SpecFloat.
From Verif Require Import Base Table Text.
Import ListNotations.
Open Scope list_scope.
Open Scope Z_scope.

(** the integer nearest to a / b, for a >= 0 and b > 0 *)
Definition nearest_even (a b : Z) : Z :=
  let q := a / b in
  match 2 * (a mod b) ?= b with Lt => q | Gt => q + 1 | Eq => if Z.even q then q else q + 1 end.
(** [abs(round(x, 2))] in hundredths *)
Definition hundredths (x : spec_float) : Z :=
  match x with
  | S754_finite _ m e => if 0 <=? e then 100 * Zpos m * 2 ^ e else nearest_even (100 * Zpos m) (2 ^ (- e))
  | _ => 0
  end.
Definition negative (x : spec_float) : bool :=
  match x with S754_finite s _ _ | S754_zero s | S754_infinity s => s | S754_nan => false end.
(** the text of a number of hundredths *)
Definition hundredths_text (n : Z) : str :=
  let r := n mod 100 in
  show_Z (n / 100) ++ "."%char ::
  (if r mod 10 =? 0 then show_Z (r / 10) else if r <? 10 then "0"%char :: show_Z r else show_Z r).
(** [f'{round(x, 2)}'] *)
Definition rounded_text (x : spec_float) : str := (if negative x then ["-"%char] else []) ++ hundredths_text (hundredths x).
(** the comparison of [round(x, 2)] with 0 *)
Definition rounded_sign (x : spec_float) : comparison := if hundredths x =? 0 then Eq else if negative x then Lt else Gt.
(** [f'{round(x, 2):+6}'], or [f'{round(x, 2):6}'] for zero *)
Definition rounded_diff (x : spec_float) : str :=
  pad6 (match rounded_sign x with Gt => "+"%char :: rounded_text x | _ => rounded_text x end).
(** the texts of color_diff for floats, format_table.py:33-42 *)
Definition python_floats : float_text := FloatText rounded_text rounded_diff rounded_sign.
