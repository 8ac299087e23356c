(** * Specification vocabulary for percentages *)
From Coq Require Import Ascii String List ZArith QArith Qpower Qabs Bool.
From Coq Require Import Floats.SpecFloat.
From Verif Require Import Base MemMap Table SpecTable.
Import ListNotations.
Open Scope list_scope.
Open Scope Z_scope.

(** the number that a float stands for *)
Definition float_is (x : spec_float) (q : Q) : Prop :=
  match x with
  | S754_zero _ => (q == 0)%Q
  | S754_finite s m e => (q == (if s then - inject_Z (Zpos m) else inject_Z (Zpos m)) * Qpower 2 e)%Q
  | _ => False
  end.

(** part of the whole in percent, 0 if there is no whole *)
Definition percentage (part whole : Z) : Q :=
  if whole =? 0 then 0%Q else (100 * inject_Z part / inject_Z whole)%Q.

(** a number with one or two digits after the point *)
Definition reads (s : str) (q : Q) : Prop :=
  exists (neg : bool) i f a b, s = (if neg then ["-"%char] else []) ++ i ++ "."%char :: f /\ decimal i a /\ decimal f b /\
    (length f = 1 \/ length f = 2)%nat /\
    let v := (inject_Z a + inject_Z b / inject_Z (10 ^ Z.of_nat (length f)))%Q in (q == (if neg then - v else v))%Q.

(** [q] is the number [x] to two digits, up to an error that is much smaller *)
Definition to_hundredths (q x : Q) (err : Q) : Prop := (Qabs (q - x) <= (1 # 200) + err)%Q.
(** 2^-50 of the given size *)
Definition tiny (x : Q) : Q := (x * (1 # 1125899906842624))%Q.

(** the cell with a percentage [p], which is one of the nearest numbers up to 100 percent, and its difference to the percentage [r] of the reference *)
Definition percent_cell (diff : bool) (p r : Q) (s : str) : Prop :=
  let first n := exists q, reads n q /\ to_hundredths q p (if Qlt_le_dec 100 (Qabs p) then tiny (Qabs p + 1) else 0) in
  if diff then
    exists n pad sign d q, s = n ++ " "%char :: pad ++ sign ++ d /\ first n /\ Forall (eq " "%char) pad /\
      length pad = (6 - length (sign ++ d))%nat /\
      reads d q /\ to_hundredths q (p - r)%Q (tiny (Qabs p + Qabs r + 2)) /\ sign = (if Qlt_le_dec 0 q then ["+"%char] else [])
  else first s.

(** a number of bytes below 32 gigabytes (the shown numbers then have at most 15 digits) *)
Definition moderate (z : Z) : Prop := Z.abs z < 2 ^ 35.

(** the percent cell of a memory type and of a section *)
Definition type_percent (a : args) (t : mtype) (s : str) : Prop :=
  if t_size t =? 0 then s = []
  else percent_cell (given (a_diff a)) (percentage (t_used t) (t_size t)) (percentage (t_used t - t_used_diff t) (t_size t - t_size_diff t)) s.
Definition sect_percent (a : args) (t : mtype) (n : sect) (s : str) : Prop :=
  if t_size t =? 0 then s = []
  else percent_cell (given (a_diff a)) (percentage (n_size n) (t_size t)) (percentage (n_size n - n_diff n) (t_size t - t_size_diff t)) s.
(** all numbers of a memory type *)
Definition moderate_type (t : mtype) : Prop :=
  moderate (t_used t) /\ moderate (t_size t) /\ moderate (t_used t - t_used_diff t) /\ moderate (t_size t - t_size_diff t) /\
  Forall (fun kv => moderate (n_size (snd kv)) /\ moderate (n_size (snd kv) - n_diff (snd kv))) (t_sections t).

(** the percentage of an item, or its difference to the reference *)
Definition type_number (sort_diff : bool) (t : mtype) : Q :=
  let p := percentage (t_used t) (t_size t) in
  if sort_diff then (p - percentage (t_used t - t_used_diff t) (t_size t - t_size_diff t))%Q else p.
Definition sect_number (sort_diff : bool) (t : mtype) (n : sect) : Q :=
  let p := percentage (n_size n) (t_size t) in
  if sort_diff then (p - percentage (n_size n - n_diff n) (t_size t - t_size_diff t))%Q else p.
(** how far the computed number may be from it *)
Definition type_slip (t : mtype) : Q :=
  tiny (Qabs (percentage (t_used t) (t_size t)) + Qabs (percentage (t_used t - t_used_diff t) (t_size t - t_size_diff t)) + 2).
Definition sect_slip (t : mtype) (n : sect) : Q :=
  tiny (Qabs (percentage (n_size n) (t_size t)) + Qabs (percentage (n_size n - n_diff n) (t_size t - t_size_diff t)) + 2).
(** in order, up to the given amount *)
Definition in_order_within (w : Q) (reverse : bool) (x y : Q) : Prop := if reverse then (y < x + w)%Q else (x < y + w)%Q.
(** whole percents are compared: one percent apart, two if one number is negative *)
Definition order_slack (x y : Q) : Q := if Qlt_le_dec x 0 then 2 else if Qlt_le_dec y 0 then 2 else 1.

(** the percent cells of the rows of a memory type *)
Definition percents (a : args) (ts : (str * mtype) * list (str * sect)) (rs : list (list str)) : Prop :=
  exists r l, rs = r :: l /\ type_percent a (snd (fst ts)) (nth 2 r []) /\ Forall2 (fun kv r => sect_percent a (snd (fst ts)) (snd kv) (nth 2 r [])) (snd ts) l.
(** two memory types, and two sections of a memory type, in the order asked for, up to whole percents *)
Definition types_by_percent (a : args) (x y : str * mtype) : Prop :=
  let p := type_number (a_sort_diff a) (snd x) in
  let q := type_number (a_sort_diff a) (snd y) in
  in_order_within (order_slack p q + type_slip (snd x) + type_slip (snd y)) (a_sort_reverse a) p q.
Definition sects_by_percent (a : args) (t : mtype) (x y : str * sect) : Prop :=
  let p := sect_number (a_sort_diff a) t (snd x) in
  let q := sect_number (a_sort_diff a) t (snd y) in
  in_order_within (order_slack p q + sect_slip t (snd x) + sect_slip t (snd y)) (a_sort_reverse a) p q.
