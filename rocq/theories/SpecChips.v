(** * Specification vocabulary for the chip descriptions *)
From Coq Require Import Ascii String List ZArith Bool.
From Verif Require Import Base MemMap SpecTree PyStr SpecMap Pipeline SpecPipe SpecTable SpecBytes Chips.
Import ListNotations.
Open Scope list_scope.
Open Scope Z_scope.

(** ** sums of products of numbers *)
Definition blanks (s : str) : Prop := Forall (fun c => c = " "%char \/ c = "009"%char) s.
(** hexadecimal with [0x], or decimal without leading zeros *)
Definition literal (s : str) (z : Z) : Prop := number z s \/ (0 <= z /\ written s z).
Inductive product : str -> Z -> Prop :=
| product_one : forall s z, literal s z -> product s z
| product_more : forall s x a b t y, product s x -> blanks a -> blanks b -> literal t y ->
    product (s ++ a ++ "*"%char :: b ++ t) (x * y).
Inductive sum : str -> Z -> Prop :=
| sum_one : forall s z, product s z -> sum s z
| sum_more : forall s x a b t y, sum s x -> blanks a -> blanks b -> product t y ->
    sum (s ++ a ++ "+"%char :: b ++ t) (x + y).
Inductive denotes : yscalar -> Z -> Prop :=
| denotes_int : forall n, denotes (YInt n) n
| denotes_sum : forall s z, sum s z -> denotes (YStr s) z.

(** what a memory type of a file means *)
Definition describes (e : yentry) (t : chip_type) : Prop :=
  denotes (y_primary e) (ct_primary t) /\ denotes (y_length e) (ct_length t) /\
  match y_secondary e with Some x => denotes x (ct_secondary t) | None => ct_secondary t = 0 end /\
  match y_name e with Some n => ct_name t = n | None => ct_name t = y_key e end.

(** some address is looked up as this memory type *)
Definition reachable (types : list chip_type) (t : chip_type) : Prop := exists a, first_covering types a t.
(** no type listed before it has all its windows *)
Definition own_window (types : list chip_type) (t : chip_type) : Prop :=
  exists l1 l2 lo hi, types = l1 ++ t :: l2 /\ window t lo hi /\ forall u, In u l1 -> ~ window u lo hi.
