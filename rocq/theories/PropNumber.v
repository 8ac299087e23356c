(** * Property C118: the numbers of the map file *)
From Coq Require Import Ascii String List ZArith Lia Bool.
From Verif Require Import Base PyStr SpecNumber ProofNumber.
Import ListNotations.
Open Scope list_scope.
Open Scope Z_scope.

(** C118: a word is read as a number exactly when it is an integer as Python writes it, and as
    the number it stands for *)
Theorem c118_numbers : forall s v, py_int s = Ok v <-> integer_text s v.
Proof. exact py_int_ok. Qed.
Print Assumptions c118_numbers.
(** any other word is refused with a ValueError *)
Theorem c118_refused : forall s, (forall v, ~ integer_text s v) -> py_int s = Err ValueError.
Proof. exact py_int_err. Qed.
Print Assumptions c118_refused.
(** a word stands for one number only *)
Theorem c118_one : forall s v w, integer_text s v -> integer_text s w -> v = w.
Proof. exact integer_one. Qed.
Print Assumptions c118_one.

Notation tx := list_ascii_of_string.
Example c118_example : integer_text (tx "0x3fC0") 16320 /\ integer_text (tx "-0b_1_0") (-2) /\ integer_text (tx "00") 0 /\ integer_text (tx "1_000") 1000 /\
  (forall v, ~ integer_text (tx "010") v) /\ (forall v, ~ integer_text (tx "0x") v) /\ (forall v, ~ integer_text (tx "1__0") v).
Proof.
  assert (N : forall s, py_int s = Err ValueError -> forall v, ~ integer_text s v) by (intros s E v H; apply py_int_ok in H; congruence).
  split; [|split; [|split; [|split]]]; try (apply py_int_ok; reflexivity). repeat split; intros v; apply N; reflexivity.
Qed.
(** by hand *)
Example c118_hand : integer_text (tx "0x1_f") 31.
Proof.
  apply int_plain. apply (lit_based "x"%char 16 (tx "1_f") 31 base_x). apply (num_under 16 (tx "1") 1 "f"%char 15).
  - apply num_digit; [|lia]. exists 1%nat. auto.
  - exists 15%nat. auto.
  - lia.
Qed.
