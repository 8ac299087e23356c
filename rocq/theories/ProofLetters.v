(** * Proofs about small letters *)
From Coq Require Import Ascii String List Bool Arith Lia.
From Verif Require Import Base MemMap SpecLetters.
Import ListNotations.
Open Scope list_scope.

Lemma capital_b n : reflect (capital n) ((65 <=? n) && (n <=? 90) || (192 <=? n) && (n <=? 222) && negb (n =? 215))%nat%bool.
Proof.
  apply iff_reflect. unfold capital. rewrite orb_true_iff, !andb_true_iff, negb_true_iff, !Nat.leb_le, Nat.eqb_neq. lia.
Qed.
Lemma lower_small c : small_letter c (lower_char c).
Proof.
  unfold small_letter, lower_char. cbv zeta. destruct (capital_b (nat_of_ascii c)) as [H|H]; [left|right]; split; auto.
  rewrite nat_ascii_embedding; [reflexivity|]. unfold capital in H. lia.
Qed.
Lemma small_fun c d e : small_letter c d -> small_letter c e -> d = e.
Proof.
  intros [(A & B)|(A & B)] [(C & D)|(C & D)]; try contradiction; [|congruence]. rewrite <- (ascii_nat_embedding d), <- (ascii_nat_embedding e). congruence.
Qed.
Lemma lower_lowered s : lowered s (lower s).
Proof. unfold lowered, lower. induction s; constructor; auto using lower_small. Qed.
Lemma lowered_eq s t : lowered s t <-> t = lower s.
Proof.
  split; [|intros ->; apply lower_lowered]. unfold lowered. induction 1 as [|c d s t H F IH]; [reflexivity|]. cbn [lower map]. f_equal; [|exact IH]. apply (small_fun c); [exact H|apply lower_small].
Qed.
Lemma map_split {A B} (f : A -> B) s : forall a b, map f s = a ++ b -> exists x y, s = x ++ y /\ map f x = a /\ map f y = b.
Proof.
  induction s as [|c s IH]; intros a b E.
  - destruct a, b; try discriminate. now exists [], [].
  - destruct a as [|d a]; [exists [], (c :: s); auto|]. cbn [map app] in E. injection E as <- E. destruct (IH _ _ E) as (x & y & -> & <- & <-). now exists (c :: x), y.
Qed.
Lemma flash_lower t : flash_name t <-> exists a b, lower t = a ++ list_ascii_of_string "flash" ++ b.
Proof.
  split.
  - intros (a & f & b & -> & L). apply lowered_eq in L. exists (lower a), (lower b). unfold lower in *. now rewrite !map_app, <- L.
  - intros (a & b & E). apply map_split in E. destruct E as (x & y & -> & _ & E). apply map_split in E. destruct E as (f & z & -> & E & _). exists x, f, z. split; [reflexivity|]. now apply lowered_eq.
Qed.
