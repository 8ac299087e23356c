From Coq Require Import Ascii String List ZArith Lia Bool.
From Verif Require Import Base PyStr SpecNumber.
Import ListNotations.
Open Scope list_scope.
Open Scope Z_scope.

Lemma digit_val_of c d : digit_val c = Some d <-> digit_of c d.
Proof.
  split.
  - intros H. assert (X : exists n, (n < 36)%nat /\ digit_val c = Some (Z.of_nat n) /\ (nth_error low_digits n = Some c \/ nth_error high_digits n = Some c)).
    { revert H. destruct c as [[] [] [] [] [] [] [] []]; vm_compute; intro H; try discriminate H;
      injection H as H; subst d;
      match goal with |- exists n, _ /\ Some ?z = _ /\ _ => let k := eval vm_compute in (Z.to_nat z) in exists k end; vm_compute; (split; [lia|]); (split; [reflexivity|]);
      first [left; reflexivity|right; reflexivity]. }
    destruct X as (n & _ & E & D). rewrite H in E. injection E as ->. exists n. now split.
  - intros (n & -> & H).
    assert (L : (n < 36)%nat). { destruct H as [H|H]; [change 36%nat with (length low_digits)|change 36%nat with (length high_digits)]; apply (proj1 (nth_error_Some _ _)); rewrite H; discriminate. }
    revert H. do 36 (destruct n as [|n]; [intros [H|H]; injection H as <-; reflexivity|]). lia.
Qed.
Lemma digit_under d : ~ digit_of "_"%char d.
Proof. intros H. apply digit_val_of in H. discriminate. Qed.

(** reading on from an accumulator *)
Lemma int_digits_cat base s : forall acc us r, int_digits base (s ++ r) acc us =
  match s with [] => int_digits base r acc us | _ => match int_digits base s acc us with
    | Some v => int_digits base r v false
    | None => int_digits base (s ++ r) acc us end end.
Proof.
  induction s as [|c s IH]; intros acc us r; [reflexivity|]. cbn [app int_digits].
  destruct (c =?= "_"%char).
  - destruct us; [reflexivity|]. rewrite IH. destruct s; [reflexivity|]. destruct (int_digits base (_ :: _) acc true) eqn:E; reflexivity.
  - destruct (digit_val c) as [d|]; [|reflexivity]. destruct (d <? base); [|reflexivity]. rewrite IH. destruct s; [reflexivity|]. destruct (int_digits base (_ :: _) (acc * base + d) false); reflexivity.
Qed.
Lemma numeral_read base s v : numeral base s v -> int_digits base s 0 true = Some v /\ s <> [].
Proof.
  assert (Dg : forall c d r acc us, digit_of c d -> d < base -> int_digits base (c :: r) acc us = int_digits base r (acc * base + d) false).
  { intros c d r acc us D L. cbn [int_digits]. destruct (keqP c "_"%char) as [->|_]; [now apply digit_under in D|]. apply digit_val_of in D. rewrite D. destruct (Z.ltb_spec d base); [reflexivity|lia]. }
  induction 1 as [c d D L|s v c d _ [IH N] D L|s v c d _ [IH N] D L].
  - split; [|discriminate]. rewrite (Dg _ _ _ _ _ D L). cbn. reflexivity.
  - split; [|now destruct s]. rewrite int_digits_cat. destruct s; [congruence|]. rewrite IH. now rewrite (Dg _ _ _ _ _ D L).
  - split; [|now destruct s]. rewrite int_digits_cat. destruct s; [congruence|]. rewrite IH. change (int_digits base ("_"%char :: [c]) v false) with (int_digits base [c] v true). now rewrite (Dg _ _ _ _ _ D L).
Qed.
Lemma read_numeral base r : forall s acc, numeral base s acc -> forall z, (int_digits base r acc false = Some z -> numeral base (s ++ r) z).
Proof.
  assert (G : forall n r, (length r <= n)%nat -> forall s acc, numeral base s acc -> forall z, int_digits base r acc false = Some z -> numeral base (s ++ r) z).
  { induction n; intros r0 Ln s acc H z E.
    - destruct r0; [|cbn in Ln; lia]. rewrite app_nil_r. injection E as <-. exact H.
    - destruct r0 as [|c r0]; [rewrite app_nil_r; injection E as <-; exact H|]. cbn [int_digits] in E. cbn [length] in Ln.
      destruct (keqP c "_"%char) as [->|_].
      + destruct r0 as [|c r0]; [discriminate|]. cbn [int_digits] in E. cbn [length] in Ln. destruct (c =?= "_"%char); [discriminate|].
        destruct (digit_val c) as [d|] eqn:D; [|discriminate]. destruct (Z.ltb_spec d base) as [L|]; [|discriminate]. apply digit_val_of in D.
        change (s ++ "_"%char :: c :: r0) with (s ++ ["_"%char; c] ++ r0). rewrite app_assoc. eapply IHn; [lia| |exact E]. now apply num_under.
      + destruct (digit_val c) as [d|] eqn:D; [|discriminate]. destruct (Z.ltb_spec d base) as [L|]; [|discriminate]. apply digit_val_of in D.
        change (s ++ c :: r0) with (s ++ [c] ++ r0). rewrite app_assoc. eapply IHn; [lia| |exact E]. now apply num_next. }
  intros s acc. apply (G (length r)). lia.
Qed.
Lemma numeral_iff base s v : int_digits base s 0 true = Some v <-> numeral base s v.
Proof.
  split; [|apply numeral_read]. destruct s as [|c s]; [discriminate|]. cbn [int_digits]. destruct (c =?= "_"%char); [discriminate|].
  destruct (digit_val c) as [d|] eqn:D; [|discriminate]. destruct (Z.ltb_spec d base) as [L|]; [|discriminate]. apply digit_val_of in D. intros E.
  change (c :: s) with ([c] ++ s). eapply read_numeral; [|exact E]. cbn. rewrite Z.add_0_l || idtac. now apply num_digit.
Qed.
Lemma numeral_first base s v : numeral base s v -> exists c d r, s = c :: r /\ digit_of c d /\ d < base.
Proof.
  induction 1 as [c d D L|s v c d _ IH D L|s v c d _ IH D L].
  - exists c, d, []. auto.
  - destruct IH as (c0 & d0 & r & -> & X). exists c0, d0, (r ++ [c]). auto.
  - destruct IH as (c0 & d0 & r & -> & X). exists c0, d0, (r ++ ["_"%char; c]). auto.
Qed.
Lemma prefixed_iff base s v : int_prefixed base s = Some v <-> numeral base s v \/ exists r, s = "_"%char :: r /\ numeral base r v.
Proof.
  assert (Nu : forall r, ~ numeral base ("_"%char :: r) v). { intros r H. apply numeral_first in H. destruct H as (c & d & r0 & E & D & _). injection E as <- _. now apply digit_under in D. }
  destruct s as [|c s].
  - split; [discriminate|]. intros [H|(r & E & _)]; [|discriminate]. apply numeral_first in H. destruct H as (c & d & r & E & _). discriminate.
  - destruct (keqP c "_"%char) as [->|Nc].
    + change (int_prefixed base ("_"%char :: s)) with (int_digits base s 0 true). rewrite numeral_iff. split.
      * intros H. right. now exists s.
      * intros [H|(r & E & H)]; [now apply Nu in H|]. now injection E as ->.
    + assert (E : int_prefixed base (c :: s) = int_digits base (c :: s) 0 true). { clear - Nc. destruct c as [[] [] [] [] [] [] [] []]; try reflexivity. now destruct Nc. }
      rewrite E, numeral_iff. split; [auto|]. intros [H|(r & X & _)]; [exact H|]. injection X as -> _. congruence.
Qed.

(** a second character that is no digit below 10 and no underscore ends nothing *)
Lemma numeral_second base c1 c s v : numeral base (c1 :: c :: s) v -> c = "_"%char \/ exists d, digit_of c d /\ d < base.
Proof.
  intros H. apply numeral_iff in H. cbn [int_digits] in H. destruct (c1 =?= "_"%char); [discriminate|]. destruct (digit_val c1); [|discriminate]. destruct (z <? base); [|discriminate].
  destruct (keqP c "_"%char) as [E|_]; [now left|]. right. destruct (digit_val c) as [d|] eqn:D; [|discriminate]. exists d. split; [now apply digit_val_of|]. destruct (Z.ltb_spec d base); [assumption|discriminate].
Qed.
Lemma letter_not_ten l b c1 s v : base_letter l b -> ~ numeral 10 (c1 :: l :: s) v.
Proof.
  intros B H. apply numeral_second in H. destruct H as [->|(d & D & L)]; [inversion B|]. apply digit_val_of in D. destruct B; vm_compute in D; injection D as <-; lia.
Qed.

Definition letter_base (c : ascii) : option Z :=
  if (c =?= "x"%char) || (c =?= "X"%char) then Some 16 else if (c =?= "o"%char) || (c =?= "O"%char) then Some 8
  else if (c =?= "b"%char) || (c =?= "B"%char) then Some 2 else None.
Lemma letter_base_iff c b : letter_base c = Some b <-> base_letter c b.
Proof.
  split.
  - unfold letter_base. destruct (keqP c "x"%char) as [->|]; [intros E; injection E as <-; constructor|]. destruct (keqP c "X"%char) as [->|]; [intros E; injection E as <-; constructor|].
    destruct (keqP c "o"%char) as [->|]; [intros E; injection E as <-; constructor|]. destruct (keqP c "O"%char) as [->|]; [intros E; injection E as <-; constructor|].
    destruct (keqP c "b"%char) as [->|]; [intros E; injection E as <-; constructor|]. destruct (keqP c "B"%char) as [->|]; [intros E; injection E as <-; constructor|]. discriminate.
  - intros []; reflexivity.
Qed.
Definition zero_only (o : option Z) : option Z := match o with Some 0 => Some 0 | _ => None end.
Lemma unsigned_cases s : int_unsigned s = match s with
  | "0"%char :: l :: r => match letter_base l with Some b => int_prefixed b r | None => zero_only (int_digits 10 s 0 true) end
  | "0"%char :: _ => zero_only (int_digits 10 s 0 true)
  | _ => int_digits 10 s 0 true end.
Proof.
  destruct s as [|c s]; [reflexivity|]. destruct (keqP c "0"%char) as [->|Nc].
  - destruct s as [|l r]; [reflexivity|]. destruct l as [[] [] [] [] [] [] [] []]; reflexivity.
  - destruct c as [[] [] [] [] [] [] [] []]; try reflexivity. now destruct Nc.
Qed.
Lemma zero_only_iff o v : zero_only o = Some v <-> o = Some 0 /\ v = 0.
Proof. destruct o as [[|p|p]|]; cbn; split; intros H; try discriminate; try (injection H as <-; auto); destruct H as [H ->]; congruence || discriminate. Qed.

Lemma unsigned_iff s v : int_unsigned s = Some v <-> literal s v.
Proof.
  rewrite unsigned_cases. destruct s as [|c s].
  - split; [discriminate|]. intros H. exfalso. inversion H as [| |s' v' N|s' N]; subst; apply numeral_first in N; destruct N as (? & ? & ? & E & _); discriminate.
  - destruct (keqP c "0"%char) as [->|Nc].
    + assert (Dec : forall w, literal ("0"%char :: s) w -> (forall l r, s = l :: r -> letter_base l = None) -> numeral 10 ("0"%char :: s) 0 /\ w = 0).
      { intros w H Nl. inversion H as [l b r v' B N E E'|l b r v' B N E E'|s' v' N X E E'|s' N E E']; subst.
        - specialize (Nl l r eq_refl). apply letter_base_iff in B. congruence.
        - specialize (Nl l _ eq_refl). apply letter_base_iff in B. congruence.
        - now destruct (X s).
        - now split. }
      destruct s as [|l r].
      * rewrite zero_only_iff, numeral_iff. split; [intros [H ->]; now apply lit_zero|]. intros H. apply Dec; [exact H|discriminate].
      * destruct (letter_base l) as [b|] eqn:B.
        -- pose proof B as B'. apply letter_base_iff in B'. rewrite prefixed_iff. split.
           ++ intros [H|(r' & -> & H)]; [eapply lit_based|eapply lit_based_under]; eassumption.
           ++ intros H. inversion H as [l' b' r0 v' B2 N E E'|l' b' r0 v' B2 N E E'|s' v' N X E E'|s' N E E']; subst.
              ** apply letter_base_iff in B2. assert (b' = b) by congruence. subst b'. now left.
              ** apply letter_base_iff in B2. assert (b' = b) by congruence. subst b'. right. now exists r0.
              ** now destruct (X (l :: r)).
              ** exfalso. eapply letter_not_ten; eassumption.
        -- rewrite zero_only_iff, numeral_iff. split; [intros [H ->]; now apply lit_zero|]. intros H. apply Dec; [exact H|]. intros l' r' E. now injection E as <- <-.
    + assert (E : match c :: s with "0"%char :: l :: r => match letter_base l with Some b => int_prefixed b r | None => zero_only (int_digits 10 (c :: s) 0 true) end
        | "0"%char :: _ => zero_only (int_digits 10 (c :: s) 0 true) | _ => int_digits 10 (c :: s) 0 true end = int_digits 10 (c :: s) 0 true).
      { clear - Nc. destruct c as [[] [] [] [] [] [] [] []]; try reflexivity. now destruct Nc. }
      rewrite E, numeral_iff. split.
      * intros H. apply lit_decimal; [exact H|]. intros r X. now injection X as -> _.
      * intros H. inversion H; subst; try congruence.
Qed.

Lemma literal_first s v : literal s v -> exists c d r, s = c :: r /\ digit_of c d.
Proof.
  intros [l b r w _ _|l b r w _ _|r w N _|r N].
  - exists "0"%char, 0. eexists. split; [reflexivity|]. now apply digit_val_of.
  - exists "0"%char, 0. eexists. split; [reflexivity|]. now apply digit_val_of.
  - apply numeral_first in N. destruct N as (c & d & q & -> & D & _). eauto.
  - apply numeral_first in N. destruct N as (c & d & q & -> & D & _). eauto.
Qed.
Lemma py_int_ok s v : py_int s = Ok v <-> integer_text s v.
Proof.
  assert (R : forall o : option Z, match o with Some z => Ok z | None => Err ValueError end = Ok v <-> o = Some v). { intros [z|]; split; intros H; congruence || (now injection H as ->) || discriminate. }
  unfold py_int. rewrite R. destruct s as [|c s].
  - rewrite unsigned_iff. split; [now constructor|]. intros H. inversion H; subst; assumption.
  - assert (Nd : forall c0, c0 = "-"%char \/ c0 = "+"%char -> forall r w, ~ literal (c0 :: r) w).
    { intros c0 Hc r w H. apply literal_first in H. destruct H as (c1 & d & q & E & D). injection E as <- _. apply digit_val_of in D. destruct Hc as [->| ->]; discriminate. }
    destruct (keqP c "-"%char) as [->|N1]; [|destruct (keqP c "+"%char) as [->|N2]].
    + split.
      * destruct (int_unsigned s) as [z|] eqn:E; [|discriminate]. intros H. injection H as <-. apply int_minus. now apply unsigned_iff.
      * intros H. inversion H as [s' v' L| |s' v' L]; subst; [exfalso; eapply Nd; [|exact L]; auto|]. apply unsigned_iff in L. rewrite L. reflexivity.
    + rewrite unsigned_iff. split; [now apply int_plus|]. intros H. inversion H as [s' v' L|s' v' L|]; subst; [exfalso; eapply Nd; [|exact L]; auto|exact L].
    + assert (E : match c :: s with "-"%char :: s' => option_map Z.opp (int_unsigned s') | "+"%char :: s' => int_unsigned s' | _ => int_unsigned (c :: s) end = int_unsigned (c :: s)).
      { clear - N1 N2. destruct c as [[] [] [] [] [] [] [] []]; try reflexivity; congruence. }
      rewrite E, unsigned_iff. split; [now constructor|]. intros H. inversion H; subst; congruence || assumption.
Qed.
Lemma py_int_err s : (forall v, ~ integer_text s v) -> py_int s = Err ValueError.
Proof.
  intros H. destruct (py_int s) as [z|e] eqn:E; [apply py_int_ok in E; now apply H in E|]. revert E. unfold py_int. intros E.
  destruct (match s with "-"%char :: s' => option_map Z.opp (int_unsigned s') | "+"%char :: s' => int_unsigned s' | _ => int_unsigned s end); congruence.
Qed.
Lemma integer_one s v w : integer_text s v -> integer_text s w -> v = w.
Proof. intros H1 H2. apply py_int_ok in H1, H2. congruence. Qed.
