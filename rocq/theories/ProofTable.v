(** * Proofs about tables *)
From Coq Require Import Ascii String List ZArith Bool Lia Sorting.Permutation Sorting.Sorted.
From Verif Require Import Base MemMap SpecTree SpecOps Filter PyStr SpecMap ProofPyStr Table SpecTable ProofOps ProofSummary ProofSummary2.
Import ListNotations.
Open Scope list_scope.
Open Scope Z_scope.

(** ** numbers *)

Lemma digit_char_is d : 0 <= d <= 9 -> digit_is (digit_char d) d.
Proof.
  intro H. split; [exact H|]. unfold digit_char. rewrite nat_ascii_embedding; lia.
Qed.

Lemma digit_char_zero d : 0 <= d <= 9 -> digit_char d = "0"%char -> d = 0.
Proof.
  intros H E. pose proof (digit_char_is d H) as [_ X]. rewrite E in X. change (nat_of_ascii "0"%char) with 48%nat in X. lia.
Qed.

Lemma dec_digits_ok fuel : forall n acc, 0 <= n -> (Z.to_nat (Z.log2 n) < fuel)%nat ->
  exists s, dec_digits fuel n acc = s ++ acc /\ decimal s n /\ (n = 0 -> s = ["0"%char]) /\ (0 < n -> forall q, s <> "0"%char :: q).
Proof.
  induction fuel as [|f IH]; intros n acc N L; [lia|]. cbn [dec_digits]. destruct (Z.ltb_spec n 10) as [B|B].
  - exists [digit_char n]. split; [reflexivity|]. split; [apply dec_one, digit_char_is; lia|]. split.
    + intros ->. reflexivity.
    + intros P q E. injection E as E _. apply digit_char_zero in E; lia.
  - assert (P : 0 < n / 10) by (apply Z.div_str_pos; lia).
    assert (LL : Z.log2 (n / 10) < Z.log2 n).
    { apply Z.lt_le_trans with (Z.succ (Z.log2 (n / 10))); [lia|]. rewrite <- Z.log2_double by lia. apply Z.log2_le_mono.
      pose proof (Z.mul_div_le n 10). lia. }
    assert (L0 : 0 <= Z.log2 (n / 10)) by apply Z.log2_nonneg.
    destruct (IH (n / 10) (digit_char (n mod 10) :: acc)) as (s & E & D & _ & H); [lia|lia|].
    exists (s ++ [digit_char (n mod 10)]). rewrite E, <- app_assoc. split; [reflexivity|]. split.
    + rewrite (Z.div_mod n 10) at 2 by lia. apply dec_more; [exact D|]. apply digit_char_is. pose proof (Z.mod_pos_bound n 10). lia.
    + split; [lia|]. intros _ q X. destruct s as [|c s].
      * inversion D. now destruct s.
      * injection X as -> _. apply (H P s). reflexivity.
Qed.

Lemma show_nonneg_ok n : 0 <= n -> decimal (show_nonneg n) n /\ (n = 0 -> show_nonneg n = ["0"%char]) /\ (0 < n -> forall q, show_nonneg n <> "0"%char :: q).
Proof.
  intro N. unfold show_nonneg. destruct (dec_digits_ok (S (Z.to_nat (Z.log2 n))) n [] N) as (s & E & D & A & B); [lia|].
  rewrite E, app_nil_r. auto.
Qed.

Lemma show_Z_written z : written (show_Z z) z.
Proof.
  unfold show_Z, written. destruct (Z.ltb_spec z 0) as [N|N].
  - right. split; [exact N|]. eexists. split; [reflexivity|]. destruct (show_nonneg_ok (- z)) as (D & _ & B); [lia|]. split; auto. apply B. lia.
  - left. split; [exact N|]. destruct (show_nonneg_ok z N) as (D & A & B). split; [exact D|]. intros r E.
    destruct (Z.eq_dec z 0) as [->|NZ]; [rewrite A in E by reflexivity; now injection E|]. exfalso. apply (B ltac:(lia) r E).
Qed.

Lemma digit_is_val c d : digit_is c d -> digit_val c = Some d /\ d < 10 /\ c <> "_"%char.
Proof.
  intros [B E]. unfold digit_val. rewrite E. cbv zeta. replace (Z.of_nat (48 + Z.to_nat d)) with (48 + d) by lia.
  destruct (Z.leb_spec 48 (48 + d)); [|lia]. destruct (Z.leb_spec (48 + d) 57); [|lia]. cbn [andb].
  split; [f_equal; lia|]. split; [lia|]. intros ->. change (nat_of_ascii "_"%char) with 95%nat in E. lia.
Qed.

Lemma int_digits_decimal s n : decimal s n -> forall rest acc us, int_digits 10 (s ++ rest) acc us = int_digits 10 rest (acc * 10 ^ Z.of_nat (length s) + n) false.
Proof.
  assert (ONE : forall c d rest acc us, digit_is c d -> int_digits 10 (c :: rest) acc us = int_digits 10 rest (acc * 10 + d) false).
  { intros c d rest acc us H. destruct (digit_is_val c d H) as (V & B & N). cbn [int_digits]. apply keq_neq in N. rewrite N, V.
    destruct (Z.ltb_spec d 10); [reflexivity|lia]. }
  induction 1 as [c d H|s n c d D IH H]; intros rest acc us.
  - cbn [app length]. rewrite (ONE c d) by exact H. f_equal; lia.
  - rewrite <- app_assoc. rewrite IH. cbn [app]. rewrite (ONE c d) by exact H. f_equal. rewrite app_length. cbn [length].
    rewrite Nat2Z.inj_add. change (Z.of_nat 1) with 1. rewrite Z.pow_add_r by lia. lia.
Qed.

Lemma decimal_nonempty s n : decimal s n -> s <> [].
Proof. intros [c d H|s' n' c d D H]; [discriminate|]. now destruct s'. Qed.

Lemma digit_nows c d : digit_is c d -> ~ ws c.
Proof.
  intros [B E] W. apply is_space_spec in W. assert (X : (48 <= nat_of_ascii c <= 57)%nat) by lia. clear -W X.
  destruct c as [[|] [|] [|] [|] [|] [|] [|] [|]]; cbn in W, X; try discriminate; lia.
Qed.

Lemma decimal_word s n : decimal s n -> word s.
Proof.
  intro D. split; [now apply decimal_nonempty in D|]. induction D as [c d H|s n c d D IH H]; [repeat constructor; now apply (digit_nows c d)|].
  apply Forall_app. split; auto. repeat constructor. now apply (digit_nows c d).
Qed.

Lemma decimal_head s n : decimal s n -> exists c d r, s = c :: r /\ digit_is c d.
Proof.
  induction 1 as [c d H|s n c d D (c' & d' & r & -> & H') H]; [now exists c, d, []|]. now exists c', d', (r ++ [c]).
Qed.

Lemma written_word s z : written s z -> word s.
Proof.
  intros [(_ & D & _)|(_ & r & -> & D & _)]; [now apply decimal_word in D|]. destruct (decimal_word _ _ D) as [_ F].
  split; [discriminate|]. constructor; auto. intro W. apply is_space_spec in W. discriminate.
Qed.

Lemma written_int s z : written s z -> py_int10 s = Some z.
Proof.
  intro W. unfold py_int10. rewrite strip_idem by (apply word_trimmed; eapply written_word; exact W).
  destruct W as [(N & D & _)|(N & r & -> & D & _)].
  - pose proof (int_digits_decimal s z D [] 0 true) as X. rewrite app_nil_r in X.
    destruct (decimal_head s z D) as (c & d & r & -> & H).
    assert (I : int_digits 10 (c :: r) 0 true = Some z) by (rewrite X; cbn; f_equal; lia).
    assert (Y : nat_of_ascii c <> 45%nat /\ nat_of_ascii c <> 43%nat) by (destruct H; lia).
    destruct c as [[|] [|] [|] [|] [|] [|] [|] [|]]; try exact I; exfalso; cbn in Y; lia.
  - pose proof (int_digits_decimal r (- z) D [] 0 true) as X. rewrite app_nil_r in X. rewrite X. cbn. f_equal. lia.
Qed.

Lemma show_Z_read z : py_int10 (show_Z z) = Some z.
Proof. apply written_int, show_Z_written. Qed.

Lemma decimal_unique_len s n : decimal s n -> 0 <= n.
Proof. induction 1 as [c d [B _]|s n c d D IH [B _]]; lia. Qed.

(** ** cells *)

Lemma num_cell_text diff size sdiff : cell_text diff (size, sdiff) (num_cell diff size sdiff).
Proof.
  unfold cell_text, num_cell. destruct diff; cbn [negb fst snd]; [|apply show_Z_written].
  exists (show_Z size), (show_Z (Z.abs sdiff)).
  assert (E : (if sdiff =? 0 then show_Z sdiff else show_signed sdiff) =
    (if sdiff <? 0 then "-"%char :: show_Z (Z.abs sdiff) else if 0 <? sdiff then "+"%char :: show_Z (Z.abs sdiff) else show_Z (Z.abs sdiff))).
  { destruct (Z.eqb_spec sdiff 0) as [->|NZ]; [reflexivity|]. unfold show_signed. destruct (Z.ltb_spec sdiff 0) as [L|L].
    - unfold show_Z at 1. destruct (Z.ltb_spec sdiff 0); [|lia]. replace (Z.abs sdiff) with (- sdiff) by lia.
      unfold show_Z. destruct (Z.ltb_spec (- sdiff) 0); [lia|reflexivity].
    - destruct (Z.ltb_spec 0 sdiff); [|lia]. now rewrite Z.abs_eq by lia. }
  rewrite E. unfold pad6. set (t := if sdiff <? 0 then _ else _). exists (repeat " "%char (6 - length t)).
  split; [apply show_Z_written|]. split; [apply show_Z_written|]. split; [reflexivity|]. split.
  - apply Forall_forall. intros x I. now apply repeat_spec in I.
  - rewrite repeat_length. f_equal. subst t. clear E. destruct (Z.eqb_spec sdiff 0) as [->|NZ]; [reflexivity|].
    destruct (Z.ltb_spec sdiff 0); [reflexivity|]. destruct (Z.ltb_spec 0 sdiff); [reflexivity|lia].
Qed.
