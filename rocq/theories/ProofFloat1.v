(** * The rounding of [SpecFloat]: error bounds for binary64 *)
From Coq Require Import ZArith QArith Qpower Qabs Lia Lqa Bool.
From Coq Require Import Floats.SpecFloat.
Open Scope Z_scope.

(** ** powers of two *)
Definition p2 (e : Z) : Q := Qpower 2 e.
Lemma two_nz : ~ (2 == 0)%Q.
Proof. discriminate. Qed.
Lemma p2_add a b : (p2 (a + b) == p2 a * p2 b)%Q.
Proof. unfold p2. apply Qpower_plus. exact two_nz. Qed.
Lemma p2_0 : (p2 0 == 1)%Q.
Proof. reflexivity. Qed.
Lemma p2_nat n : 0 <= n -> (p2 n == inject_Z (2 ^ n))%Q.
Proof. intros H. unfold p2. rewrite <- (Zpower_Qpower 2 n H). reflexivity. Qed.
Lemma p2_pos e : (0 < p2 e)%Q.
Proof.
  destruct (Z_le_gt_dec 0 e) as [H|H].
  - rewrite (p2_nat e H). replace 0%Q with (inject_Z 0) by reflexivity. rewrite <- Zlt_Qlt. apply Z.pow_pos_nonneg; lia.
  - assert (A : (p2 e * p2 (- e) == 1)%Q) by (rewrite <- p2_add; replace (e + - e) with 0 by lia; reflexivity).
    assert (B : (0 < p2 (- e))%Q).
    { rewrite (p2_nat (- e)) by lia. replace 0%Q with (inject_Z 0) by reflexivity. rewrite <- Zlt_Qlt. apply Z.pow_pos_nonneg; lia. }
    destruct (Qlt_le_dec 0 (p2 e)) as [L|L]; [exact L|]. exfalso. nra.
Qed.
Lemma p2_ge1 n : 0 <= n -> (1 <= p2 n)%Q.
Proof. intros H. rewrite (p2_nat n H). replace 1%Q with (inject_Z 1) by reflexivity. rewrite <- Zle_Qle. assert (0 < 2 ^ n) by (apply Z.pow_pos_nonneg; lia). lia. Qed.
Lemma p2_mono a b : a <= b -> (p2 a <= p2 b)%Q.
Proof.
  intros H. replace b with (a + (b - a)) by lia. rewrite p2_add. pose proof (p2_ge1 (b - a) ltac:(lia)). pose proof (p2_pos a). nra.
Qed.
Lemma p2_lt_inv a b : (p2 a < p2 b)%Q -> a < b.
Proof. intros H. destruct (Z_lt_le_dec a b) as [L|L]; [exact L|]. apply p2_mono in L. lra. Qed.
Lemma p2_le_inv a b : (p2 a <= p2 b)%Q -> a <= b.
Proof.
  intros H. destruct (Z_le_gt_dec a b) as [L|L]; [exact L|]. exfalso. assert (A : b + 1 <= a) by lia. apply p2_mono in A. rewrite p2_add in A.
  pose proof (p2_pos b). change (p2 1) with 2%Q in A. nra.
Qed.
Lemma p2_half e : (p2 (e - 1) * 2 == p2 e)%Q.
Proof. setoid_replace 2%Q with (p2 1) by reflexivity. rewrite <- p2_add. replace (e - 1 + 1) with e by lia. reflexivity. Qed.

(** ** digits *)
Lemma digits_pos p : 2 ^ (Zpos (digits2_pos p) - 1) <= Zpos p < 2 ^ Zpos (digits2_pos p).
Proof.
  induction p as [p IH|p IH|]; cbn [digits2_pos]; [| |cbn; lia].
  - rewrite Pos2Z.inj_succ, <- Z.add_1_r. replace (Zpos (digits2_pos p) + 1 - 1) with (Zpos (digits2_pos p) - 1 + 1) by lia.
    rewrite !Z.pow_add_r by lia. change (2 ^ 1) with 2. lia.
  - rewrite Pos2Z.inj_succ, <- Z.add_1_r. replace (Zpos (digits2_pos p) + 1 - 1) with (Zpos (digits2_pos p) - 1 + 1) by lia.
    rewrite !Z.pow_add_r by lia. change (2 ^ 1) with 2. lia.
Qed.
Lemma digits_bound m : 0 < m -> 1 <= Zdigits2 m /\ 2 ^ (Zdigits2 m - 1) <= m < 2 ^ Zdigits2 m.
Proof. destruct m as [|p|p]; try lia. intros _. cbn [Zdigits2]. split; [lia|apply digits_pos]. Qed.
Lemma digits_le m d : 0 <= d -> 0 <= m < 2 ^ d -> Zdigits2 m <= d.
Proof.
  intros D M. destruct (Z.eq_dec m 0) as [->|N]; [cbn; lia|]. destruct (digits_bound m ltac:(lia)) as (A & B & C).
  destruct (Z_le_gt_dec (Zdigits2 m) d) as [L|L]; [exact L|]. exfalso.
  assert (2 ^ d <= 2 ^ (Zdigits2 m - 1)) by (apply Z.pow_le_mono_r; lia). lia.
Qed.

(** ** where a number lies: N / D between m and m + 1 *)
Definition lies (N D m : Z) (l : location) : Prop :=
  match l with
  | loc_Exact => N = m * D
  | loc_Inexact c => m * D < N < (m + 1) * D /\ (2 * N ?= (2 * m + 1) * D) = c
  end.
Definition in_record (N D : Z) (r : shr_record) : Prop := 0 <= shr_m r /\ lies N D (shr_m r) (loc_of_shr_record r).
Lemma record_of_loc N D m l : 0 <= m -> lies N D m l -> in_record N D (shr_record_of_loc m l).
Proof. intros M H. destruct l as [|[]]; (split; [exact M|exact H]). Qed.
Ltac cmp := match goal with |- context [?a ?= ?b] => destruct (Z.compare_spec a b) end.
Lemma shr_1_in N D r : 0 < D -> in_record N D r -> in_record N (2 * D) (shr_1 r).
Proof.
  intros P (M & L). destruct r as [m r s]. cbn [shr_m] in *.
  destruct m as [|p|p]; [| |lia].
  - destruct r, s; cbn [shr_1 orb in_record shr_m loc_of_shr_record lies] in *; unfold in_record; cbn [shr_m loc_of_shr_record lies];
      (split; [lia|]); try (destruct L as (L & C); apply Z.compare_lt_iff in C || apply Z.compare_gt_iff in C || apply Z.compare_eq_iff in C);
      try (split; [nia|]; first [apply Z.compare_lt_iff; nia | apply Z.compare_gt_iff; nia | apply Z.compare_eq_iff; nia]); nia.
  - destruct p as [p|p|]; destruct r, s; cbn [shr_1 orb in_record shr_m loc_of_shr_record lies] in *; unfold in_record; cbn [shr_m loc_of_shr_record lies];
      (split; [lia|]); try (destruct L as (L & C); apply Z.compare_lt_iff in C || apply Z.compare_gt_iff in C || apply Z.compare_eq_iff in C);
      try (split; [nia|]; first [apply Z.compare_lt_iff; nia | apply Z.compare_gt_iff; nia | apply Z.compare_eq_iff; nia]); nia.
Qed.
Lemma iter_in p : forall N D r, 0 < D -> in_record N D r -> in_record N (2 ^ Zpos p * D) (iter_pos shr_1 p r).
Proof.
  induction p as [p IH|p IH|]; intros N D r P H; cbn [iter_pos].
  - replace (2 ^ Zpos (xI p) * D) with (2 ^ Zpos p * (2 ^ Zpos p * (2 * D))).
    2: { replace (Zpos (xI p)) with (Zpos p + Zpos p + 1) by lia. rewrite !Z.pow_add_r by lia. change (2 ^ 1) with 2. ring. }
    assert (0 < 2 ^ Zpos p) by (apply Z.pow_pos_nonneg; lia).
    apply IH; [nia|]. apply IH; [lia|]. now apply shr_1_in.
  - replace (2 ^ Zpos (xO p) * D) with (2 ^ Zpos p * (2 ^ Zpos p * D)).
    2: { replace (Zpos (xO p)) with (Zpos p + Zpos p) by lia. rewrite !Z.pow_add_r by lia. ring. }
    assert (0 < 2 ^ Zpos p) by (apply Z.pow_pos_nonneg; lia).
    apply IH; [nia|]. now apply IH.
  - change (2 ^ 1) with 2. now apply shr_1_in.
Qed.
(** rounding to the nearest integer *)
Lemma nearest N D m l : 0 < D -> 0 <= m -> lies N D m l -> let k := round_nearest_even m l in
  0 <= k /\ m <= k <= m + 1 /\ 2 * Z.abs (k * D - N) <= D.
Proof.
  intros P M H. destruct l as [|[]]; cbn [round_nearest_even lies] in *.
  - subst N. split; [exact M|]. split; [lia|]. lia.
  - destruct H as (H & C). apply Z.compare_eq_iff in C. destruct (Z.even m); (split; [lia|]; split; [lia|]; nia).
  - destruct H as (H & C). apply -> Z.compare_lt_iff in C. split; [lia|]. split; [lia|]. nia.
  - destruct H as (H & C). apply -> Z.compare_gt_iff in C. split; [lia|]. split; [lia|]. nia.
Qed.
