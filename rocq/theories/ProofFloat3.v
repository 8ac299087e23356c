(** * Division of integers, product, difference *)
From Coq Require Import ZArith QArith Qpower Qabs Lia Lqa Bool.
From Coq Require Import Floats.SpecFloat.
From Verif Require Import Table SpecPercent ProofFloat1 ProofFloat2.
Open Scope Z_scope.
Local Notation fx := (fexp 53 1024).
Local Notation u := (p2 (-53)).
Local Notation t := (p2 (-1075)).

Lemma fx_mono a b : a <= b -> fx a <= fx b.
Proof. rewrite !fx_eq. lia. Qed.
Lemma new_location_lies q r D : 0 <= r < D -> lies (q * D + r) D q (new_location D r).
Proof.
  intros R. unfold new_location, new_location_even, new_location_odd.
  destruct (Z.eqb_spec r 0) as [E|E].
  - subst r. destruct (Z.even D); change (Zeq_bool 0 0) with true; cbn [lies]; lia.
  - assert (EQ : Zeq_bool r 0 = false) by (destruct (Zeq_bool r 0) eqn:B; [apply Zeq_bool_eq in B; lia|reflexivity]). 
    destruct (Z.even D) eqn:P; rewrite EQ; cbn [lies]; (split; [nia|]).
    + destruct (Z.compare_spec (2 * r) D) as [C|C|C]; [apply Z.compare_eq_iff|apply Z.compare_lt_iff|apply Z.compare_gt_iff]; lia.
    + assert (O : Z.odd D = true) by (rewrite <- Z.negb_even, P; reflexivity). apply Z.odd_spec in O. destruct O as [h O].
      destruct (Z.compare_spec (2 * r + 1) D) as [C|C|C]; [apply Z.compare_lt_iff|apply Z.compare_lt_iff|apply Z.compare_gt_iff]; lia.
Qed.

Lemma div_pos (sx : bool) m1 m2 : Zpos m1 < 2 ^ 900 -> Zpos m2 < 2 ^ 900 ->
  let x := frac (Zpos m1) (Zpos m2) in
  exists q, float_is (let '(mz, ez, lz) := SFdiv_core_binary 53 1024 (Zpos m1) 0 (Zpos m2) 0 in binary_round_aux 53 1024 sx mz ez lz) (if sx then - q else q)%Q /\
    (Qabs (q - x) <= u * x + t)%Q.
Proof.
  intros B1 B2 x. unfold SFdiv_core_binary. cbn [Zdigits2].
  set (d1 := Zpos (digits2_pos m1)). set (d2 := Zpos (digits2_pos m2)). pose proof (digits_pos m1) as D1. pose proof (digits_pos m2) as D2. fold d1 in D1. fold d2 in D2.
  set (e := Z.min (fx (d1 + 0 - (d2 + 0))) (0 - 0)). set (s := 0 - 0 - e). assert (S0 : 0 <= s) by (unfold s, e; lia).
  assert (M : match s with Z0 => Zpos m1 | Zpos _ => Z.shiftl (Zpos m1) s | Zneg _ => 0 end = Zpos m1 * 2 ^ s).
  { destruct s as [|p|p] eqn:E; [rewrite Z.mul_1_r; reflexivity|rewrite Z.shiftl_mul_pow2; [reflexivity|lia]|lia]. }
  rewrite M. pose proof (Z_div_mod (Zpos m1 * 2 ^ s) (Zpos m2) ltac:(lia)) as DM. destruct (Z.div_eucl (Zpos m1 * 2 ^ s) (Zpos m2)) as [q r]. destruct DM as (DM & R).
  assert (PS : 0 < 2 ^ s) by (apply Z.pow_pos_nonneg; lia).
  assert (Q0 : 0 <= q) by nia.
  assert (L : lies (Zpos m1 * 2 ^ s) (Zpos m2) q (new_location (Zpos m2) r)) by (rewrite DM, (Z.mul_comm (Zpos m2) q); now apply new_location_lies).
  assert (X : (frac (Zpos m1 * 2 ^ s) (Zpos m2) * p2 e == x)%Q).
  { unfold x, frac. rewrite inject_Z_mult, <- (p2_nat s S0). assert (A : (p2 s * p2 e == 1)%Q) by (rewrite <- p2_add; unfold s; replace (0 - 0 - e + e) with 0 by lia; reflexivity).
    setoid_replace (inject_Z (Zpos m1) * p2 s / inject_Z (Zpos m2) * p2 e)%Q with (inject_Z (Zpos m1) / inject_Z (Zpos m2) * (p2 s * p2 e))%Q by (field; discriminate). rewrite A. ring. }
  assert (XB : (x <= p2 1000)%Q).
  { unfold x, frac. apply Qle_shift_div_r; [apply inject_pos; lia|]. rewrite (p2_nat 1000) by lia. rewrite <- inject_Z_mult, <- Zle_Qle.
    assert (2 ^ 900 <= 2 ^ 1000) by (apply Z.pow_le_mono_r; lia). nia. }
  destruct (round_aux sx (Zpos m1 * 2 ^ s) (Zpos m2) q e (new_location (Zpos m2) r)) as (v & V & E); [lia|exact Q0|exact L| |rewrite X; exact XB|].
  - left. destruct (Z_le_gt_dec 0 (d1 - 1 + s - d2)) as [K|K].
    + assert (QL : 2 ^ (d1 - 1 + s - d2) <= q).
      { assert (A : 2 ^ (d1 - 1) * 2 ^ s <= Zpos m1 * 2 ^ s) by nia. rewrite <- Z.pow_add_r in A by lia.
        assert (B : 2 ^ (d1 - 1 + s) = 2 ^ (d1 - 1 + s - d2) * 2 ^ d2) by (rewrite <- Z.pow_add_r by lia; f_equal; lia).
        assert (0 < 2 ^ (d1 - 1 + s - d2)) by (apply Z.pow_pos_nonneg; lia).
        destruct (Z_le_gt_dec (2 ^ (d1 - 1 + s - d2)) q) as [G|G]; [exact G|]. exfalso. nia. }
      assert (QP : 0 < 2 ^ (d1 - 1 + s - d2)) by (apply Z.pow_pos_nonneg; lia).
      destruct (digits_bound q ltac:(lia)) as (G1 & G2 & G3).
      assert (G4 : d1 - 1 + s - d2 < Zdigits2 q) by (apply (Z.pow_lt_mono_r_iff 2); lia).
      pose proof (fx_mono (d1 + 0 - (d2 + 0)) (Zdigits2 q + e) ltac:(unfold s in *; lia)). unfold e in *. lia.
    + rewrite fx_eq. unfold s, e in *. rewrite fx_eq in *. lia.
  - exists v. split; [exact V|]. rewrite <- X. exact E.
Qed.

Definition quo (a b : Z) : Q := frac a b.
Lemma frac_opp_l a b : (frac (- a) b == - frac a b)%Q.
Proof. unfold frac. rewrite inject_Z_opp. unfold Qdiv. ring. Qed.
Lemma frac_opp_r a b : b <> 0 -> (frac a (- b) == - frac a b)%Q.
Proof. intros B. unfold frac. rewrite inject_Z_opp. field. intros E. apply B. unfold inject_Z, Qeq in E. cbn in E. lia. Qed.
Lemma frac_nonneg a b : 0 <= a -> 0 < b -> (0 <= frac a b)%Q.
Proof. intros A B. change 0%Q with (inject_Z 0). apply frac_le; [exact B|]. lia. Qed.
Lemma near_opp (q x b : Q) : (Qabs (q - x) <= b)%Q -> (Qabs (- q - - x) <= b)%Q.
Proof. intros H. setoid_replace (- q - - x)%Q with (- (q - x))%Q by ring. now rewrite Qabs_opp. Qed.

Lemma int_div a b : Z.abs a < 2 ^ 900 -> 0 < Z.abs b < 2 ^ 900 ->
  exists q, float_is (SFdiv 53 1024 (int_operand a) (int_operand b)) q /\ (Qabs (q - frac a b) <= u * Qabs (frac a b) + t)%Q.
Proof.
  intros A B. destruct b as [|m2|m2]; [lia| |]; (destruct a as [|m1|m1]; cbn [int_operand SFdiv]).
  - exists 0%Q. split; [reflexivity|]. assert (E : (frac 0 (Zpos m2) == 0)%Q) by (unfold frac; change (inject_Z 0) with 0%Q; field; discriminate). rewrite E. vm_compute. discriminate.
  - destruct (div_pos (xorb false false) m1 m2) as (q & V & E); [lia|lia|]. exists q. split; [exact V|]. rewrite (Qabs_pos (frac (Zpos m1) (Zpos m2))) by (apply frac_nonneg; lia). exact E.
  - destruct (div_pos (xorb true false) m1 m2) as (q & V & E); [lia|lia|]. exists (- q)%Q. split; [exact V|]. change (Zneg m1) with (- Zpos m1). rewrite frac_opp_l, Qabs_opp.
    rewrite (Qabs_pos (frac (Zpos m1) (Zpos m2))) by (apply frac_nonneg; lia). now apply near_opp.
  - exists 0%Q. split; [reflexivity|]. assert (E : (frac 0 (Zneg m2) == 0)%Q) by (unfold frac; change (inject_Z 0) with 0%Q; field; discriminate). rewrite E. vm_compute. discriminate.
  - destruct (div_pos (xorb false true) m1 m2) as (q & V & E); [lia|lia|]. exists (- q)%Q. split; [exact V|]. change (Zneg m2) with (- Zpos m2). rewrite frac_opp_r, Qabs_opp by lia.
    rewrite (Qabs_pos (frac (Zpos m1) (Zpos m2))) by (apply frac_nonneg; lia). now apply near_opp.
  - destruct (div_pos (xorb true true) m1 m2) as (q & V & E); [lia|lia|]. exists q. split; [exact V|]. change (Zneg m2) with (- Zpos m2). change (Zneg m1) with (- Zpos m1).
    rewrite frac_opp_r, frac_opp_l by lia. rewrite Qopp_involutive. rewrite (Qabs_pos (frac (Zpos m1) (Zpos m2))) by (apply frac_nonneg; lia). exact E.
Qed.

(** ** the value of a float *)
Lemma float_is_finite s m e q : float_is (S754_finite s m e) q -> (Qabs q == inject_Z (Zpos m) * p2 e)%Q /\ (q == if s then - Qabs q else Qabs q)%Q.
Proof.
  cbn [float_is]. fold (p2 e). intros H. pose proof (p2_pos e). pose proof (inject_pos (Zpos m) eq_refl).
  assert (0 < inject_Z (Zpos m) * p2 e)%Q by (apply Qmult_lt_0_compat; assumption).
  assert (E : (Qabs q == inject_Z (Zpos m) * p2 e)%Q).
  { destruct s; rewrite H; [setoid_replace (- inject_Z (Zpos m) * p2 e)%Q with (- (inject_Z (Zpos m) * p2 e))%Q by ring; rewrite Qabs_opp|]; apply Qabs_pos; lra. }
  split; [exact E|]. destruct s; rewrite E; [rewrite H; ring|exact H].
Qed.
Lemma exp_bound m e b : (inject_Z (Zpos m) * p2 e <= p2 b)%Q -> e <= b.
Proof.
  intros H. apply p2_le_inv. pose proof (p2_pos e). assert (1 <= inject_Z (Zpos m))%Q by (change 1%Q with (inject_Z 1); rewrite <- Zle_Qle; lia). nra.
Qed.

Local Notation hundred := (f64 100).
Lemma hundred_eq : hundred = S754_finite false 7036874417766400 (-46).
Proof. vm_compute. reflexivity. Qed.
Lemma frac_1 n : (frac n 1 == inject_Z n)%Q.
Proof. unfold frac. change (inject_Z 1) with 1%Q. field. Qed.
Lemma times_hundred x q : float_is x q -> (Qabs q <= p2 901)%Q ->
  exists v, float_is (SFmul 53 1024 x hundred) v /\ (Qabs (v - 100 * q) <= u * Qabs (100 * q) + t)%Q.
Proof.
  intros V B. rewrite hundred_eq. destruct x as [s|s| |s m e]; try (destruct V; fail).
  - exists 0%Q. split; [reflexivity|]. cbn [float_is] in V. rewrite V. vm_compute. discriminate.
  - destruct (float_is_finite s m e q V) as (A & S). cbn [SFmul]. rewrite xorb_false_r.
    set (k := 7036874417766400%positive). assert (EB : e <= 901) by (apply (exp_bound m); rewrite <- A; exact B).
    assert (H : (inject_Z (Zpos (m * k)) * p2 (e + -46) == 100 * Qabs q)%Q).
    { rewrite A, Pos2Z.inj_mul, inject_Z_mult, p2_add. setoid_replace (p2 (-46)) with (1 # 70368744177664)%Q by reflexivity. unfold k. 
      setoid_replace (inject_Z 7036874417766400) with (100 * inject_Z 70368744177664)%Q by reflexivity.
      setoid_replace (1 # 70368744177664)%Q with (/ inject_Z 70368744177664)%Q by reflexivity. field. }
    destruct (round_aux s (Zpos (m * k)) 1 (Zpos (m * k)) (e + -46) loc_Exact) as (v & W & E); [lia|lia|cbn; lia|right; split; [reflexivity|lia]| |].
    { rewrite frac_1, H. setoid_replace (p2 1000) with (p2 99 * p2 901)%Q by (rewrite <- p2_add; reflexivity). 
      assert (100 <= p2 99)%Q by (vm_compute; discriminate). pose proof (Qabs_nonneg q). nra. }
    exists (if s then - v else v)%Q. split; [exact W|]. rewrite frac_1, H in E.
    rewrite Qabs_Qmult. change (Qabs 100) with 100%Q. destruct s; rewrite S at 1.
    + setoid_replace (100 * - Qabs q)%Q with (- (100 * Qabs q))%Q by ring. now apply near_opp.
    + exact E.
Qed.
