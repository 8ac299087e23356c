(** * The rounding of [SpecFloat], continued: one rounding *)
From Coq Require Import ZArith QArith Qpower Qabs Lia Lqa Bool.
From Coq Require Import Floats.SpecFloat.
From Verif Require Import SpecPercent ProofFloat1.
Open Scope Z_scope.

Local Notation fx := (fexp 53 1024).
Lemma fx_eq e : fx e = Z.max (e - 53) (-1074).
Proof. reflexivity. Qed.
Lemma loc_back m l : loc_of_shr_record (shr_record_of_loc m l) = l.
Proof. now destruct l as [|[]]. Qed.
Lemma m_back m l : shr_m (shr_record_of_loc m l) = m.
Proof. now destruct l as [|[]]. Qed.

(** lower and upper ends of N / D *)
Lemma lies_le N D m l : 0 < D -> lies N D m l -> m * D <= N < (m + 1) * D.
Proof. intros P H. destruct l as [|c]; cbn [lies] in H; [subst; nia|lia]. Qed.

Definition frac (N D : Z) : Q := inject_Z N / inject_Z D.
Lemma frac_le N D m : 0 < D -> m * D <= N -> (inject_Z m <= frac N D)%Q.
Proof.
  intros P H. unfold frac. apply Qle_shift_div_l; [replace 0%Q with (inject_Z 0) by reflexivity; now rewrite <- Zlt_Qlt|].
  rewrite <- inject_Z_mult, <- Zle_Qle. exact H.
Qed.
Lemma inject_pos D : 0 < D -> (0 < inject_Z D)%Q.
Proof. intros P. replace 0%Q with (inject_Z 0) by reflexivity. now rewrite <- Zlt_Qlt. Qed.
Lemma Qabs_bound (a b : Q) : (- b <= a)%Q -> (a <= b)%Q -> (Qabs a <= b)%Q.
Proof. intros. now apply Qabs_Qle_condition. Qed.
Lemma frac_near N D k E : 0 < D -> 0 <= k -> 2 * Z.abs (E * (2 ^ k * D) - N) <= 2 ^ k * D ->
  (Qabs (inject_Z E * p2 k - frac N D) <= p2 (k - 1))%Q.
Proof.
  intros P K H. pose proof (inject_pos D P) as PD. pose proof (p2_half k) as HK. rewrite (p2_nat k K) in *.
  assert (A : (2 * (inject_Z E * (inject_Z (2 ^ k) * inject_Z D) - inject_Z N) <= inject_Z (2 ^ k) * inject_Z D)%Q).
  { change 2%Q with (inject_Z 2). rewrite <- !inject_Z_mult. unfold Qminus. rewrite <- inject_Z_opp, <- inject_Z_plus, <- inject_Z_mult, <- Zle_Qle. lia. }
  assert (B : (- (inject_Z (2 ^ k) * inject_Z D) <= 2 * (inject_Z E * (inject_Z (2 ^ k) * inject_Z D) - inject_Z N))%Q).
  { change 2%Q with (inject_Z 2). rewrite <- !inject_Z_mult. unfold Qminus. rewrite <- !inject_Z_opp, <- inject_Z_plus, <- inject_Z_mult, <- Zle_Qle. lia. }
  unfold frac. set (d := inject_Z D) in *. set (n := inject_Z N) in *. set (c := inject_Z E) in *. set (h := p2 (k - 1)) in *. set (w := inject_Z (2 ^ k)) in *.
  assert (F : (n == (n / d) * d)%Q) by (field; intro Z0; rewrite Z0 in PD; discriminate PD).
  set (q := (n / d)%Q) in *. apply Qabs_bound; nra.
Qed.

(** ** the tail of a rounding: an integer at most 2^53, with the exponent f *)
Definition finish (sx : bool) (m' f : Z) : spec_float :=
  let '(mrs'', e'') := shr_fexp 53 1024 m' f loc_Exact in
  match shr_m mrs'' with
  | Z0 => S754_zero sx
  | Zpos m => if Zle_bool e'' (1024 - 53) then S754_finite sx m e'' else S754_infinity sx
  | _ => S754_nan
  end.
Lemma round_aux_finish (sx : bool) m e l : binary_round_aux 53 1024 sx m e l =
  let (r, e') := shr_fexp 53 1024 m e l in finish sx (round_nearest_even (shr_m r) (loc_of_shr_record r)) e'.
Proof. reflexivity. Qed.
Lemma signed_value (sx : bool) (q v : Q) m e : (v == (if sx then - q else q))%Q -> (q == inject_Z (Zpos m) * p2 e)%Q -> float_is (S754_finite sx m e) v.
Proof. intros H E. cbn [float_is]. fold (p2 e). rewrite H. destruct sx; rewrite E; ring. Qed.
Lemma finish_plain (sx : bool) m f : 0 <= m -> fx (Zdigits2 m + f) <= f -> f <= 971 -> float_is (finish sx m f) (if sx then - (inject_Z m * p2 f) else inject_Z m * p2 f).
Proof.
  intros M F B. unfold finish, shr_fexp, shr. set (n := fx (Zdigits2 m + f) - f). assert (n <= 0) by (unfold n; lia).
  assert (E : match n with Zpos p => (iter_pos shr_1 p (shr_record_of_loc m loc_Exact), f + n) | _ => (shr_record_of_loc m loc_Exact, f) end = (shr_record_of_loc m loc_Exact, f)) by (destruct n; [reflexivity|lia|reflexivity]).
  rewrite E. cbn [shr_record_of_loc shr_m]. destruct m as [|p|p]; [| |lia].
  - destruct sx; cbn [float_is]; change (inject_Z 0) with 0%Q; ring.
  - replace (f <=? 1024 - 53) with true by (symmetry; apply Z.leb_le; lia).
    apply (signed_value sx (inject_Z (Zpos p) * p2 f)); [destruct sx; reflexivity|reflexivity].
Qed.
Lemma finish_ok (sx : bool) m f : 0 <= m <= 2 ^ 53 -> -1074 <= f -> f <= 970 -> float_is (finish sx m f) (if sx then - (inject_Z m * p2 f) else inject_Z m * p2 f).
Proof.
  intros M F B. destruct (Z.eq_dec m (2 ^ 53)) as [->|N].
  - assert (E : finish sx (2 ^ 53) f = S754_finite sx (2 ^ 52) (f + 1)).
    { unfold finish, shr_fexp, shr. change (Zdigits2 (2 ^ 53)) with 54. rewrite fx_eq. replace (Z.max (54 + f - 53) (-1074) - f) with 1 by lia.
      cbn [iter_pos]. change (shr_1 (shr_record_of_loc (2 ^ 53) loc_Exact)) with (Build_shr_record (2 ^ 52) false false). cbn [shr_m].
      change (2 ^ 52) with (Zpos (2 ^ 52)) at 1. cbv iota. replace (f + 1 <=? 1024 - 53) with true by (symmetry; apply Z.leb_le; lia). reflexivity. }
    rewrite E. apply (signed_value sx (inject_Z (2 ^ 53) * p2 f)); [destruct sx; reflexivity|]. rewrite p2_add.
    change (inject_Z (2 ^ 53)) with (inject_Z (2 ^ 52 * 2)). rewrite inject_Z_mult. change (p2 1) with 2%Q. change (inject_Z (Zpos (2 ^ 52))) with (inject_Z (2 ^ 52)). ring.
  - apply finish_plain; [lia| |lia]. rewrite fx_eq. pose proof (digits_le m 53 ltac:(lia) ltac:(lia)). lia.
Qed.

(** ** one rounding *)
Lemma shifted (sx : bool) N D m e r : 0 < D -> 0 <= m -> m * D <= N < (m + 1) * D ->
  let f := fx (Zdigits2 m + e) in e <= f -> in_record N (2 ^ (f - e) * D) r -> (frac N D * p2 e <= p2 1000)%Q ->
  let x := (frac N D * p2 e)%Q in
  exists q, float_is (finish sx (round_nearest_even (shr_m r) (loc_of_shr_record r)) f) (if sx then - q else q)%Q /\ (Qabs (q - x) <= p2 (-53) * x + p2 (-1075))%Q.
Proof.
  intros P M L f K (R0 & R) X x. set (k := f - e) in *. assert (PK : 0 < 2 ^ k) by (apply Z.pow_pos_nonneg; lia).
  destruct (nearest N (2 ^ k * D) (shr_m r) (loc_of_shr_record r) ltac:(nia) R0 R) as (E0 & E1 & E2).
  pose proof (lies_le N (2 ^ k * D) _ _ ltac:(nia) R) as RL.
  set (E := round_nearest_even (shr_m r) (loc_of_shr_record r)) in *.
  set (d := Zdigits2 m) in *. assert (Ff : f = Z.max (d + e - 53) (-1074)) by reflexivity.
  (* the size of the integer *)
  assert (D0 : 0 <= d /\ m < 2 ^ d /\ (0 < m -> 1 <= d /\ 2 ^ (d - 1) <= m)).
  { destruct (Z.eq_dec m 0) as [Z0|Z0]; [unfold d; rewrite Z0; cbn; repeat split; lia|]. destruct (digits_bound m ltac:(lia)) as (A & B & C). fold d in A, B, C. repeat split; lia. }
  destruct D0 as (D0 & D1 & D2).
  assert (S : shr_m r < 2 ^ 53).
  { assert (A : shr_m r * 2 ^ k < 2 ^ d) by nia.
    assert (B : 2 ^ d <= 2 ^ (53 + k)) by (apply Z.pow_le_mono_r; lia). rewrite Z.pow_add_r in B by lia. nia. }
  assert (NX : (frac N D * p2 e == x)%Q) by reflexivity.
  assert (LOW : 0 < m -> (p2 (d - 1 + e) <= x)%Q).
  { intros M0. destruct (D2 M0) as (D3 & D4). unfold x. rewrite p2_add. apply Qmult_le_compat_r; [|apply Qlt_le_weak, p2_pos].
    rewrite (p2_nat (d - 1)) by lia. apply frac_le; [exact P|]. nia. }
  assert (XN : (0 <= x)%Q).
  { unfold x. apply Qmult_le_0_compat; [|apply Qlt_le_weak, p2_pos]. change 0%Q with (inject_Z 0). apply frac_le; [exact P|]. nia. }
  assert (FB : f <= 970).
  { destruct (Z.eq_dec m 0) as [Z0|Z0]; [assert (d = 0) by (unfold d; now rewrite Z0); lia|].
    pose proof (LOW ltac:(lia)) as A. assert (B : (p2 (d - 1 + e) <= p2 1000)%Q) by (eapply Qle_trans; [exact A|exact X]).
    apply p2_le_inv in B. lia. }
  exists (inject_Z E * p2 f)%Q. split; [apply finish_ok; lia|].
  (* the error *)
  assert (H : (Qabs (inject_Z E * p2 f - x) <= p2 (f - 1))%Q).
  { pose proof (frac_near N D k E P ltac:(lia) E2) as A. unfold x.
    assert (F1 : (p2 f == p2 k * p2 e)%Q) by (rewrite <- p2_add; unfold k; replace (f - e + e) with f by lia; reflexivity).
    assert (F2 : (p2 (f - 1) == p2 (k - 1) * p2 e)%Q) by (rewrite <- p2_add; unfold k; replace (f - e - 1 + e) with (f - 1) by lia; reflexivity).
    rewrite F1, F2. setoid_replace (inject_Z E * (p2 k * p2 e) - frac N D * p2 e)%Q with ((inject_Z E * p2 k - frac N D) * p2 e)%Q by ring.
    rewrite Qabs_Qmult. rewrite (Qabs_pos (p2 e)) by apply Qlt_le_weak, p2_pos. apply Qmult_le_compat_r; [exact A|apply Qlt_le_weak, p2_pos]. }
  eapply Qle_trans; [exact H|]. pose proof (p2_pos (-53)). pose proof (p2_pos (-1075)).
  destruct (Z_le_gt_dec f (-1074)) as [S0|S0].
  - assert (f - 1 = -1075) as -> by lia. nra.
  - assert (m <> 0) by (intros Z0; assert (d = 0) by (unfold d; now rewrite Z0); lia).
    pose proof (LOW ltac:(lia)) as A. assert (B : (p2 (f - 1) == p2 (-53) * p2 (d - 1 + e))%Q) by (rewrite <- p2_add; replace (-53 + (d - 1 + e)) with (f - 1) by lia; reflexivity).
    rewrite B. nra.
Qed.

Theorem round_aux (sx : bool) N D m e l : 0 < D -> 0 <= m -> lies N D m l -> e <= fx (Zdigits2 m + e) \/ l = loc_Exact /\ e <= 971 ->
  let x := (frac N D * p2 e)%Q in (x <= p2 1000)%Q ->
  exists q, float_is (binary_round_aux 53 1024 sx m e l) (if sx then - q else q)%Q /\ (Qabs (q - x) <= p2 (-53) * x + p2 (-1075))%Q.
Proof.
  intros P M L C x X. pose proof (lies_le N D m l P L) as B. rewrite round_aux_finish. unfold shr_fexp, shr.
  set (f := fx (Zdigits2 m + e)) in *. destruct (Z_le_gt_dec e f) as [K|K].
  - assert (Q : exists r, match f - e with Zpos p => (iter_pos shr_1 p (shr_record_of_loc m l), e + (f - e)) | _ => (shr_record_of_loc m l, e) end = (r, f) /\ in_record N (2 ^ (f - e) * D) r).
    { pose proof (record_of_loc N D m l M L) as R. destruct (f - e) as [|p|p] eqn:E; [| |lia].
      - exists (shr_record_of_loc m l). split; [f_equal; lia|]. now rewrite Z.mul_1_l.
      - exists (iter_pos shr_1 p (shr_record_of_loc m l)). split; [f_equal; lia|]. now apply iter_in. }
    destruct Q as (r & -> & R). now apply (shifted sx N D m e r).
  - destruct C as [C|(-> & E)]; [lia|]. cbn [lies] in L.
    assert (Q : match f - e with Zpos p => (iter_pos shr_1 p (shr_record_of_loc m loc_Exact), e + (f - e)) | _ => (shr_record_of_loc m loc_Exact, e) end = (shr_record_of_loc m loc_Exact, e)) by (destruct (f - e) eqn:FE; [reflexivity|lia|reflexivity]).
    rewrite Q. cbn [shr_record_of_loc shr_m loc_of_shr_record round_nearest_even].
    exists (inject_Z m * p2 e)%Q. split; [apply finish_plain; fold f; lia|].
    assert (A : (frac N D == inject_Z m)%Q).
    { unfold frac. rewrite L, inject_Z_mult. field. intros Z0. pose proof (inject_pos D P) as PD. rewrite Z0 in PD. discriminate PD. }
    unfold x. rewrite A. setoid_replace (inject_Z m * p2 e - inject_Z m * p2 e)%Q with 0%Q by ring.
    pose proof (p2_pos (-53)). pose proof (p2_pos (-1075)). pose proof (p2_pos e). assert (0 <= inject_Z m)%Q by (change 0%Q with (inject_Z 0); now rewrite <- Zle_Qle).
    change (Qabs 0) with 0%Q. assert (0 <= inject_Z m * p2 e)%Q by (apply Qmult_le_0_compat; lra). assert (0 <= p2 (-53) * (inject_Z m * p2 e))%Q by (apply Qmult_le_0_compat; lra). lra.
Qed.
