(** * Differences, percentages *)
From Coq Require Import ZArith QArith Qpower Qabs Lia Lqa Bool.
From Coq Require Import Floats.SpecFloat.
From Verif Require Import SpecPercent ProofFloat1 ProofFloat2 ProofFloat3.
Open Scope Z_scope.
Local Notation fx := (fexp 53 1024).
Local Notation u := (p2 (-53)).
Local Notation t := (p2 (-1075)).

Lemma shl_align_value m e e' : e' <= e -> (inject_Z (Zpos (fst (shl_align m e e'))) * p2 e' == inject_Z (Zpos m) * p2 e)%Q /\ snd (shl_align m e e') = e'.
Proof.
  intros H. unfold shl_align. destruct (e' - e) as [|p|p] eqn:E; [|lia|].
  - assert (e' = e) as -> by lia. split; [reflexivity|reflexivity].
  - cbn [fst snd]. split; [|reflexivity]. rewrite shift_pos_correct, inject_Z_mult. change (Z.pow_pos 2 p) with (2 ^ Zpos p).
    rewrite <- (p2_nat (Zpos p)) by lia. replace e with (Zpos p + e') by lia. rewrite p2_add. ring.
Qed.
Lemma round_ok (sx : bool) m e : let x := (inject_Z (Zpos m) * p2 e)%Q in (x <= p2 1000)%Q ->
  exists v, float_is (binary_round 53 1024 sx m e) (if sx then - v else v)%Q /\ (Qabs (v - x) <= u * x + t)%Q.
Proof.
  intros x B. unfold binary_round. set (f := fx (Zpos (digits2_pos m) + e)). destruct (Z_le_gt_dec e f) as [K|K].
  - assert (S : shl_align m e f = (m, e)) by (unfold shl_align; destruct (f - e) eqn:E; [reflexivity|reflexivity|lia]). rewrite S.
    destruct (round_aux sx (Zpos m) 1 (Zpos m) e loc_Exact) as (v & V & E); [lia|lia|cbn [lies]; lia|left; exact K|rewrite frac_1; exact B|].
    exists v. split; [exact V|]. rewrite frac_1 in E. exact E.
  - pose proof (shl_align_value m e f ltac:(lia)) as (A & S). destruct (shl_align m e f) as [mz ez]. cbn [fst snd] in A, S. subst ez.
    assert (F : f <= 971).
    { pose proof (digits_pos m) as D. set (d := Zpos (digits2_pos m)) in *. assert (L : (p2 (d - 1 + e) <= x)%Q).
      { unfold x. rewrite p2_add. apply Qmult_le_compat_r; [|apply Qlt_le_weak, p2_pos]. rewrite (p2_nat (d - 1)) by lia. rewrite <- Zle_Qle. lia. }
      assert (L2 : (p2 (d - 1 + e) <= p2 1000)%Q) by (eapply Qle_trans; [exact L|exact B]). apply p2_le_inv in L2. unfold f. rewrite fx_eq. lia. }
    destruct (round_aux sx (Zpos mz) 1 (Zpos mz) f loc_Exact) as (v & V & E); [lia|lia|cbn [lies]; lia|right; split; [reflexivity|exact F]|rewrite frac_1, A; exact B|].
    exists v. split; [exact V|]. rewrite frac_1, A in E. exact E.
Qed.
Lemma scaled_nonneg m e : (0 <= inject_Z (Zpos m) * p2 e)%Q.
Proof. apply Qmult_le_0_compat; [apply Qlt_le_weak, inject_pos; lia|apply Qlt_le_weak, p2_pos]. Qed.
Lemma normalize_ok z e : let x := (inject_Z z * p2 e)%Q in (Qabs x <= p2 1000)%Q ->
  exists v, float_is (binary_normalize 53 1024 z e false) v /\ (Qabs (v - x) <= u * Qabs x + t)%Q.
Proof.
  intros x B. pose proof (p2_pos (-53)) as P1. pose proof (p2_pos (-1075)) as P2. destruct z as [|m|m]; cbn [binary_normalize].
  - exists 0%Q. split; [reflexivity|]. unfold x. change (inject_Z 0) with 0%Q. setoid_replace (0 * p2 e)%Q with 0%Q by ring. change (Qabs (0 - 0)) with 0%Q. change (Qabs 0) with 0%Q. lra.
  - pose proof (scaled_nonneg m e) as N. assert (A : (Qabs x == inject_Z (Zpos m) * p2 e)%Q) by (apply Qabs_pos; exact N).
    destruct (round_ok false m e) as (v & V & E); [rewrite <- A; exact B|]. exists v. split; [exact V|]. rewrite A. exact E.
  - pose proof (scaled_nonneg m e) as N. assert (X : (x == - (inject_Z (Zpos m) * p2 e))%Q) by (unfold x; change (Zneg m) with (- Zpos m); rewrite inject_Z_opp; ring).
    assert (A : (Qabs x == inject_Z (Zpos m) * p2 e)%Q) by (rewrite X, Qabs_opp; now apply Qabs_pos).
    destruct (round_ok true m e) as (v & V & E); [rewrite <- A; exact B|]. exists (- v)%Q. split; [exact V|]. rewrite A, X. now apply near_opp.
Qed.
Lemma near_self (q x b : Q) : (q == x)%Q -> (0 <= b)%Q -> (Qabs (q - x) <= b)%Q.
Proof. intros E H. rewrite E. setoid_replace (x - x)%Q with 0%Q by ring. exact H. Qed.
Lemma bound_nonneg x : (0 <= u * Qabs x + t)%Q.
Proof. pose proof (p2_pos (-53)). pose proof (p2_pos (-1075)). pose proof (Qabs_nonneg x). assert (0 <= u * Qabs x)%Q by (apply Qmult_le_0_compat; lra). lra. Qed.
Lemma cond_value (s : bool) m e : (inject_Z (cond_Zopp s (Zpos m)) * p2 e == (if s then - inject_Z (Zpos m) else inject_Z (Zpos m)) * p2 e)%Q.
Proof. destruct s; cbn [cond_Zopp]; [rewrite inject_Z_opp|]; reflexivity. Qed.
Lemma aligned_value (s : bool) m e e' : e' <= e -> (inject_Z (cond_Zopp s (Zpos (fst (shl_align m e e')))) * p2 e' == (if s then - inject_Z (Zpos m) else inject_Z (Zpos m)) * p2 e)%Q.
Proof.
  intros H. destruct (shl_align_value m e e' H) as (A & _). rewrite cond_value. destruct s; [|exact A].
  setoid_replace (- inject_Z (Zpos (fst (shl_align m e e'))) * p2 e')%Q with (- (inject_Z (Zpos (fst (shl_align m e e'))) * p2 e'))%Q by ring. rewrite A. ring.
Qed.
Lemma minus x y a b : float_is x a -> float_is y b -> (Qabs (a - b) <= p2 1000)%Q ->
  exists v, float_is (SFsub 53 1024 x y) v /\ (Qabs (v - (a - b)) <= u * Qabs (a - b) + t)%Q.
Proof.
  intros X Y B. destruct x as [sx|sx| |sx mx ex]; try (destruct X; fail); (destruct y as [sy|sy| |sy my ey]; try (destruct Y; fail)).
  - exists 0%Q. cbn [float_is] in X, Y. split; [cbn [SFsub]; destruct (eqb sx (negb sy)); reflexivity|]. apply near_self; [rewrite X, Y; reflexivity|apply bound_nonneg].
  - exists (a - b)%Q. cbn [float_is SFsub] in *. split; [|apply near_self; [reflexivity|apply bound_nonneg]]. rewrite X, Y. destruct sy; cbn [negb]; ring.
  - exists (a - b)%Q. cbn [float_is SFsub] in *. split; [|apply near_self; [reflexivity|apply bound_nonneg]]. rewrite X, Y. ring.
  - cbn [SFsub]. set (ez := Z.min ex ey). cbn [float_is] in X, Y.
    assert (V : (inject_Z (cond_Zopp sx (Zpos (fst (shl_align mx ex ez))) - cond_Zopp sy (Zpos (fst (shl_align my ey ez)))) * p2 ez == a - b)%Q).
    { unfold Z.sub. rewrite inject_Z_plus, inject_Z_opp, Qmult_plus_distr_l.
      setoid_replace (- inject_Z (cond_Zopp sy (Zpos (fst (shl_align my ey ez)))) * p2 ez)%Q with (- (inject_Z (cond_Zopp sy (Zpos (fst (shl_align my ey ez)))) * p2 ez))%Q by ring.
      rewrite !aligned_value by (unfold ez; lia). rewrite X, Y. unfold p2. ring. }
    destruct (normalize_ok (cond_Zopp sx (Zpos (fst (shl_align mx ex ez))) - cond_Zopp sy (Zpos (fst (shl_align my ey ez)))) ez) as (v & W & E); [rewrite V; exact B|].
    exists v. split; [exact W|]. rewrite V in E. exact E.
Qed.
