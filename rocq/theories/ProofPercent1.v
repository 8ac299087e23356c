(** * Percentages: values and texts *)
From Coq Require Import Ascii String List ZArith QArith Qpower Qabs Lia Lqa Bool.
From Coq Require Import Floats.SpecFloat.
From Verif Require Import Base MemMap Table Text Percent SpecTable SpecPercent ProofTable ProofFloat1 ProofFloat2 ProofFloat3 ProofFloat4.
Import ListNotations.
Open Scope list_scope.
Open Scope Z_scope.

Local Notation u := (p2 (-53)).
Local Notation t := (p2 (-1075)).
Lemma u_eq : (u == 1 # 9007199254740992)%Q.
Proof. vm_compute. reflexivity. Qed.
Lemma t_small : (0 < t /\ t <= (1 # 1267650600228229401496703205376))%Q.
Proof. split; [apply p2_pos|]. apply (Qle_trans _ (p2 (-100))); [apply p2_mono; lia|vm_compute; discriminate]. Qed.
Lemma Qabs_le x b : (Qabs x <= b)%Q -> (- b <= x <= b)%Q.
Proof. apply Qabs_Qle_condition. Qed.
Lemma Qabs_cases x : (0 <= x /\ Qabs x == x)%Q \/ (x <= 0 /\ Qabs x == - x)%Q.
Proof. destruct (Qlt_le_dec x 0) as [H|H]; [right|left]; (split; [lra|]); [apply Qabs_neg|apply Qabs_pos]; lra. Qed.
Ltac absolve := repeat match goal with
  | |- context [Qabs ?x] => let N := fresh in let E := fresh in destruct (Qabs_cases x) as [(N & E)|(N & E)]; rewrite E in *; clear E
  | H : context [Qabs ?x] |- _ => let N := fresh in let E := fresh in destruct (Qabs_cases x) as [(N & E)|(N & E)]; rewrite E in *; clear E
  end.

Lemma inject_nz z : z <> 0 -> ~ (inject_Z z == 0)%Q.
Proof. intros N E. apply N. unfold inject_Z, Qeq in E. cbn in E. lia. Qed.
Lemma frac_abs a b : (Qabs (frac a b) == frac (Z.abs a) (Z.abs b))%Q.
Proof.
  destruct (Z.eq_dec b 0) as [->|NB].
  - unfold frac. change (inject_Z 0) with 0%Q. setoid_replace (inject_Z a / 0)%Q with 0%Q by (unfold Qdiv; change (/ 0)%Q with 0%Q; ring). setoid_replace (inject_Z (Z.abs a) / inject_Z (Z.abs 0))%Q with 0%Q by (change (inject_Z (Z.abs 0)) with 0%Q; unfold Qdiv; change (/ 0)%Q with 0%Q; ring). reflexivity.
  - assert (A : forall a', 0 <= a' -> (Qabs (frac a' (Z.abs b)) == frac a' (Z.abs b))%Q) by (intros; apply Qabs_pos, frac_nonneg; lia).
    destruct (Z.abs_spec b) as [(Hb & Eb)|(Hb & Eb)]; destruct (Z.abs_spec a) as [(Ha & Ea)|(Ha & Ea)]; rewrite Ea.
    + rewrite Eb in *. apply A. lia.
    + rewrite Eb in *. replace a with (- - a) at 1 by lia. rewrite frac_opp_l, Qabs_opp. apply A. lia.
    + rewrite Eb in *. replace b with (- - b) at 1 by lia. rewrite frac_opp_r, Qabs_opp by lia. apply A. lia.
    + rewrite Eb in *. replace b with (- - b) at 1 by lia. replace a with (- - a) at 1 by lia. rewrite frac_opp_r, frac_opp_l, Qopp_involutive by lia. apply A. lia.
Qed.
Lemma moderate_900 z : moderate z -> Z.abs z < 2 ^ 900.
Proof. unfold moderate. intros H. eapply Z.lt_le_trans; [exact H|]. apply Z.pow_le_mono_r; lia. Qed.
Lemma frac_bound a b : moderate a -> (Qabs (frac a b) <= p2 900)%Q.
Proof.
  intros A. apply moderate_900 in A. rewrite frac_abs. destruct (Z.eq_dec b 0) as [->|NB].
  - unfold frac. setoid_replace (inject_Z (Z.abs a) / inject_Z (Z.abs 0))%Q with 0%Q by (change (inject_Z (Z.abs 0)) with 0%Q; unfold Qdiv; change (/ 0)%Q with 0%Q; ring). apply Qlt_le_weak, p2_pos.
  - unfold frac. apply Qle_shift_div_r; [apply inject_pos; lia|]. rewrite (p2_nat 900) by lia. rewrite <- inject_Z_mult, <- Zle_Qle. nia.
Qed.
Lemma percentage_frac a b : b <> 0 -> (percentage a b == 100 * frac a b)%Q.
Proof. intros B. unfold percentage. destruct (Z.eqb_spec b 0) as [E|E]; [lia|]. unfold frac. field. now apply inject_nz. Qed.

Definition wee (x : Q) : Q := (x * (1 # 2251799813685248))%Q.
Lemma percent_near used size : moderate used -> moderate size ->
  exists q, float_is (percent used size) q /\ (Qabs (q - percentage used size) <= wee (Qabs (percentage used size) + 1))%Q.
Proof.
  intros MU MS. unfold percent. destruct (Z.eqb_spec size 0) as [E|NE].
  - exists 0%Q. split; [reflexivity|]. unfold percentage. rewrite E. cbn [Z.eqb]. vm_compute. discriminate.
  - pose proof (moderate_900 _ MU). pose proof (moderate_900 _ MS). destruct (int_div used size) as (q1 & V1 & E1); [lia|lia|].
    pose proof (frac_bound used size MU) as B0. set (r := frac used size) in *.
    pose proof t_small as (T0 & T1).
    assert (B1 : (Qabs q1 <= p2 901)%Q).
    { assert (P : (p2 901 == 2 * p2 900)%Q) by (rewrite <- (p2_half 901); change (901 - 1) with 900; ring). rewrite P.
      assert (G : (1 <= p2 900)%Q) by (apply p2_ge1; lia). pose proof u_eq as U. rewrite U in E1. apply Qabs_le in E1.
      pose proof (Qabs_nonneg r) as R0. destruct (Qabs_cases r) as [(N & A)|(N & A)]; rewrite A in *; apply Qabs_Qle_condition; nra. }
    destruct (times_hundred _ q1 V1 B1) as (q & V & E2). exists q. split; [exact V|].
    unfold wee. rewrite (percentage_frac used size NE). fold r.
    rewrite !Qabs_Qmult in *. change (Qabs 100) with 100%Q in *. rewrite u_eq in *.
    apply Qabs_le in E1, E2. apply Qabs_Qle_condition.
    destruct (Qabs_cases r) as [(N & A)|(N & A)]; rewrite A in *; destruct (Qabs_cases q1) as [(N1 & A1)|(N1 & A1)]; rewrite A1 in *; lra.
Qed.
Lemma percent_diff_near used size used0 size0 : moderate used -> moderate size -> moderate used0 -> moderate size0 ->
  let p := percentage used size in let r := percentage used0 size0 in
  exists q, float_is (fsub (percent used size) (percent used0 size0)) q /\ (Qabs (q - (p - r)) <= tiny (Qabs p + Qabs r + 2))%Q.
Proof.
  intros A B C D p r. destruct (percent_near used size A B) as (q1 & V1 & E1). destruct (percent_near used0 size0 C D) as (q2 & V2 & E2). fold p in E1. fold r in E2.
  assert (PB : forall x y, moderate x -> (Qabs (percentage x y) <= p2 907)%Q).
  { intros x y X. destruct (Z.eq_dec y 0) as [->|N]; [apply Qlt_le_weak, p2_pos|]. rewrite (percentage_frac x y N), Qabs_Qmult. change (Qabs 100) with 100%Q.
    pose proof (frac_bound x y X) as F. assert (P : (p2 907 == 128 * p2 900)%Q) by (change 907 with (7 + 900); rewrite p2_add; reflexivity). rewrite P. pose proof (p2_pos 900). lra. }
  pose proof (PB used size A) as P1. pose proof (PB used0 size0 C) as P2. fold p in P1. fold r in P2. clear PB.
  assert (G : (1 <= p2 907)%Q) by (apply p2_ge1; lia). assert (BIG : (16 * p2 907 <= p2 1000)%Q).
  { change 1000 with (4 + (89 + 907)). rewrite !p2_add. change (p2 4) with 16%Q. assert (1 <= p2 89)%Q by (apply p2_ge1; lia). assert (1 * p2 907 <= p2 89 * p2 907)%Q by (apply Qmult_le_compat_r; lra). lra. }
  unfold wee, tiny in *. pose proof t_small as (T0 & T1). apply Qabs_le in E1, E2.
  destruct (minus _ _ q1 q2 V1 V2) as (q & V & E).
  { apply Qabs_Qle_condition. destruct (Qabs_cases p) as [(N & Z)|(N & Z)]; rewrite Z in *; destruct (Qabs_cases r) as [(N1 & Z1)|(N1 & Z1)]; rewrite Z1 in *; lra. }
  exists q. split; [exact V|]. rewrite u_eq in E. apply Qabs_le in E. apply Qabs_Qle_condition.
  destruct (Qabs_cases p) as [(N & Z)|(N & Z)]; rewrite Z in *; destruct (Qabs_cases r) as [(N1 & Z1)|(N1 & Z1)]; rewrite Z1 in *;
  destruct (Qabs_cases (q1 - q2)) as [(N2 & Z2)|(N2 & Z2)]; rewrite Z2 in *; lra.
Qed.
