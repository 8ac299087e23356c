(** * Percentages, continued: the texts and the cells *)
From Coq Require Import Ascii String List ZArith QArith Qpower Qabs Lia Lqa Bool.
From Coq Require Import Floats.SpecFloat.
From Verif Require Import Base MemMap Table Text Percent SpecTable SpecPercent ProofTable ProofFloat1 ProofFloat2 ProofFloat3 ProofFloat4 ProofPercent1.
Import ListNotations.
Open Scope list_scope.
Open Scope Z_scope.

Lemma nearest_even_near a b : 0 <= a -> 0 < b -> 0 <= nearest_even a b /\ 2 * Z.abs (nearest_even a b * b - a) <= b.
Proof.
  intros A B. unfold nearest_even. pose proof (Z.div_mod a b ltac:(lia)) as D. pose proof (Z.mod_pos_bound a b B) as M. pose proof (Z.div_pos a b A B) as Q.
  destruct (Z.compare_spec (2 * (a mod b)) b) as [C|C|C]; [destruct (Z.even (a / b))| |]; (split; [lia|nia]).
Qed.
Lemma hundredths_near x q : float_is x q -> 0 <= hundredths x /\ (Qabs (inject_Z (hundredths x) * (1 # 100) - Qabs q) <= 1 # 200)%Q /\ (q == if negative x then - Qabs q else Qabs q)%Q.
Proof.
  intros V. destruct x as [s|s| |s m e]; try (destruct V; fail).
  - cbn [float_is hundredths negative] in *. split; [lia|]. assert (Z0 : (Qabs q == 0)%Q) by (rewrite V; reflexivity). split; [rewrite Z0; vm_compute; discriminate|]. destruct s; rewrite Z0, V; reflexivity.
  - destruct (float_is_finite s m e q V) as (A & S). cbn [negative]. cut (0 <= hundredths (S754_finite s m e) /\ (Qabs (inject_Z (hundredths (S754_finite s m e)) * (1 # 100) - Qabs q) <= 1 # 200)%Q); [tauto|]. cbn [hundredths].
    destruct (Z.leb_spec 0 e) as [L|L].
    + assert (0 < 2 ^ e) by (apply Z.pow_pos_nonneg; lia). split; [nia|]. rewrite A, (p2_nat e L).
      rewrite !inject_Z_mult. change (inject_Z 100) with 100%Q.
      setoid_replace (100 * inject_Z (Zpos m) * inject_Z (2 ^ e) * (1 # 100) - inject_Z (Zpos m) * inject_Z (2 ^ e))%Q with 0%Q by ring. vm_compute. discriminate.
    + assert (P : 0 < 2 ^ (- e)) by (apply Z.pow_pos_nonneg; lia).
      destruct (nearest_even_near (100 * Zpos m) (2 ^ (- e)) ltac:(lia) P) as (N & E). split; [exact N|]. set (k := nearest_even (100 * Zpos m) (2 ^ (- e))) in *.
      pose proof (frac_near (100 * Zpos m) 1 (- e) k ltac:(lia) ltac:(lia) ltac:(rewrite Z.mul_1_r; exact E)) as F. rewrite frac_1 in F.
      rewrite A. rewrite inject_Z_mult in F. change (inject_Z 100) with 100%Q in F.
      pose proof (p2_pos e) as PE. pose proof (p2_pos (- e)) as PN.
      assert (I : (p2 (- e) * p2 e == 1)%Q) by (rewrite <- p2_add; replace (- e + e) with 0 by lia; reflexivity).
      assert (H : (p2 (- e - 1) * 2 == p2 (- e))%Q) by apply p2_half.
      apply Qabs_le in F. set (w := p2 (- e)) in *. set (h := p2 (- e - 1)) in *. set (v := p2 e) in *. set (c := inject_Z k) in *. set (M := inject_Z (Zpos m)) in *.
      assert (F1 : ((c * w - 100 * M) * v == c - 100 * (M * v))%Q) by (setoid_replace ((c * w - 100 * M) * v)%Q with (c * (w * v) - 100 * (M * v))%Q by ring; rewrite I; ring).
      assert (F2 : (h * v == 1 # 2)%Q) by (assert (h * v * 2 == 1)%Q by (setoid_replace (h * v * 2)%Q with (h * 2 * v)%Q by ring; rewrite H; exact I); lra).
      destruct F as (Fa & Fb). assert (G1 : (- h * v <= (c * w - 100 * M) * v)%Q) by (apply Qmult_le_compat_r; lra). assert (G2 : ((c * w - 100 * M) * v <= h * v)%Q) by (apply Qmult_le_compat_r; lra).
      rewrite F1 in G1, G2. setoid_replace (- h * v)%Q with (- (h * v))%Q in G1 by ring. rewrite F2 in G1, G2. apply Qabs_Qle_condition. set (X := (M * v)%Q) in *. lra.
Qed.

(** ** texts *)
Lemma show_decimal z : 0 <= z -> decimal (show_Z z) z.
Proof. intros H. destruct (show_Z_written z) as [(_ & D & _)|(N & _)]; [exact D|lia]. Qed.
Definition range (n : nat) : list Z := map Z.of_nat (seq 0 n).
Lemma in_range n z : 0 <= z < Z.of_nat n -> In z (range n).
Proof. intros H. unfold range. apply List.in_map_iff. exists (Z.to_nat z). split; [lia|]. apply in_seq. lia. Qed.
Definition part_text (r : Z) : str := if r mod 10 =? 0 then show_Z (r / 10) else if r <? 10 then "0"%char :: show_Z r else show_Z r.
Definition part_len (r : Z) : bool :=
  if r mod 10 =? 0 then Nat.eqb (length (part_text r)) 1 else Nat.eqb (length (part_text r)) 2.
Lemma part_lens : forallb part_len (range 100) = true.
Proof. vm_compute. reflexivity. Qed.
Lemma decimal_zero s n : decimal s n -> decimal ("0"%char :: s) n.
Proof.
  intros D. induction D as [c d H|s n c d D IH H].
  - replace d with (10 * 0 + d) by lia. apply (dec_more ["0"%char] 0 c d); [|exact H]. apply dec_one. split; [lia|reflexivity].
  - rewrite app_comm_cons. now apply dec_more.
Qed.
Lemma part_reads r : 0 <= r < 100 -> exists b, decimal (part_text r) b /\ (length (part_text r) = 1%nat /\ 10 * b = r \/ length (part_text r) = 2%nat /\ b = r).
Proof.
  intros H. pose proof (proj1 (forallb_forall _ _) part_lens r (in_range 100 r ltac:(lia))) as L. unfold part_len in L.
  pose proof (Z.div_mod r 10 ltac:(lia)) as DM. pose proof (Z.div_pos r 10 ltac:(lia) ltac:(lia)) as DP.
  destruct (Z.eqb_spec (r mod 10) 0) as [E|E].
  - exists (r / 10). apply Nat.eqb_eq in L. split; [|left; split; [exact L|lia]]. unfold part_text. rewrite E. cbn [Z.eqb]. apply show_decimal. lia.
  - exists r. apply Nat.eqb_eq in L. split; [|right; split; [exact L|reflexivity]]. unfold part_text. destruct (Z.eqb_spec (r mod 10) 0) as [E'|_]; [lia|].
    destruct (r <? 10); [apply decimal_zero|]; apply show_decimal; lia.
Qed.
Lemma text_reads (neg : bool) n : 0 <= n -> reads ((if neg then ["-"%char] else []) ++ hundredths_text n) (if neg then - (inject_Z n * (1 # 100)) else inject_Z n * (1 # 100))%Q.
Proof.
  intros N. pose proof (Z.mod_pos_bound n 100 ltac:(lia)) as M. pose proof (Z.div_mod n 100 ltac:(lia)) as DM. pose proof (Z.div_pos n 100 N ltac:(lia)) as DP.
  destruct (part_reads (n mod 100) M) as (b & B & C). exists neg, (show_Z (n / 100)), (part_text (n mod 100)), (n / 100), b.
  split; [reflexivity|]. split; [now apply show_decimal|]. split; [exact B|]. split; [lia|]. cbv zeta.
  assert (V : (inject_Z (n / 100) + inject_Z b / inject_Z (10 ^ Z.of_nat (length (part_text (n mod 100)))) == inject_Z n * (1 # 100))%Q).
  { rewrite DM at 3. rewrite inject_Z_plus, inject_Z_mult. change (inject_Z 100) with 100%Q. destruct C as [(L & E)|(L & E)]; rewrite L.
    - change (inject_Z (10 ^ Z.of_nat 1)) with 10%Q. rewrite <- E. rewrite inject_Z_mult. change (inject_Z 10) with 10%Q. field.
    - change (inject_Z (10 ^ Z.of_nat 2)) with 100%Q. rewrite <- E. field. }
  destruct neg; rewrite V; reflexivity.
Qed.

Lemma number_shown x v p e : float_is x v -> (Qabs (v - p) <= e)%Q -> exists q, reads (rounded_text x) q /\ to_hundredths q p e /\
  (q == if negative x then - (inject_Z (hundredths x) * (1 # 100)) else inject_Z (hundredths x) * (1 # 100))%Q.
Proof.
  intros V E. destruct (hundredths_near x v V) as (N & H & S). exists (if negative x then - (inject_Z (hundredths x) * (1 # 100)) else inject_Z (hundredths x) * (1 # 100))%Q.
  split; [now apply text_reads|]. split; [|reflexivity]. unfold to_hundredths. apply Qabs_le in E, H. apply Qabs_Qle_condition.
  destruct (negative x); rewrite S in E; lra.
Qed.
Lemma to_hundredths_wee q p : to_hundredths q p (wee (Qabs p + 1)) -> to_hundredths q p (tiny (Qabs p + 1)).
Proof. unfold to_hundredths, wee, tiny. intros H. pose proof (Qabs_nonneg p). eapply Qle_trans; [exact H|]. lra. Qed.

Lemma nearest used size (neg : bool) n q : moderate size -> (q == if neg then - (inject_Z n * (1 # 100)) else inject_Z n * (1 # 100))%Q -> (size = 0 -> n = 0) ->
  to_hundredths q (percentage used size) (tiny (Qabs (percentage used size) + 1)) ->
  to_hundredths q (percentage used size) (if Qlt_le_dec 100 (Qabs (percentage used size)) then tiny (Qabs (percentage used size) + 1) else 0).
Proof.
  intros M V Z0 H. destruct (Qlt_le_dec 100 (Qabs (percentage used size))) as [L|L]; [exact H|]. unfold to_hundredths in *.
  assert (W : exists k, (q == inject_Z k * (1 # 100))%Q /\ (n = 0 -> k = 0)).
  { destruct neg; [exists (- n); rewrite inject_Z_opp; split; [rewrite V; ring|lia]|exists n; split; [exact V|auto]]. }
  destruct W as (k & W & K0). clear V. unfold percentage in *. destruct (Z.eqb_spec size 0) as [E|NE].
  - rewrite W, (K0 (Z0 E)). vm_compute. discriminate.
  - assert (G : exists a b, 0 < b < 2 ^ 35 /\ (100 * inject_Z used / inject_Z size == 100 * inject_Z a / inject_Z b)%Q).
    { unfold moderate in M. destruct (Z_lt_le_dec 0 size) as [S|S]; [exists used, size; split; [lia|reflexivity]|].
      exists (- used), (- size). split; [lia|]. rewrite !inject_Z_opp. field. change 0%Q with (inject_Z 0). rewrite inject_Z_injective. lia. }
    destruct G as (a & b & (B & B35) & G). unfold tiny in H. rewrite G in *. rewrite W in *. clear G W M NE.
    assert (PB : (0 < inject_Z b)%Q) by (change 0%Q with (inject_Z 0); now rewrite <- Zlt_Qlt).
    assert (UB : (inject_Z b <= 34359738368)%Q) by (change 34359738368%Q with (inject_Z (2 ^ 35)); rewrite <- Zle_Qle; lia).
    set (r := (100 * inject_Z a / inject_Z b)%Q) in *.
    assert (R : (r * inject_Z b == 100 * inject_Z a)%Q) by (unfold r; field; lra).
    apply Qabs_le in H. apply Qabs_Qle_condition.
    assert (M1 : ((inject_Z k * (1 # 100) - r) * inject_Z b <= ((1 # 200) + (101 # 1125899906842624)) * inject_Z b)%Q) by (apply Qmult_le_compat_r; lra).
    assert (M2 : ((r - inject_Z k * (1 # 100)) * inject_Z b <= ((1 # 200) + (101 # 1125899906842624)) * inject_Z b)%Q) by (apply Qmult_le_compat_r; lra).
    assert (U1 : 2 * (k * b - 10000 * a) < b + 1).
    { rewrite Zlt_Qlt. rewrite inject_Z_plus, inject_Z_mult. unfold Z.sub. rewrite inject_Z_plus, inject_Z_opp, !inject_Z_mult. change (inject_Z 2) with 2%Q. change (inject_Z 10000) with 10000%Q. change (inject_Z 1) with 1%Q.
      set (x := inject_Z k) in *. set (y := inject_Z b) in *. set (z := inject_Z a) in *. lra. }
    assert (U2 : 2 * (10000 * a - k * b) < b + 1).
    { rewrite Zlt_Qlt. rewrite inject_Z_plus, inject_Z_mult. unfold Z.sub. rewrite inject_Z_plus, inject_Z_opp, !inject_Z_mult. change (inject_Z 2) with 2%Q. change (inject_Z 10000) with 10000%Q. change (inject_Z 1) with 1%Q.
      set (x := inject_Z k) in *. set (y := inject_Z b) in *. set (z := inject_Z a) in *. lra. }
    assert (V1 : (2 * (inject_Z k * inject_Z b - 10000 * inject_Z a) <= inject_Z b)%Q).
    { change 2%Q with (inject_Z 2). change 10000%Q with (inject_Z 10000). unfold Qminus. rewrite <- !inject_Z_mult, <- inject_Z_opp, <- inject_Z_plus, <- inject_Z_mult, <- Zle_Qle. lia. }
    assert (V2 : (2 * (10000 * inject_Z a - inject_Z k * inject_Z b) <= inject_Z b)%Q).
    { change 2%Q with (inject_Z 2). change 10000%Q with (inject_Z 10000). unfold Qminus. rewrite <- !inject_Z_mult, <- inject_Z_opp, <- inject_Z_plus, <- inject_Z_mult, <- Zle_Qle. lia. }
    set (x := inject_Z k) in *. set (y := inject_Z b) in *. set (z := inject_Z a) in *. clear M1 M2 H.
    split; apply (Qmult_le_l _ _ y PB); lra.
Qed.

Lemma cell_ok diff used size used0 size0 : moderate used -> moderate size -> moderate used0 -> moderate size0 ->
  percent_cell diff (percentage used size) (percentage used0 size0)
    (plain_pct python_floats diff (percent used size) (fsub (percent used size) (percent used0 size0))).
Proof.
  intros A B C D. destruct (percent_near used size A B) as (v & V & E). destruct (number_shown _ v _ _ V E) as (q & R & H & Q). apply to_hundredths_wee in H.
  apply (nearest used size _ _ q B Q) in H; [|intros ->; reflexivity]. clear Q.
  unfold percent_cell, plain_pct. cbn [python_floats ft_num ft_diff]. destruct diff; cbn [negb]; [|now exists q].
  destruct (percent_diff_near used size used0 size0 A B C D) as (w & W & F). destruct (number_shown _ w _ _ W F) as (q' & R' & H' & X).
  set (d := fsub (percent used size) (percent used0 size0)) in *. destruct (hundredths_near d w W) as (N & _ & _).
  unfold rounded_diff, pad6.
  set (sign := match rounded_sign d with Gt => ["+"%char] | _ => [] end).
  assert (S : match rounded_sign d with Gt => "+"%char :: rounded_text d | _ => rounded_text d end = sign ++ rounded_text d) by (unfold sign; destruct (rounded_sign d); reflexivity).
  rewrite S. exists (rounded_text (percent used size)), (repeat " "%char (6 - length (sign ++ rounded_text d))), sign, (rounded_text d), q'.
  split; [reflexivity|]. split; [now exists q|]. split; [apply Forall_forall; intros c I; symmetry; now apply repeat_spec in I|]. split; [apply repeat_length|].
  split; [exact R'|]. split; [exact H'|]. unfold sign, rounded_sign.
  assert (HN : (0 <= inject_Z (hundredths d))%Q) by (change 0%Q with (inject_Z 0); now rewrite <- Zle_Qle).
  destruct (Z.eqb_spec (hundredths d) 0) as [Z0|Z0].
  - destruct (Qlt_le_dec 0 q') as [L|_]; [|reflexivity]. exfalso. rewrite Z0 in X. change (inject_Z 0) with 0%Q in X. destruct (negative d); rewrite X in L; lra.
  - assert (HP : (0 < inject_Z (hundredths d))%Q) by (apply inject_pos; lia).
    destruct (negative d); (destruct (Qlt_le_dec 0 q') as [L|L]; try reflexivity; exfalso; rewrite X in L; lra).
Qed.
