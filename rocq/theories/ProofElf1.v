(** * ProofElf1: reading numbers *)
From Coq Require Import Ascii String List ZArith Bool Lia.
From Verif Require Import Base ElfRead SpecElf.
Import ListNotations.
Open Scope list_scope.
Open Scope Z_scope.

(** ** Slices *)

Lemma blen_nonneg : forall l, 0 <= blen l.
Proof. intros; unfold blen; lia. Qed.
Lemma blen_app : forall a b, blen (a ++ b) = blen a + blen b.
Proof. intros; unfold blen; rewrite app_length; lia. Qed.
Lemma blen_cons : forall a b, blen (a :: b) = 1 + blen b.
Proof. intros; unfold blen; cbn [length]; lia. Qed.
Lemma blen_nil : blen [] = 0. Proof. reflexivity. Qed.
Lemma blen_rev : forall l, blen (rev l) = blen l.
Proof. intros; unfold blen; now rewrite rev_length. Qed.

Lemma to_nat_nonpos : forall n, n <= 0 -> Z.to_nat n = 0%nat.
Proof. intros; lia. Qed.
Lemma take_firstn : forall l n, take n l = firstn (Z.to_nat n) l.
Proof.
  induction l as [|b r IH]; intros n; cbn [take]; [now rewrite firstn_nil|].
  destruct (n <=? 0) eqn:E.
  - apply Z.leb_le in E. now rewrite to_nat_nonpos by lia.
  - apply Z.leb_gt in E. replace (Z.to_nat n) with (S (Z.to_nat (n - 1))) by lia.
    cbn [firstn]. now rewrite IH.
Qed.
Lemma drop_skipn : forall l n, drop n l = skipn (Z.to_nat n) l.
Proof.
  induction l as [|b r IH]; intros n; cbn [drop]; [now rewrite skipn_nil|].
  destruct (n <=? 0) eqn:E.
  - apply Z.leb_le in E. now rewrite to_nat_nonpos by lia.
  - apply Z.leb_gt in E. replace (Z.to_nat n) with (S (Z.to_nat (n - 1))) by lia.
    cbn [skipn]. now rewrite IH.
Qed.

Lemma drop_app : forall a b, drop (blen a) (a ++ b) = b.
Proof.
  intros. rewrite drop_skipn. unfold blen. rewrite Nat2Z.id.
  rewrite skipn_app, skipn_all, Nat.sub_diag. reflexivity.
Qed.
Lemma take_app : forall a b, take (blen a) (a ++ b) = a.
Proof.
  intros. rewrite take_firstn. unfold blen. rewrite Nat2Z.id.
  rewrite firstn_app, firstn_all, Nat.sub_diag, firstn_O. apply app_nil_r.
Qed.
Lemma take_app_le : forall n a b, n = blen a -> take n (a ++ b) = a.
Proof. intros; subst; apply take_app. Qed.
Lemma drop_0 : forall l n, n <= 0 -> drop n l = l.
Proof. intros. rewrite drop_skipn, to_nat_nonpos by lia. reflexivity. Qed.
Lemma drop_drop : forall l a b, 0 <= a -> 0 <= b -> drop b (drop a l) = drop (a + b) l.
Proof.
  intros. rewrite !drop_skipn, Z2Nat.inj_add by lia.
  generalize (Z.to_nat a) (Z.to_nat b). clear. intros n m; revert n m.
  induction l as [|x l IH]; intros n m; [now rewrite !skipn_nil|].
  destruct n; cbn [skipn Nat.add]; [reflexivity|]. apply IH.
Qed.
Lemma blen_drop : forall l n, 0 <= n -> blen (drop n l) = Z.max 0 (blen l - n).
Proof. intros. rewrite drop_skipn. unfold blen. rewrite skipn_length. lia. Qed.
Lemma blen_take : forall l n, 0 <= n -> blen (take n l) = Z.min n (blen l).
Proof. intros. rewrite take_firstn. unfold blen. rewrite firstn_length. lia. Qed.
Lemma take_drop : forall l n, take n l ++ drop n l = l.
Proof. intros. rewrite take_firstn, drop_skipn. apply firstn_skipn. Qed.

Lemma occurs_drop : forall data off l, occurs data off l -> exists post, drop off data = l ++ post.
Proof. intros data off l (pre & post & -> & ->). exists post. apply drop_app. Qed.
Lemma occurs_slice : forall data off l, occurs data off l -> slice data off (blen l) = l.
Proof. intros data off l H. unfold slice. destruct (occurs_drop _ _ _ H) as [p ->]. apply take_app. Qed.
Lemma occurs_off : forall data off l, occurs data off l -> 0 <= off /\ off + blen l <= blen data.
Proof.
  intros data off l (pre & post & -> & ->). rewrite !blen_app.
  pose proof (blen_nonneg pre). pose proof (blen_nonneg post). lia.
Qed.
Lemma occurs_app_l : forall data off a b, occurs data off (a ++ b) -> occurs data off a.
Proof. intros data off a b (pre & post & -> & ->). exists pre, (b ++ post). now rewrite <- !app_assoc. Qed.
Lemma occurs_app_r : forall data off a b, occurs data off (a ++ b) -> occurs data (off + blen a) b.
Proof.
  intros data off a b (pre & post & -> & ->). exists (pre ++ a), post.
  rewrite <- !app_assoc. split; [reflexivity|]. now rewrite blen_app.
Qed.
Lemma occurs_in : forall data d off off2 l, occurs data off d -> occurs d off2 l -> occurs data (off + off2) l.
Proof.
  intros data d off off2 l (p & q & -> & ->) (p' & q' & -> & ->).
  exists (p ++ p'), (q' ++ q). rewrite blen_app, <- !app_assoc. auto.
Qed.
Lemma occurs_here : forall pre l post, occurs (pre ++ l ++ post) (blen pre) l.
Proof. intros; exists pre, post; auto. Qed.
Lemma occurs_split : forall data off l, 0 <= off -> off <= blen data ->
  slice data off (blen l) = l -> occurs data off l.
Proof.
  intros data off l H L E. exists (take off data), (drop (blen l) (drop off data)). split.
  - pose proof (take_drop data off) as T. pose proof (take_drop (drop off data) (blen l)) as T2.
    unfold slice in E. rewrite E in T2. rewrite T2. symmetry; exact T.
  - rewrite blen_take by lia. lia.
Qed.

Lemma read_occurs : forall file off l, occurs file off l -> read file off (blen l) = Ok l.
Proof. intros. unfold read. rewrite (occurs_slice _ _ _ H), Z.eqb_refl. reflexivity. Qed.

(** ** Fixed size integers *)

Lemma length_le_enc : forall n v, length (le_enc n v) = n.
Proof. induction n; intros; cbn [le_enc length]; auto. Qed.
Lemma length_int_enc : forall big n v, length (int_enc big n v) = n.
Proof. intros. unfold int_enc. destruct big; rewrite ?rev_length; apply length_le_enc. Qed.
Lemma blen_int_enc : forall big n v, blen (int_enc big n v) = Z.of_nat n.
Proof. intros. unfold blen. now rewrite length_int_enc. Qed.

Lemma le_value_enc : forall n v, le_value (le_enc n v) = v mod 256 ^ Z.of_nat n.
Proof.
  induction n as [|n IH]; intros v; cbn [le_enc le_value].
  - cbn. now rewrite Z.mod_1_r.
  - rewrite IH. replace (Z.of_nat (S n)) with (1 + Z.of_nat n) by lia.
    rewrite Z.pow_add_r by lia. rewrite Z.pow_1_r.
    rewrite Z.rem_mul_r; [lia | lia |]. apply Z.pow_pos_nonneg; lia.
Qed.
Lemma from_bytes_enc : forall big n v, from_bytes big (int_enc big n v) = v mod 256 ^ Z.of_nat n.
Proof. intros. unfold from_bytes, int_enc. destruct big; rewrite ?rev_involutive; apply le_value_enc. Qed.
Lemma from_bytes_fits : forall big n v, fits (Z.of_nat n) v -> from_bytes big (int_enc big n v) = v.
Proof. intros big n v H. rewrite from_bytes_enc. apply Z.mod_small. exact H. Qed.

Lemma get_uint_enc : forall big n data off v, fits (Z.of_nat n) v -> occurs data off (int_enc big n v) ->
  get_uint big (Z.of_nat n) data off = (v, off + Z.of_nat n).
Proof.
  intros big n data off v F H. unfold get_uint, get_int.
  rewrite <- (blen_int_enc big n v) at 1. rewrite (occurs_slice _ _ _ H).
  now rewrite from_bytes_fits.
Qed.

Lemma get_sint_enc : forall big n data off v, (0 < n)%nat -> fits_signed (Z.of_nat n) v ->
  occurs data off (int_enc big n (v mod 256 ^ Z.of_nat n)) ->
  get_sint big (Z.of_nat n) data off = (v, off + Z.of_nat n).
Proof.
  intros big n data off v N F H. unfold get_sint, get_int.
  rewrite <- (blen_int_enc big n (v mod 256 ^ Z.of_nat n)) at 1. rewrite (occurs_slice _ _ _ H).
  unfold from_bytes_signed. rewrite from_bytes_enc, blen_int_enc.
  rewrite Z.mod_mod by (apply Z.pow_nonzero; lia).
  f_equal. unfold fits_signed in F. set (m := 256 ^ Z.of_nat n) in *.
  assert (0 < m) by (apply Z.pow_pos_nonneg; lia).
  destruct (Z_lt_le_dec v 0) as [L|L].
  - assert (E : v mod m = v + m) by (symmetry; apply Z.mod_unique_pos with (q := -1); lia).
    rewrite E. destruct (2 * (v + m) <? m) eqn:B; [apply Z.ltb_lt in B; lia|]. lia.
  - rewrite Z.mod_small by lia. destruct (2 * v <? m) eqn:B; [reflexivity|]. apply Z.ltb_ge in B; lia.
Qed.

(** ** LEB128 *)

Lemma lor_add : forall a x k, 0 <= k -> 0 <= a < 2 ^ k -> Z.lor a (Z.shiftl x k) = a + x * 2 ^ k.
Proof.
  intros a x k K A. rewrite <- Z.shiftl_mul_pow2 by exact K.
  rewrite Z.add_nocarry_lxor.
  - symmetry; apply Z.lxor_lor.
    apply Z.bits_inj'; intros n N. rewrite Z.land_spec, Z.bits_0, Z.shiftl_spec by exact N.
    destruct (Z_lt_le_dec n k).
    + rewrite (Z.testbit_neg_r _ (n - k)) by lia. apply andb_false_r.
    + replace a with (a mod 2 ^ k) by (apply Z.mod_small; exact A).
      rewrite Z.mod_pow2_bits_high by lia. reflexivity.
  - apply Z.bits_inj'; intros n N. rewrite Z.land_spec, Z.bits_0, Z.shiftl_spec by exact N.
    destruct (Z_lt_le_dec n k).
    + rewrite (Z.testbit_neg_r _ (n - k)) by lia. apply andb_false_r.
    + replace a with (a mod 2 ^ k) by (apply Z.mod_small; exact A).
      rewrite Z.mod_pow2_bits_high by lia. reflexivity.
Qed.

Lemma low7 : forall b, Z.land b 127 = b mod 128.
Proof. intros. change 127 with (Z.ones 7). rewrite Z.land_ones by lia. reflexivity. Qed.
Lemma top_bit_clear : forall b, 0 <= b < 128 -> Z.land b 128 = 0.
Proof.
  intros b B. apply Z.bits_inj'; intros n N. rewrite Z.land_spec, Z.bits_0.
  change 128 with (2 ^ 7). rewrite Z.pow2_bits_eqb by lia.
  destruct (7 =? n) eqn:E; [|apply andb_false_r]. apply Z.eqb_eq in E; subst n.
  replace b with (b mod 2 ^ 7) by (apply Z.mod_small; change (2 ^ 7) with 128; lia).
  rewrite Z.mod_pow2_bits_high by lia. reflexivity.
Qed.
Lemma top_bit_set : forall b, 0 <= b < 128 -> Z.land (b + 128) 128 <> 0.
Proof.
  intros b B E.
  assert (T : Z.testbit (b + 128) 7 = true).
  { replace (b + 128) with (Z.lor b (Z.shiftl 1 7)) by (rewrite lor_add by (change (2 ^ 7) with 128; lia); reflexivity).
    rewrite Z.lor_spec. apply orb_true_intro; right. reflexivity. }
  assert (T2 : Z.testbit (Z.land (b + 128) 128) 7 = true) by (rewrite Z.land_spec, T; reflexivity).
  rewrite E in T2. discriminate.
Qed.

Lemma uleb_bound : forall n l, uleb_enc n l -> 0 <= n < 2 ^ (7 * blen l).
Proof.
  intros n l H. induction H as [b B | b n l B H IH].
  - rewrite blen_cons, blen_nil. change (2 ^ (7 * (1 + 0))) with 128. lia.
  - rewrite blen_cons. replace (7 * (1 + blen l)) with (7 + 7 * blen l) by lia.
    rewrite Z.pow_add_r by (pose proof (blen_nonneg l); lia). change (2 ^ 7) with 128. lia.
Qed.

Lemma uleb_loop_enc : forall n l, uleb_enc n l -> forall post idx acc, 0 <= idx -> 0 <= acc < 2 ^ (7 * idx) ->
  uleb_loop (l ++ post) idx acc = Ok (acc + n * 2 ^ (7 * idx), idx + blen l).
Proof.
  intros n l H. induction H as [b B | b n l B H IH]; intros post idx acc I A; cbn [app uleb_loop].
  - rewrite low7, Z.mod_small by lia. rewrite (Z.mul_comm idx 7).
    rewrite lor_add by lia. rewrite top_bit_clear by lia. cbn [Z.eqb].
    rewrite blen_cons, blen_nil. repeat f_equal; lia.
  - rewrite low7. replace (b + 128) with (b + 1 * 128) by lia. rewrite Z.mod_add by lia.
    rewrite Z.mod_small by lia. rewrite Z.mul_1_l. rewrite (Z.mul_comm idx 7).
    rewrite lor_add by lia.
    destruct (Z.land (b + 128) 128 =? 0) eqn:E; [apply Z.eqb_eq in E; exfalso; revert E; apply top_bit_set; lia|].
    assert (P : 2 ^ (7 * (idx + 1)) = 128 * 2 ^ (7 * idx)).
    { replace (7 * (idx + 1)) with (7 + 7 * idx) by lia. rewrite Z.pow_add_r by lia. reflexivity. }
    rewrite IH; [|lia|rewrite P; nia].
    rewrite P, blen_cons. f_equal. f_equal; [ring|lia].
Qed.

Lemma get_uleb128_enc : forall n l data off, uleb_enc n l -> occurs data off l ->
  get_uleb128 data off = Ok (n, off + blen l).
Proof.
  intros n l data off H O. unfold get_uleb128. destruct (occurs_drop _ _ _ O) as [p ->].
  rewrite (uleb_loop_enc _ _ H) by (cbn; lia). cbn [bind].
  rewrite Z.mul_0_r, Z.pow_0_r. repeat f_equal; lia.
Qed.

Lemma uleb_exists_fuel : forall f n, (Z.to_nat n < f)%nat -> 0 <= n -> exists l, uleb_enc n l.
Proof.
  induction f as [|f IH]; intros n F N; [lia|].
  destruct (Z_lt_le_dec n 128) as [Hs|Hs].
  - exists [n]. constructor; lia.
  - destruct (IH (n / 128)) as [l L].
    + assert (n / 128 < n) by (apply Z.div_lt; lia). assert (0 <= n / 128) by (apply Z.div_pos; lia). lia.
    + apply Z.div_pos; lia.
    + exists ((n mod 128 + 128) :: l). rewrite (Z.div_mod n 128) at 1 by lia.
      rewrite Z.add_comm. constructor; [apply Z.mod_pos_bound; lia | exact L].
Qed.
Lemma uleb_exists : forall n, 0 <= n -> exists l, uleb_enc n l.
Proof. intros n. apply (uleb_exists_fuel (S (Z.to_nat n))). lia. Qed.

(** the number read back is the only one *)
Lemma uleb_enc_fun : forall l n m, uleb_enc n l -> uleb_enc m l -> n = m.
Proof.
  intros l n m H G.
  pose proof (get_uleb128_enc n l l 0 H) as A. pose proof (get_uleb128_enc m l l 0 G) as B.
  assert (O : occurs l 0 l) by (exists [], []; rewrite app_nil_r; auto).
  specialize (A O). specialize (B O). congruence.
Qed.

(** signed: the unsigned value is the number modulo a power of two *)
Lemma sleb_nonempty : forall n l, sleb_enc n l -> 1 <= blen l.
Proof. intros n l H; destruct H; rewrite blen_cons; [rewrite blen_nil; lia | pose proof (blen_nonneg l); lia]. Qed.
Lemma sleb_range : forall n l, sleb_enc n l -> - 2 ^ (7 * blen l - 1) <= n < 2 ^ (7 * blen l - 1).
Proof.
  intros n l H. induction H as [b B | b n l B H R].
  - rewrite blen_cons, blen_nil. change (2 ^ (7 * (1 + 0) - 1)) with 64.
    destruct (b <? 64) eqn:E; [apply Z.ltb_lt in E | apply Z.ltb_ge in E]; lia.
  - pose proof (sleb_nonempty _ _ H). rewrite blen_cons.
    replace (7 * (1 + blen l) - 1) with (7 + (7 * blen l - 1)) by lia.
    rewrite Z.pow_add_r by lia. change (2 ^ 7) with 128. lia.
Qed.
Lemma sleb_uleb : forall n l, sleb_enc n l -> uleb_enc (n mod 2 ^ (7 * blen l)) l /\
  - 2 ^ (7 * blen l) <= 2 * n < 2 ^ (7 * blen l).
Proof.
  intros n l H. split.
  2:{ pose proof (sleb_range _ _ H) as R. pose proof (sleb_nonempty _ _ H).
      replace (7 * blen l) with (1 + (7 * blen l - 1)) by lia. rewrite Z.pow_add_r by lia.
      change (2 ^ 1) with 2. lia. }
  induction H as [b B | b n l B H IH].
  - rewrite blen_cons, blen_nil. change (2 ^ (7 * (1 + 0))) with 128.
    destruct (b <? 64) eqn:E; [apply Z.ltb_lt in E | apply Z.ltb_ge in E].
    + rewrite Z.mod_small by lia. constructor; lia.
    + replace (b - 128) with (b + (-1) * 128) by lia. rewrite Z.mod_add by lia. rewrite Z.mod_small by lia.
      constructor; lia.
  - rewrite blen_cons. replace (7 * (1 + blen l)) with (7 + 7 * blen l) by lia.
    rewrite Z.pow_add_r by (pose proof (blen_nonneg l); lia). change (2 ^ 7) with 128.
    set (m := 2 ^ (7 * blen l)) in *.
    assert (0 < m) by (apply Z.pow_pos_nonneg; pose proof (blen_nonneg l); lia).
    rewrite Z.rem_mul_r by lia.
    replace ((b + 128 * n) mod 128) with b.
    2:{ rewrite (Z.mul_comm 128 n), Z.mod_add by lia. symmetry; apply Z.mod_small; lia. }
    replace ((b + 128 * n) / 128) with n.
    2:{ rewrite (Z.mul_comm 128 n), Z.div_add by lia. rewrite Z.div_small by lia. lia. }
    constructor; [lia | exact IH].
Qed.

(** the byte before the number, with Python's negative index at the start of the data *)
Definition byte_before (data : bytes) (off : Z) (b : Z) : Prop :=
  if off =? 0 then exists pre, data = pre ++ [b] else occurs data (off - 1) [b].

Lemma py_index_occurs : forall data off b, occurs data off [b] -> py_index data off = Ok b.
Proof.
  intros data off b H. unfold py_index. pose proof (occurs_off _ _ _ H) as [P _].
  destruct (off <? 0) eqn:E; [apply Z.ltb_lt in E; lia|]. rewrite E.
  destruct (occurs_drop _ _ _ H) as [p ->]. reflexivity.
Qed.
Lemma py_index_before : forall data off b, 0 <= off -> byte_before data off b -> py_index data (off - 1) = Ok b.
Proof.
  intros data off b O H. unfold byte_before in H. destruct (off =? 0) eqn:E.
  - apply Z.eqb_eq in E; subst off. destruct H as [pre ->]. unfold py_index. cbn [Z.sub Z.ltb].
    change (0 - 1 <? 0) with true. cbn beta iota.
    rewrite blen_app, blen_cons, blen_nil. pose proof (blen_nonneg pre).
    replace (blen pre + (1 + 0) + (0 - 1)) with (blen pre) by lia.
    destruct (blen pre <? 0) eqn:L; [apply Z.ltb_lt in L; lia|].
    rewrite drop_app. reflexivity.
  - apply py_index_occurs; exact H.
Qed.

Lemma sign_extend : forall u m, 0 <= m -> 0 <= u < 2 ^ m -> Z.lor u (- Z.shiftl 1 m) = u - 2 ^ m.
Proof.
  intros u m M U. replace (- Z.shiftl 1 m) with (Z.shiftl (-1) m).
  - rewrite lor_add by assumption. lia.
  - rewrite !Z.shiftl_mul_pow2 by exact M. lia.
Qed.

Lemma get_sleb128_enc : forall n l data off b, sleb_enc n l -> occurs data off l -> byte_before data off b ->
  get_sleb128 data off =
  Ok ((if Z.land b 64 =? 0 then n mod 2 ^ (7 * blen l) else n mod 2 ^ (7 * blen l) - 2 ^ (7 * blen l)),
      off + blen l).
Proof.
  intros n l data off b H O B. destruct (sleb_uleb _ _ H) as [U R].
  unfold get_sleb128. rewrite (get_uleb128_enc _ _ _ _ U O). cbn [bind].
  rewrite (py_index_before _ _ _ (proj1 (occurs_off _ _ _ O)) B). cbn [bind].
  destruct (Z.land b 64 =? 0); [reflexivity|].
  replace ((off + blen l - off) * 7) with (7 * blen l) by lia.
  rewrite sign_extend; [reflexivity | pose proof (blen_nonneg l); lia | apply (uleb_bound _ _ U)].
Qed.

(** exactly when the number is right: the sign bit of the byte before it happens to
    be the sign of the number *)
Lemma get_sleb128_right : forall n l data off b, sleb_enc n l -> occurs data off l -> byte_before data off b ->
  (get_sleb128 data off = Ok (n, off + blen l) <-> (Z.land b 64 <> 0 <-> n < 0)).
Proof.
  intros n l data off b H O B. rewrite (get_sleb128_enc _ _ _ _ _ H O B).
  destruct (sleb_uleb _ _ H) as [_ R]. set (m := 2 ^ (7 * blen l)) in *.
  assert (0 < m) by (apply Z.pow_pos_nonneg; pose proof (blen_nonneg l); lia).
  destruct (Z_lt_le_dec n 0) as [L|L].
  - assert (E : n mod m = n + m) by (symmetry; apply Z.mod_unique_pos with (q := -1); lia).
    rewrite E. destruct (Z.land b 64 =? 0) eqn:Q.
    + apply Z.eqb_eq in Q. rewrite Q. split; [intros X; inversion X; lia | intros [_ X]; now specialize (X L)].
    + apply Z.eqb_neq in Q. split; [intros _; tauto | intros _; repeat f_equal; lia].
  - rewrite Z.mod_small by lia. destruct (Z.land b 64 =? 0) eqn:Q.
    + apply Z.eqb_eq in Q. rewrite Q. split; [intros _; split; [congruence | lia] | reflexivity].
    + apply Z.eqb_neq in Q. split; [intros X; inversion X; lia | intros [X _]; specialize (X Q); lia].
Qed.

Lemma sleb_exists_fuel : forall f n, (Z.to_nat (Z.abs n) < f)%nat -> exists l, sleb_enc n l.
Proof.
  induction f as [|f IH]; intros n F; [lia|].
  destruct (Z_lt_le_dec n 64) as [U|U], (Z_lt_le_dec n (-64)) as [L|L].
  - destruct (IH (n / 128)) as [l HL].
    + assert (-n / 128 <= - (n/128)) by (pose proof (Z.div_mod n 128); pose proof (Z.mod_pos_bound n 128); pose proof (Z.div_mod (-n) 128); pose proof (Z.mod_pos_bound (-n) 128); lia).
      assert (n / 128 < 0) by (apply Z.div_lt_upper_bound; lia).
      assert (n <= 128 * (n/128) + 127) by (pose proof (Z.div_mod n 128); pose proof (Z.mod_pos_bound n 128); lia).
      assert (128 * (n/128) <= n) by (apply Z.mul_div_le; lia).
      lia.
    + exists ((n mod 128 + 128) :: l). rewrite (Z.div_mod n 128) at 1 by lia.
      rewrite Z.add_comm. constructor; [apply Z.mod_pos_bound; lia | exact HL].
  - destruct (Z_lt_le_dec n 0).
    + exists [n + 128]. replace n with (if n + 128 <? 64 then n + 128 else n + 128 - 128) at 1.
      * constructor; lia.
      * destruct (n + 128 <? 64) eqn:E; [apply Z.ltb_lt in E; lia | lia].
    + exists [n]. replace n with (if n <? 64 then n else n - 128) at 1.
      * constructor; lia.
      * destruct (n <? 64) eqn:E; [lia | apply Z.ltb_ge in E; lia].
  - lia.
  - destruct (IH (n / 128)) as [l HL].
    + assert (0 <= n / 128) by (apply Z.div_pos; lia).
      assert (128 * (n/128) <= n) by (apply Z.mul_div_le; lia). lia.
    + exists ((n mod 128 + 128) :: l). rewrite (Z.div_mod n 128) at 1 by lia.
      rewrite Z.add_comm. constructor; [apply Z.mod_pos_bound; lia | exact HL].
Qed.
Lemma sleb_exists : forall n, exists l, sleb_enc n l.
Proof. intros n. apply (sleb_exists_fuel (S (Z.to_nat (Z.abs n)))). lia. Qed.
