(** * ProofDwarf2: reading debugging information ends for every content *)
From Coq Require Import Ascii String List ZArith Bool Lia.
From Verif Require Import Base ElfRead SpecElf ProofElf1 ProofElf2 Dwarf SpecDwarf ProofDwarf1.
Import ListNotations.
Open Scope list_scope.
Open Scope Z_scope.

Lemma uleb_loop_ok : forall l idx acc v n, 0 <= idx -> 0 <= acc -> uleb_loop l idx acc = Ok (v, n) ->
  idx < n <= idx + blen l /\ 0 <= v.
Proof.
  induction l as [|b l IH]; intros idx acc v n I A H; cbn [uleb_loop] in H; [discriminate|].
  set (acc' := Z.lor acc (Z.shiftl (Z.land b 127) (idx * 7))) in *.
  assert (0 <= acc').
  { apply Z.lor_nonneg. split; [exact A|]. apply Z.shiftl_nonneg. apply Z.land_nonneg. right; lia. }
  rewrite blen_cons. pose proof (blen_nonneg l). destruct (Z.land b 128 =? 0).
  - inversion H; subst. split; [lia | assumption].
  - apply IH in H; [|lia|assumption]. lia.
Qed.
Lemma uleb_loop_err : forall l idx acc e, uleb_loop l idx acc = Err e -> e = IndexError.
Proof.
  induction l as [|b l IH]; intros idx acc e H; cbn [uleb_loop] in H; [congruence|].
  destruct (Z.land b 128 =? 0); [discriminate | exact (IH _ _ _ H)].
Qed.
Lemma get_uleb128_ok : forall data off v o, 0 <= off -> get_uleb128 data off = Ok (v, o) ->
  off < o <= blen data /\ 0 <= v.
Proof.
  intros data off v o O H. unfold get_uleb128 in H.
  destruct (uleb_loop (drop off data) 0 0) as [[v' n]|] eqn:E; cbn [bind] in H; [|discriminate].
  inversion H; subst. apply uleb_loop_ok in E; [|lia|lia]. rewrite blen_drop in E by exact O. lia.
Qed.
Lemma get_uleb128_err : forall data off e, get_uleb128 data off = Err e -> e = IndexError.
Proof.
  intros data off e H. unfold get_uleb128 in H.
  destruct (uleb_loop (drop off data) 0 0) as [[v' n]|] eqn:E; cbn [bind] in H; [discriminate|].
  inversion H; subst. exact (uleb_loop_err _ _ _ _ E).
Qed.

Lemma le_value_nonneg : forall l, is_bytes l -> 0 <= le_value l < 256 ^ blen l.
Proof.
  intros l H. induction H as [|b l B H IH]; cbn [le_value]; [cbn; lia|].
  rewrite blen_cons, Z.pow_add_r by (try pose proof (blen_nonneg l); lia). lia.
Qed.
Lemma is_bytes_rev : forall l, is_bytes l -> is_bytes (rev l).
Proof. intros l H. apply Forall_forall. intros x X. apply (proj1 (Forall_forall _ _) H). now apply in_rev. Qed.
Lemma is_bytes_take : forall l n, is_bytes l -> is_bytes (take n l).
Proof.
  intros l n H. rewrite take_firstn. apply Forall_forall. intros x X.
  apply (proj1 (Forall_forall _ _) H). rewrite <- (firstn_skipn (Z.to_nat n)). apply in_or_app; now left.
Qed.
Lemma is_bytes_drop : forall l n, is_bytes l -> is_bytes (drop n l).
Proof.
  intros l n H. rewrite drop_skipn. apply Forall_forall. intros x X.
  apply (proj1 (Forall_forall _ _) H). rewrite <- (firstn_skipn (Z.to_nat n)). apply in_or_app; now right.
Qed.
Lemma is_bytes_slice : forall l a n, is_bytes l -> is_bytes (slice l a n).
Proof. intros. unfold slice. now apply is_bytes_take, is_bytes_drop. Qed.
Lemma get_uint_ok : forall big n data off, is_bytes data ->
  0 <= fst (get_uint big n data off) /\ snd (get_uint big n data off) = off + n.
Proof.
  intros big n data off H. unfold get_uint, get_int; cbn [fst snd]. split; [|reflexivity].
  unfold from_bytes. destruct big; [apply le_value_nonneg, is_bytes_rev, is_bytes_slice, H | apply le_value_nonneg, is_bytes_slice, H].
Qed.

Definition no_fuel {A} (r : res A) : Prop := r <> Err OutOfFuel.

Lemma py_index_err : forall data i e, py_index data i = Err e -> e = IndexError.
Proof.
  intros data i e H. unfold py_index in H.
  set (j := if i <? 0 then blen data + i else i) in H.
  destruct (j <? 0); [congruence|]. destruct (drop j data); congruence.
Qed.

Lemma get_sleb128_ok : forall data off v o, 0 <= off -> get_sleb128 data off = Ok (v, o) -> off < o.
Proof.
  intros data off v o O H. unfold get_sleb128 in H.
  destruct (get_uleb128 data off) as [[u o']|] eqn:E; cbn [bind] in H; [|discriminate].
  apply get_uleb128_ok in E; [|exact O].
  destruct (py_index data (off - 1)) as [m|]; cbn [bind] in H; [|discriminate].
  destruct (Z.land m 64 =? 0); inversion H; subst; lia.
Qed.
Lemma get_sleb128_err : forall data off e, get_sleb128 data off = Err e -> e = IndexError.
Proof.
  intros data off e H. unfold get_sleb128 in H.
  destruct (get_uleb128 data off) as [[u o']|] eqn:E; cbn [bind] in H.
  - destruct (py_index data (off - 1)) as [m|] eqn:P; cbn [bind] in H.
    + destruct (Z.land m 64 =? 0); discriminate.
    + inversion H; subst. exact (py_index_err _ _ _ P).
  - inversion H; subst. exact (get_uleb128_err _ _ _ E).
Qed.
Lemma get_string_ok' : forall data off v o, 0 <= off -> get_string data off = Ok (v, o) -> off < o.
Proof.
  intros data off v o O H. unfold get_string in H. destruct (until_zero (drop off data)) in H; [|discriminate].
  inversion H; subst. pose proof (blen_nonneg v). lia.
Qed.

Lemma form_readers_sizes : forall k r, dget k form_readers = Some r ->
  match r with RBlock n => 0 <= n | RInt n => 0 <= n | RRef n => 0 <= n | _ => True end.
Proof.
  intros k r H. apply (dget_In (K:=Z)) in H.
  cbn in H. decompose [or] H; clear H;
    match goal with E : (_, _) = (_, _) |- _ => inversion E; subst; try exact I; lia | F : False |- _ => contradiction end.
Qed.

Lemma get_attr_value_ok : forall big c a data off v o, is_bytes data -> 0 <= cu_address_size c -> 0 <= off ->
  get_attr_value big c a data off = Ok (v, o) -> off <= o.
Proof.
  intros big c a data off v o B A O H. unfold get_attr_value in H.
  destruct (dget (aa_form a) form_readers) as [r|] eqn:R; [|discriminate].
  apply form_readers_sizes in R.
  destruct r.
  - inversion H; subst. try rewrite (proj2 (get_uint_ok big _ data off B)). lia.
  - inversion H; subst. try rewrite (proj2 (get_uint_ok big _ data off B)). unfold off_size; destruct (cu_is64 c); lia.
  - pose proof (get_uint_ok big n data off B) as G. destruct (get_uint big n data off) as [size o1]. cbn [fst snd] in G.
    unfold get_bytes in H. inversion H; subst. lia.
  - destruct (get_uleb128 data off) as [[size o1]|] eqn:E; cbn [bind] in H; [|discriminate].
    apply get_uleb128_ok in E; [|exact O]. unfold get_bytes in H. inversion H; subst. lia.
  - inversion H; subst. try rewrite (proj2 (get_uint_ok big _ data off B)). lia.
  - destruct (get_uleb128 data off) as [[size o1]|] eqn:E; cbn [bind] in H; [|discriminate].
    apply get_uleb128_ok in E; [|exact O]. inversion H; subst. cbn [snd]. lia.
  - destruct (get_sleb128 data off) as [[size o1]|] eqn:E; cbn [bind] in H; [|discriminate].
    apply get_sleb128_ok in E; [|exact O]. inversion H; subst. cbn [snd]. lia.
  - inversion H; subst. lia.
  - inversion H; subst. lia.
  - destruct (get_uleb128 data off) as [[size o1]|] eqn:E; cbn [bind] in H; [|discriminate].
    apply get_uleb128_ok in E; [|exact O]. inversion H; subst. lia.
  - pose proof (get_uint_ok big n data off B) as G. destruct (get_uint big n data off) as [size o1]. cbn [fst snd] in G.
    inversion H; subst. lia.
  - destruct (get_uleb128 data off) as [[size o1]|] eqn:E; cbn [bind] in H; [|discriminate].
    apply get_uleb128_ok in E; [|exact O]. inversion H; subst. lia.
  - destruct (get_string data off) as [[size o1]|] eqn:E; cbn [bind] in H; [|discriminate].
    apply get_string_ok' in E; [|exact O]. inversion H; subst. lia.
Qed.

Lemma get_attr_value_err : forall big c a data off, no_fuel (get_attr_value big c a data off).
Proof.
  intros big c a data off H. unfold get_attr_value in H.
  destruct (dget (aa_form a) form_readers) as [r|]; [|discriminate].
  destruct r; try discriminate;
    try (destruct (get_uleb128 data off) as [[size o1]|x] eqn:E; cbn [bind] in H;
         [unfold get_bytes in H; discriminate | inversion H; subst; apply get_uleb128_err in E; discriminate]).
  all: try (destruct (get_sleb128 data off) as [[size o1]|x] eqn:E; cbn [bind] in H; [discriminate|];
            inversion H; subst; apply get_sleb128_err in E; discriminate).
  all: unfold get_string in H; destruct (until_zero (drop off data)) in H; cbn [bind] in H; discriminate.
Qed.

Lemma read_attrs_ok : forall big c data l off acc r o, is_bytes data -> 0 <= cu_address_size c -> 0 <= off ->
  read_attrs big c data l off acc = Ok (r, o) -> off <= o.
Proof.
  intros big c data l. induction l as [|a l IH]; intros off acc r o B A O H; cbn [read_attrs] in H.
  - inversion H; lia.
  - destruct (aa_attr a =? 0); [inversion H; lia|].
    destruct (get_attr_value big c a data off) as [[v o1]|] eqn:E; cbn [bind] in H; [|discriminate].
    apply get_attr_value_ok in E; try assumption. apply IH in H; try assumption; lia.
Qed.
Lemma read_attrs_err : forall big c data l off acc, no_fuel (read_attrs big c data l off acc).
Proof.
  intros big c data l. induction l as [|a l IH]; intros off acc H; cbn [read_attrs] in H; [discriminate|].
  destruct (aa_attr a =? 0); [discriminate|].
  destruct (get_attr_value big c a data off) as [[v o1]|] eqn:E; cbn [bind] in H.
  - exact (IH _ _ H).
  - inversion H; subst. exact (get_attr_value_err _ _ _ _ _ E).
Qed.

(** offsets grow *)
Lemma get_DIE_grows : forall fuel big c tbl data, is_bytes data -> 0 <= cu_address_size c ->
  (forall off parent level l code o, 0 <= off -> get_DIE fuel big c tbl data off parent level = Ok (l, code, o) ->
     off < o /\ off < blen data) /\
  (forall off parent level l o, 0 <= off -> get_children fuel big c tbl data off parent level = Ok (l, o) ->
     off < o /\ off < blen data).
Proof.
  intros fuel big c tbl data B A. induction fuel as [|fuel [IHD IHC]]; split; intros *; intros O H; try discriminate.
  - cbn [get_DIE] in H.
    destruct (get_uleb128 data off) as [[cd o1]|] eqn:E; cbn [bind] in H; [|discriminate].
    apply get_uleb128_ok in E; [|exact O].
    destruct (cd =? 0); [inversion H; subst; lia|].
    destruct (nth_error tbl (Z.to_nat (cd - 1))) as [a|]; [|discriminate].
    destruct (negb (cd =? ab_code a)); [discriminate|].
    destruct (read_attrs big c data (ab_attrs a) o1 []) as [[attrs o2]|] eqn:R; cbn [bind] in H; [|discriminate].
    apply read_attrs_ok in R; try assumption; [|lia].
    destruct (ab_children a =? 0); [inversion H; subst; lia|].
    destruct (get_children fuel big c tbl data o2 off (level + 1)) as [[l' o3]|] eqn:G; cbn [bind] in H; [|discriminate].
    apply IHC in G; [|lia]. inversion H; subst; lia.
  - cbn [get_children] in H.
    destruct (get_DIE fuel big c tbl data off (Some parent) level) as [[[l' cd] o1]|] eqn:G; cbn [bind] in H; [|discriminate].
    apply IHD in G; [|exact O].
    destruct (cd =? 0); [inversion H; subst; lia|].
    destruct (get_children fuel big c tbl data o1 parent level) as [[l2 o2]|] eqn:G2; cbn [bind] in H; [|discriminate].
    apply IHC in G2; [|lia]. inversion H; subst; lia.
Qed.

Lemma get_DIE_ends : forall fuel big c tbl data, is_bytes data -> 0 <= cu_address_size c ->
  (forall off parent level, 0 <= off -> 2 * Z.max 0 (blen data - off) + 1 <= Z.of_nat fuel ->
     no_fuel (get_DIE fuel big c tbl data off parent level)) /\
  (forall off parent level, 0 <= off -> 2 * Z.max 0 (blen data - off) + 2 <= Z.of_nat fuel ->
     no_fuel (get_children fuel big c tbl data off parent level)).
Proof.
  intros fuel big c tbl data B A. induction fuel as [|fuel [IHD IHC]]; split; intros off parent level O F H; try lia.
  - cbn [get_DIE] in H.
    destruct (get_uleb128 data off) as [[cd o1]|] eqn:E; cbn [bind] in H;
      [|inversion H; subst; apply get_uleb128_err in E; discriminate].
    apply get_uleb128_ok in E; [|exact O].
    destruct (cd =? 0); [discriminate|].
    destruct (nth_error tbl (Z.to_nat (cd - 1))) as [a|]; [|discriminate].
    destruct (negb (cd =? ab_code a)); [discriminate|].
    destruct (read_attrs big c data (ab_attrs a) o1 []) as [[attrs o2]|] eqn:R; cbn [bind] in H;
      [|inversion H; subst; exact (read_attrs_err _ _ _ _ _ _ R)].
    apply read_attrs_ok in R; try assumption; [|lia].
    destruct (ab_children a =? 0); [discriminate|].
    destruct (get_children fuel big c tbl data o2 off (level + 1)) as [[l' o3]|] eqn:G; cbn [bind] in H; [discriminate|].
    inversion H; subst. revert G. apply IHC; lia.
  - cbn [get_children] in H.
    destruct (get_DIE fuel big c tbl data off (Some parent) level) as [[[l' cd] o1]|] eqn:G; cbn [bind] in H;
      [|inversion H; subst; revert G; apply IHD; lia].
    apply (proj1 (get_DIE_grows fuel big c tbl data B A)) in G; [|exact O].
    destruct (cd =? 0); [discriminate|].
    destruct (get_children fuel big c tbl data o1 parent level) as [[l2 o2]|] eqn:G2; cbn [bind] in H; [discriminate|].
    inversion H; subst. revert G2. apply IHC; lia.
Qed.

(** abbreviations *)
Lemma read_abattr_ok : forall data off a n, 0 <= off -> read_abattr data off = Ok (a, n) ->
  0 < n /\ off + n <= blen data.
Proof.
  intros data off a n O H. unfold read_abattr in H.
  destruct (get_uleb128 data off) as [[attr o1]|] eqn:E; cbn [bind] in H; [|discriminate].
  apply get_uleb128_ok in E; [|exact O].
  destruct (get_uleb128 data o1) as [[form o2]|] eqn:E2; cbn [bind] in H; [|discriminate].
  apply get_uleb128_ok in E2; [|lia].
  destruct (form =? DW_FORM_implicit_const).
  - destruct (get_uleb128 data o2) as [[v o3]|] eqn:E3; cbn [bind] in H; [|discriminate].
    apply get_uleb128_ok in E3; [|lia]. inversion H; subst; lia.
  - inversion H; subst; lia.
Qed.
Lemma read_abattr_err : forall data off, no_fuel (read_abattr data off).
Proof.
  intros data off H. unfold read_abattr in H.
  destruct (get_uleb128 data off) as [[attr o1]|] eqn:E; cbn [bind] in H;
    [|inversion H; subst; apply get_uleb128_err in E; discriminate].
  destruct (get_uleb128 data o1) as [[form o2]|] eqn:E2; cbn [bind] in H;
    [|inversion H; subst; apply get_uleb128_err in E2; discriminate].
  destruct (form =? DW_FORM_implicit_const); [|discriminate].
  destruct (get_uleb128 data o2) as [[v o3]|] eqn:E3; cbn [bind] in H; [discriminate|].
  inversion H; subst; apply get_uleb128_err in E3; discriminate.
Qed.
Lemma read_abattrs_ok : forall fuel data off l o, 0 <= off -> read_abattrs fuel data off = Ok (l, o) ->
  off < o <= blen data.
Proof.
  induction fuel as [|fuel IH]; intros data off l o O H; cbn [read_abattrs] in H; [discriminate|].
  destruct (read_abattr data off) as [[a n]|] eqn:E; cbn [bind] in H; [|discriminate].
  apply read_abattr_ok in E; [|exact O].
  destruct (_ && _); [inversion H; subst; lia|].
  destruct (read_abattrs fuel data (off + n)) as [[l' o']|] eqn:E2; cbn [bind] in H; [|discriminate].
  apply IH in E2; [|lia]. inversion H; subst; lia.
Qed.
Lemma read_abattrs_ends : forall fuel data off, 0 <= off -> Z.max 0 (blen data - off) + 1 <= Z.of_nat fuel ->
  no_fuel (read_abattrs fuel data off).
Proof.
  induction fuel as [|fuel IH]; intros data off O F H; [lia|]. cbn [read_abattrs] in H.
  destruct (read_abattr data off) as [[a n]|] eqn:E; cbn [bind] in H;
    [|inversion H; subst; exact (read_abattr_err _ _ E)].
  apply read_abattr_ok in E; [|exact O].
  destruct (_ && _); [discriminate|].
  destruct (read_abattrs fuel data (off + n)) as [[l' o']|] eqn:E2; cbn [bind] in H; [discriminate|].
  inversion H; subst. revert E2. apply IH; lia.
Qed.
Lemma read_abbrev_ok : forall big data off a o, 0 <= off -> read_abbrev big data off = Ok (a, o) -> off < o <= blen data.
Proof.
  intros big data off a o O H. unfold read_abbrev in H.
  destruct (get_uleb128 data off) as [[code o1]|] eqn:E; cbn [bind] in H; [|discriminate].
  apply get_uleb128_ok in E; [|exact O].
  destruct (get_uleb128 data o1) as [[tag o2]|] eqn:E2; cbn [bind] in H; [|discriminate].
  apply get_uleb128_ok in E2; [|lia].
  destruct (get_uint big 1 data o2) as [ch o3] eqn:G. unfold get_uint, get_int in G. inversion G; subst o3. clear G.
  destruct (read_abattrs (S (length data)) data (o2 + 1)) as [[l o4]|] eqn:R; cbn [bind] in H; [|discriminate].
  apply read_abattrs_ok in R; [|lia]. inversion H; subst; lia.
Qed.
Lemma read_abbrev_err : forall big data off, 0 <= off -> no_fuel (read_abbrev big data off).
Proof.
  intros big data off O H. unfold read_abbrev in H.
  destruct (get_uleb128 data off) as [[code o1]|] eqn:E; cbn [bind] in H;
    [|inversion H; subst; apply get_uleb128_err in E; discriminate].
  apply get_uleb128_ok in E; [|exact O].
  destruct (get_uleb128 data o1) as [[tag o2]|] eqn:E2; cbn [bind] in H;
    [|inversion H; subst; apply get_uleb128_err in E2; discriminate].
  apply get_uleb128_ok in E2; [|lia].
  destruct (get_uint big 1 data o2) as [ch o3] eqn:G. unfold get_uint, get_int in G. inversion G; subst o3. clear G.
  destruct (read_abattrs (S (length data)) data (o2 + 1)) as [[l o4]|] eqn:R; cbn [bind] in H; [discriminate|].
  inversion H; subst. revert R. apply read_abattrs_ends; [lia|]. unfold blen. lia.
Qed.
Lemma read_abbrevs_ends : forall fuel big data off, 0 <= off -> Z.max 0 (blen data - off) + 1 <= Z.of_nat fuel ->
  no_fuel (read_abbrevs fuel big data off).
Proof.
  induction fuel as [|fuel IH]; intros big data off O F H; [lia|]. cbn [read_abbrevs] in H.
  destruct (get_uleb128 data off) as [[code o1]|] eqn:E; cbn [bind] in H;
    [|inversion H; subst; apply get_uleb128_err in E; discriminate].
  destruct (code =? 0); [discriminate|].
  destruct (read_abbrev big data off) as [[a o]|] eqn:R; cbn [bind] in H;
    [|inversion H; subst; revert R; apply read_abbrev_err; exact O].
  apply read_abbrev_ok in R; [|exact O].
  destruct (read_abbrevs fuel big data o) as [l|] eqn:E2; cbn [bind] in H; [discriminate|].
  inversion H; subst. revert E2. apply IH; lia.
Qed.

(** units *)
Lemma blen_slice : forall data off n, 0 <= off -> 0 <= n ->
  blen (slice data off n) = Z.min n (Z.max 0 (blen data - off)).
Proof. intros. unfold slice. rewrite blen_take, blen_drop by assumption. reflexivity. Qed.

Lemma read_cu_ok : forall big data off c, is_bytes data -> 0 <= off -> off < blen data -> read_cu big data off = Ok c ->
  off < off + cu_ullen c + cu_length c /\ (cu_address_size c = 4 \/ cu_address_size c = 8) /\ off <= cu_die_offset c
  /\ 0 <= cu_abbrev_offset c.
Proof.
  intros big data off c B O L H. unfold read_cu in H.
  pose proof (get_uint_ok big 4 data off B) as G4. destruct (get_uint big 4 data off) as [len o1] eqn:E4. cbn [fst snd] in G4.
  unfold get_bytes in H. cbn [fst] in H.
  pose proof (blen_slice data off 4 O ltac:(lia)) as S4.
  assert (P : exists len2 o2, (if len =? 4294967295 then get_uint big 8 data o1 else (len, o1)) = (len2, o2) /\ 0 <= len2 /\ o1 <= o2).
  { destruct (len =? 4294967295).
    - pose proof (get_uint_ok big 8 data o1 B) as G8. destruct (get_uint big 8 data o1) as [a b]. cbn [fst snd] in G8.
      exists a, b. split; [reflexivity | lia].
    - exists len, o1. split; [reflexivity | lia]. }
  destruct P as (len2 & o2 & P & P1 & P2). rewrite P in H.
  pose proof (blen_nonneg (slice data o1 8)).
  set (ul := if len =? 4294967295 then blen (slice data off 4) + blen (slice data o1 8) else blen (slice data off 4)) in H.
  assert (UL : 1 <= ul) by (subst ul; destruct (len =? 4294967295); lia). clearbody ul.
  pose proof (get_uint_ok big 2 data o2 B) as G2. destruct (get_uint big 2 data o2) as [version o3]. cbn [fst snd] in G2.
  assert (Q : forall s, off_size s = 4 \/ off_size s = 8) by (intros []; cbn; auto).
  specialize (Q (len =? 4294967295)).
  destruct (version =? 5).
  - pose proof (get_uint_ok big 1 data o3 B) as G5. destruct (get_uint big 1 data o3) as [ut o4]. cbn [fst snd] in G5.
    pose proof (get_uint_ok big 1 data o4 B) as G6. destruct (get_uint big 1 data o4) as [asz o5]. cbn [fst snd] in G6.
    pose proof (get_uint_ok big (off_size (len =? 4294967295)) data o5 B) as G7.
    destruct (get_uint big (off_size (len =? 4294967295)) data o5) as [ao o6]. cbn [fst snd] in G7.
    cbn [bind] in H. destruct ((asz =? 4) || (asz =? 8)) eqn:Z48; [|discriminate].
    apply orb_true_iff in Z48. rewrite !Z.eqb_eq in Z48. inversion H; subst c; cbn. lia.
  - destruct (version <=? 4); [|discriminate].
    pose proof (get_uint_ok big (off_size (len =? 4294967295)) data o3 B) as G7.
    destruct (get_uint big (off_size (len =? 4294967295)) data o3) as [ao o4]. cbn [fst snd] in G7.
    pose proof (get_uint_ok big 1 data o4 B) as G6. destruct (get_uint big 1 data o4) as [asz o5]. cbn [fst snd] in G6.
    cbn [bind] in H. destruct ((asz =? 4) || (asz =? 8)) eqn:Z48; [|discriminate].
    apply orb_true_iff in Z48. rewrite !Z.eqb_eq in Z48. inversion H; subst c; cbn. lia.
Qed.
Lemma read_cu_err : forall big data off e, read_cu big data off = Err e -> e = Elf_Exception.
Proof.
  intros big data off e H. unfold read_cu in H.
  destruct (get_uint big 4 data off) as [len o1].
  destruct (if len =? 4294967295 then _ else _) as [len2 o2] in H.
  destruct (get_uint big 2 data o2) as [version o3].
  destruct (version =? 5).
  - destruct (get_uint big 1 data o3) as [ut o4]. destruct (get_uint big 1 data o4) as [asz o5].
    destruct (get_uint big (off_size _) data o5) as [ao o6]. cbn [bind] in H.
    destruct ((asz =? 4) || (asz =? 8)); congruence.
  - destruct (version <=? 4); [|cbn [bind] in H; congruence].
    destruct (get_uint big (off_size _) data o3) as [ao o4]. destruct (get_uint big 1 data o4) as [asz o5]. cbn [bind] in H.
    destruct ((asz =? 4) || (asz =? 8)); congruence.
Qed.

Lemma read_cus_ends : forall fuel big data off, is_bytes data -> 0 <= off ->
  Z.max 0 (blen data - off) + 1 <= Z.of_nat fuel -> no_fuel (read_cus fuel big data off).
Proof.
  induction fuel as [|fuel IH]; intros big data off B O F H; [lia|]. cbn [read_cus] in H.
  destruct (off <? blen data) eqn:L; [|discriminate]. apply Z.ltb_lt in L.
  destruct (read_cu big data off) as [c|] eqn:E; cbn [bind] in H;
    [|inversion H; subst; apply read_cu_err in E; discriminate].
  apply read_cu_ok in E; try assumption.
  destruct (read_cus fuel big data _) as [l|] eqn:R in H; cbn [bind] in H; [discriminate|].
  inversion H; subst. revert R. apply IH; [assumption | lia | lia].
Qed.
Lemma read_cus_valid : forall fuel big data off l, is_bytes data -> 0 <= off -> read_cus fuel big data off = Ok l ->
  Forall (fun c => (cu_address_size c = 4 \/ cu_address_size c = 8) /\ 0 <= cu_die_offset c /\ 0 <= cu_abbrev_offset c) l.
Proof.
  induction fuel as [|fuel IH]; intros big data off l B O H; cbn [read_cus] in H; [discriminate|].
  destruct (off <? blen data) eqn:L; [|inversion H; constructor]. apply Z.ltb_lt in L.
  destruct (read_cu big data off) as [c|] eqn:E; cbn [bind] in H; [|discriminate].
  apply read_cu_ok in E; try assumption.
  destruct (read_cus fuel big data _) as [l'|] eqn:R in H; cbn [bind] in H; [|discriminate].
  inversion H; subst. constructor; [lia|]. revert R. apply IH; [assumption | lia].
Qed.

(** ** The whole of the debugging information *)
Lemma is_bytes_read : forall file off n d, is_bytes file -> read file off n = Ok d -> is_bytes d.
Proof.
  intros file off n d B H. unfold read in H. destruct (_ =? _) in H; inversion H. now apply is_bytes_slice.
Qed.
Lemma read_err : forall file off n, no_fuel (read file off n).
Proof. intros file off n H. unfold read in H. destruct (_ =? _) in H; discriminate. Qed.
Lemma decode_err : forall b, no_fuel (decode b).
Proof. intros b H. unfold decode in H. destruct (utf8_ok b) in H; discriminate. Qed.
Lemma lookup_string_err : forall e s i, no_fuel (lookup_string e s i).
Proof.
  intros e s i H. unfold lookup_string, shdr_data in H.
  destruct (read _ _ _) as [d|] eqn:E; cbn [bind] in H; [|inversion H; subst; exact (read_err _ _ _ E)].
  destruct (until_zero _) in H; discriminate.
Qed.
Lemma nth_shdr_err : forall e i, no_fuel (nth_shdr e i).
Proof. intros e i H. unfold nth_shdr in H. destruct (nth_error _ _) in H; discriminate. Qed.
Lemma bind_no_fuel : forall {A B} (r : res A) (f : A -> res B), no_fuel r -> (forall a, r = Ok a -> no_fuel (f a)) ->
  no_fuel (bind r f).
Proof. intros A B [a|e] f N F; cbn [bind]; [apply F; reflexivity | intros H; inversion H; subst; now apply N]. Qed.
Lemma ok_no_fuel : forall {A} (a : A), no_fuel (Ok a).
Proof. intros A a H; discriminate. Qed.
Lemma shdr_name_err : forall e s, no_fuel (shdr_name e s).
Proof.
  intros. unfold shdr_name. apply bind_no_fuel; [apply nth_shdr_err | intros t _].
  apply bind_no_fuel; [apply lookup_string_err | intros b _]. apply decode_err.
Qed.
Lemma lookup_shdr_err : forall e n, no_fuel (lookup_shdr e n).
Proof.
  intros e n. unfold lookup_shdr. induction (xe_shdrs e) as [|s l IH]; cbn [lookup_shdr_in]; [apply ok_no_fuel|].
  apply bind_no_fuel; [apply shdr_name_err | intros m _]. destruct (m =?= n); [apply ok_no_fuel | exact IH].
Qed.

Lemma CUs_ends : forall e, is_bytes (xe_file e) -> no_fuel (CUs e).
Proof.
  intros e B. unfold CUs. apply bind_no_fuel; [apply lookup_shdr_err | intros [s|] _; [|apply ok_no_fuel]].
  apply bind_no_fuel; [apply read_err | intros d D]. apply read_cus_ends; [exact (is_bytes_read _ _ _ _ B D) | lia |].
  unfold blen; lia.
Qed.
Lemma CUs_valid : forall e l, is_bytes (xe_file e) -> CUs e = Ok l ->
  Forall (fun c => (cu_address_size c = 4 \/ cu_address_size c = 8) /\ 0 <= cu_die_offset c /\ 0 <= cu_abbrev_offset c) l.
Proof.
  intros e l B H. unfold CUs in H. destruct (lookup_shdr e _) as [[s|]|]; cbn [bind] in H; [| inversion H; constructor | discriminate].
  destruct (shdr_data e s) as [d|] eqn:D; cbn [bind] in H; [|discriminate].
  apply read_cus_valid in H; [exact H | exact (is_bytes_read _ _ _ _ B D) | lia].
Qed.
Lemma abbrev_table_ends : forall e c, 0 <= cu_abbrev_offset c -> no_fuel (abbrev_table e c).
Proof.
  intros e c A. unfold abbrev_table. apply bind_no_fuel; [apply lookup_shdr_err | intros [s|] _; [|apply ok_no_fuel]].
  apply bind_no_fuel; [apply read_err | intros d D]. apply read_abbrevs_ends; [exact A|]. unfold blen; lia.
Qed.
Lemma get_DIEs_ends : forall big info table c tags, is_bytes info -> 0 <= cu_address_size c -> 0 <= cu_die_offset c ->
  no_fuel table -> no_fuel (get_DIEs big info table c tags).
Proof.
  intros big info table c tags B A O T. unfold get_DIEs, unit_DIEs.
  apply bind_no_fuel; [|intros; apply ok_no_fuel].
  apply bind_no_fuel; [intros X; apply get_uleb128_err in X; discriminate|].
  intros [code o] _. apply bind_no_fuel; [destruct (code =? 0); [apply ok_no_fuel | exact T]|].
  intros tbl _. apply bind_no_fuel; [|intros [[l c'] o'] _; apply ok_no_fuel].
  apply get_DIE_ends; try assumption. unfold blen; lia.
Qed.

Lemma eval_expr_ends : forall fuel e b off st, 0 <= off -> Z.max 0 (blen b - off) + 1 <= Z.of_nat fuel ->
  no_fuel (eval_expr fuel e b off st).
Proof.
  induction fuel as [|fuel IH]; intros e b off st O F; [lia|]. cbn [eval_expr].
  destruct (off <? blen b) eqn:L; [|apply ok_no_fuel]. apply Z.ltb_lt in L.
  apply bind_no_fuel; [intros X; apply py_index_err in X; discriminate|].
  intros x _. destruct (x =? 3); [|apply ok_no_fuel].
  unfold get_address, get_uint, get_int. apply IH; destruct (xe_is64 e); lia.
Qed.
Lemma get_attr_eval_ends : forall e a, no_fuel (get_attr_eval e a).
Proof.
  intros e a. unfold get_attr_eval, eval_strp.
  assert (P : forall sec, no_fuel (do s <- lookup_shdr e sec;
     match s with Some s0 => match at_value a with
       | DInt z => do b <- lookup_string e s0 z; do t <- decode b; Ok (Some (EStr t)) | _ => Err TypeError end
     | None => Ok None end)).
  { intros sec. apply bind_no_fuel; [apply lookup_shdr_err | intros [s|] _; [|apply ok_no_fuel]].
    destruct (at_value a); try discriminate.
    apply bind_no_fuel; [apply lookup_string_err | intros b _].
    apply bind_no_fuel; [apply decode_err | intros t _; apply ok_no_fuel]. }
  destruct (at_form a =? 14); [apply P|]. destruct (at_form a =? 31); [apply P|].
  destruct (at_form a =? 8).
  - destruct (at_value a); try discriminate. apply bind_no_fuel; [apply decode_err | intros; apply ok_no_fuel].
  - destruct (at_form a =? 24); [|apply ok_no_fuel]. destruct (at_value a); try discriminate.
    apply bind_no_fuel; [apply eval_expr_ends; unfold blen; lia|]. intros [|x [|y st]] _; discriminate.
Qed.
Lemma get_attr_str_ends : forall e a, no_fuel (get_attr_str e a).
Proof.
  intros e a. unfold get_attr_str. apply bind_no_fuel; [apply get_attr_eval_ends|].
  intros [[s|z]|] _; try discriminate. destruct (at_value a); discriminate.
Qed.
Lemma dval_int_ends : forall v, no_fuel (dval_int v). Proof. intros []; discriminate. Qed.
Lemma die_address_ends : forall e d, no_fuel (die_address e d).
Proof.
  intros e d. unfold die_address. destruct (d_tag d =? DW_TAG_subprogram).
  - destruct (dget _ _); [|apply ok_no_fuel]. apply bind_no_fuel; [apply dval_int_ends | intros; apply ok_no_fuel].
  - destruct (d_tag d =? DW_TAG_variable); [|apply ok_no_fuel]. destruct (dget _ _); [|apply ok_no_fuel].
    apply bind_no_fuel; [apply get_attr_eval_ends|]. intros [[s|z]|] _; discriminate.
Qed.
Lemma get_cu_name_ends : forall e dies d, no_fuel (get_cu_name e dies d).
Proof.
  intros e dies d. unfold get_cu_name. apply bind_no_fuel.
  - destruct (dget _ _); [|apply ok_no_fuel]. apply bind_no_fuel; [apply dval_int_ends|].
    intros z _. destruct (dget z dies); discriminate.
  - intros d' _. destruct (dget _ dies) as [[cd cc]|]; [|discriminate]. destruct (dget _ _); [|discriminate]. apply get_attr_str_ends.
Qed.
Lemma foldM_no_fuel : forall {A S} (f : S -> A -> res S) l s, (forall a x, In a l -> no_fuel (f x a)) -> no_fuel (foldM f s l).
Proof.
  intros A S0 f l. induction l as [|a l IH]; intros s H; cbn [foldM]; [apply ok_no_fuel|].
  apply bind_no_fuel; [apply H; now left|]. intros s' _. apply IH. intros; apply H; now right.
Qed.
Lemma symbols_ends : forall e, no_fuel (symbols e).
Proof.
  intros e. unfold symbols. intros H.
  assert (P : forall l, snd (symbols_loop e l) <> Some OutOfFuel).
  { induction l as [|s l IH]; cbn [symbols_loop]; [discriminate|].
    destruct (negb _); [exact IH|].
    assert (Q : snd (symtab_symbols e s) <> Some OutOfFuel).
    { unfold symtab_symbols. destruct (x_size s <=? 0) eqn:L; [discriminate|]. apply Z.leb_gt in L.
      destruct (shdr_data e s) as [d|x] eqn:D; [|cbn; intros X; inversion X; subst; exact (read_err _ _ _ D)].
      apply read_table_ends; [destruct (xe_is64 e); reflexivity | | lia |].
      - intros v. unfold mk_xsym. repeat (destruct v as [|? v]; try discriminate).
      - unfold shdr_data, read in D. destruct (_ =? x_size s) eqn:E in D; [|discriminate]. apply Z.eqb_eq in E.
        inversion D; subst d. unfold blen in E. lia. }
    destruct (symtab_symbols e s) as [a [x|]]; [exact Q|].
    destruct (symbols_loop e l) as [b x]. exact IH. }
  specialize (P (xe_shdrs e)). destruct (symbols_loop e (xe_shdrs e)) as [l [x|]]; cbn in *; congruence.
Qed.

Lemma add_cus_ends : forall e, is_bytes (xe_file e) -> no_fuel (add_cus_to_symbols e).
Proof.
  intros e B. unfold add_cus_to_symbols, all_dies.
  apply bind_no_fuel.
  - apply bind_no_fuel; [apply CUs_ends; exact B | intros cus C].
    pose proof (CUs_valid _ _ B C) as V. apply foldM_no_fuel. intros c acc I.
    pose proof (proj1 (Forall_forall _ _) V c I) as (AS & DO & AO).
    apply bind_no_fuel; [apply lookup_shdr_err | intros [s|] _; [|discriminate]].
    apply bind_no_fuel; [apply read_err | intros d D].
    apply bind_no_fuel; [|intros; apply ok_no_fuel].
    apply get_DIEs_ends; [exact (is_bytes_read _ _ _ _ B D) | lia | exact DO | apply abbrev_table_ends; exact AO].
  - intros dies _. apply bind_no_fuel; [apply symbols_ends|]. intros l _.
    apply foldM_no_fuel. intros d acc _. unfold add_cu. apply bind_no_fuel; [apply die_address_ends|].
    intros [z|] _; [|apply ok_no_fuel]. destruct (dget z acc) as [[y o]|]; [|apply ok_no_fuel].
    apply bind_no_fuel; [apply get_cu_name_ends | intros; apply ok_no_fuel].
Qed.

Lemma elf_init_ends : forall file, is_bytes file -> no_fuel (elf_init file).
Proof.
  intros file B. unfold elf_init.
  apply bind_no_fuel; [apply read_err | intros ident _].
  destruct (negb _); [discriminate|].
  apply bind_no_fuel; [intros X; apply py_index_err in X; discriminate | intros d _].
  apply bind_no_fuel; [destruct (d =? 1); [apply ok_no_fuel | destruct (d =? 2); discriminate] | intros big _].
  apply bind_no_fuel; [intros X; apply py_index_err in X; discriminate | intros c _].
  apply bind_no_fuel; [destruct (c =? 1); [apply ok_no_fuel | destruct (c =? 2); discriminate] | intros is64 _].
  apply bind_no_fuel; [apply read_err | intros data _].
  apply bind_no_fuel; [intros X; apply get_fmt_err in X; discriminate | intros [v o] _].
  apply bind_no_fuel.
  { unfold mk_ehdr. repeat (destruct v as [|? v]; try discriminate). }
  intros h _.
  assert (P : forall {A} fmt (mk : list Z -> res A) num ent off, 0 < calcsize fmt -> (forall v, no_fuel (mk v)) ->
            no_fuel (read_headers file big fmt mk num ent off)).
  { intros A fmt mk num ent off N M. unfold read_headers. destruct (num =? 0); [apply ok_no_fuel|].
    apply bind_no_fuel; [apply read_err | intros dd D].
    pose proof (read_table_ends big fmt mk N M (S (length dd)) dd 0 (num * ent)) as R.
    destruct (read_table (S (length dd)) big fmt mk dd 0 (num * ent)) as [l [x|]]; cbn [table_res]; [|apply ok_no_fuel].
    cbn in R. intros X. inversion X; subst x. apply R; [lia| |reflexivity].
    unfold read in D. destruct (_ =? num * ent) eqn:E in D; [|discriminate]. apply Z.eqb_eq in E.
    inversion D; subst dd. unfold blen in E. lia. }
  apply bind_no_fuel.
  { apply P; [destruct is64; reflexivity|]. intros w. unfold mk_phdr. repeat (destruct w as [|? w]; try discriminate). }
  intros ph _. apply bind_no_fuel; [|intros; apply ok_no_fuel].
  apply P; [destruct is64; reflexivity|]. intros w. unfold mk_xshdr. repeat (destruct w as [|? w]; try discriminate).
Qed.

Lemma get_DIEs_repeat : forall big info table c tags l cache,
  get_DIEs_call big info table c tags None = (Ok l, cache) -> fst (get_DIEs_call big info table c tags cache) = Ok l.
Proof.
  intros big info table c tags l cache H. unfold get_DIEs_call in H. injection H as H C. rewrite H in C. subst cache.
  unfold get_DIEs_call. destruct l; [exact H | reflexivity].
Qed.
