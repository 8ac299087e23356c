(** * ProofDwarf1: attribute values and termination *)
From Coq Require Import Ascii String List ZArith Bool Lia.
From Verif Require Import Base ElfRead SpecElf ProofElf1 ProofElf2 Dwarf SpecDwarf.
Import ListNotations.
Open Scope list_scope.
Open Scope Z_scope.

(** forms whose value is read as the standard says: all but sdata, whose sign is
    wrong, and loclistx and rnglistx, whose value is dropped *)
Definition exact_form (form : Z) : bool := negb ((form =? 13) || (form =? 34) || (form =? 35)).

Lemma fixed_ok : forall big n m data off v, occurs data off (int_enc big n v) -> fits (Z.of_nat n) v ->
  m = Z.of_nat n -> get_uint big m data off = (v, off + blen (int_enc big n v)).
Proof. intros; subst. rewrite blen_int_enc. now apply get_uint_enc. Qed.
Lemma uleb_ok : forall v l data off, occurs data off l -> uleb_enc v l -> get_uleb128 data off = Ok (v, off + blen l).
Proof. intros; now apply get_uleb128_enc. Qed.
Lemma string_ok : forall data off s, occurs data off (s ++ [0]) -> Forall (fun b => b <> 0) s ->
  get_string data off = Ok (s, off + blen (s ++ [0])).
Proof. intros. rewrite (get_string_text _ _ _ H0 H), blen_app, blen_cons, blen_nil. do 2 f_equal; lia. Qed.

Lemma occurs_nonempty_before : forall data off b l, occurs data off (b :: l) -> exists x, byte_before data off x.
Proof.
  intros data off b l (pre & post & -> & ->). unfold byte_before.
  destruct (blen pre =? 0) eqn:E.
  - destruct (@exists_last _ (pre ++ (b :: l) ++ post)) as (q & x & ->).
    + destruct pre; discriminate.
    + exists x, q. reflexivity.
  - apply Z.eqb_neq in E. destruct (@exists_last _ pre) as (q & x & ->).
    + intros ->. apply E. reflexivity.
    + exists x. exists q, ((b :: l) ++ post). rewrite <- app_assoc. split; [reflexivity|].
      rewrite blen_app, blen_cons, blen_nil. lia.
Qed.
Lemma sleb_before : forall n l data off, sleb_enc n l -> occurs data off l -> exists x, byte_before data off x.
Proof. intros n l data off H O. destruct H; eapply occurs_nonempty_before; exact O. Qed.

Ltac form_cases f :=
  destruct f as [|f|f]; try discriminate;
  repeat (destruct f as [f|f|]; try discriminate).

Ltac reader_step :=
  match goal with
  | |- context [dget ?k form_readers] =>
      let r := eval vm_compute in (dget k form_readers) in change (dget k form_readers) with r; cbn iota beta
  end.

Lemma block_read : forall data off l b o, occurs data off (l ++ b) -> o = off + blen l ->
  get_bytes (blen b) data o = (b, off + blen (l ++ b)).
Proof.
  intros data off l b o O ->. unfold get_bytes. rewrite (occurs_slice _ _ _ (occurs_app_r _ _ _ _ O)), blen_app.
  f_equal; lia.
Qed.

Lemma get_attr_value_enc : forall big c a v l data off,
  attr_enc big c a v l -> ~ In (aa_form a) unsupported -> aa_form a <> 32 -> 0 <= cu_address_size c ->
  occurs data off l ->
  exists v', get_attr_value big c a data off = Ok (v', off + blen l) /\ (exact_form (aa_form a) = true -> v' = v).
Proof.
  intros big c [attr form val] v l data off (k & v0 & FC & CE & ->) U S8 AS O. cbn [aa_form] in *.
  unfold get_attr_value. cbn [aa_form aa_value].
  form_cases form; cbn in FC; inversion FC; subst k; clear FC;
    try (exfalso; apply U; cbn; tauto); try congruence; reader_step;
    inversion CE; subst; clear CE U S8.
  all: try (eexists; split; [rewrite blen_nil, Z.add_0_r; reflexivity | intros _; reflexivity]).
  all: try (erewrite (fixed_ok _ _ _ _ _ _ O) by (first [assumption | reflexivity]); unfold dint; cbn [fst snd];
            eexists; split; [reflexivity | intros _; cbn; try reflexivity; f_equal; lia]).
  all: try (erewrite (uleb_ok _ _ _ _ O) by eassumption; cbn [bind]; unfold dint; cbn [fst snd];
            eexists; split; [reflexivity | try (intros X; discriminate X); intros _; cbn; try reflexivity; f_equal; lia]).
  (* addresses and offsets *)
  all: try (erewrite (fixed_ok _ _ _ _ _ _ O) by (first [assumption | unfold osize, off_size; destruct (cu_is64 c); reflexivity]);
            unfold dint; cbn [fst snd]; eexists; split; [reflexivity | intros _; reflexivity]).
  all: try (erewrite (fixed_ok _ _ _ _ _ _ O) by (rewrite Z2Nat.id by lia; first [assumption | reflexivity]);
            unfold dint; cbn [fst snd]; eexists; split; [reflexivity | intros _; reflexivity]).
  (* blocks *)
  all: try (erewrite (fixed_ok _ _ _ _ _ _ (occurs_app_l _ _ _ _ O)) by (first [assumption | reflexivity]);
            erewrite (block_read _ _ _ _ _ O) by reflexivity;
            eexists; split; [reflexivity | intros _; reflexivity]).
  all: try (erewrite (uleb_ok _ _ _ _ (occurs_app_l _ _ _ _ O)) by eassumption; cbn [bind];
            erewrite (block_read _ _ _ _ _ O) by reflexivity;
            eexists; split; [reflexivity | intros _; reflexivity]).
  all: try (rewrite (string_ok _ _ _ O) by assumption; cbn [bind]; eexists; split; [reflexivity | intros _; reflexivity]).
  all: match goal with H : sleb_enc _ _ |- _ =>
         destruct (sleb_before _ _ _ _ H O) as [x X];
         rewrite (get_sleb128_enc _ _ _ _ _ H O X); cbn [bind]; unfold dint; cbn [fst snd];
         eexists; split; [reflexivity | intros Y; discriminate Y] end.
Qed.

(** what unsupported forms do *)
Lemma get_attr_value_unsupported : forall big c a data off, In (aa_form a) unsupported ->
  get_attr_value big c a data off = Err Elf_Exception.
Proof.
  intros big c [attr form val] data off I. cbn [aa_form] in I. unfold get_attr_value; cbn [aa_form].
  cbn in I. decompose [or] I; subst; try contradiction; reader_step; reflexivity.
Qed.
