From Coq Require Import Ascii String List ZArith Lia Bool Permutation Sorted.
From Verif Require Import Base MemMap SpecTree SpecOps Filter SpecFilter Pipeline SpecPipe SpecBuild SpecBytes SpecShape SpecSyms PyStr MapFile SpecMap ProofBuild ProofBytes ProofBytes2 ProofBytes3
  ElfRead SpecElf Project SpecProject SpecEnd ProofEnd Chips SpecChips Deps Table SpecTable Formats Main SpecMain Command SpecCommand SpecFail SpecReport SpecSymbols ProofCommand1 ProofCommand2 ProofReport2 ProofReport5
  ProofSymbols1 ProofSymbols2 ProofSymbols3 ProofSymbols4 SpecAdds ProofAdds SpecSteps ProofSteps SpecCompare.
Import ListNotations.
Open Scope list_scope.
Open Scope Z_scope.

(** ** rows, whatever they are about *)
Section Rows.
Variables (P : item -> Prop) (key : item -> str) (own : item -> item -> bool) (T : item -> Prop).
Hypothesis own_key : forall i j, own i j = true -> key j = key i.
Hypothesis own_P : forall i j, own i j = true -> P i -> P j.
Hypothesis key_own : forall i j, T i -> T j -> key i = key j -> own i = own j.
Definition rows_right (k : account) (r : option account) (a : args) (rows : dict str sentry) : Prop :=
  NoDup (map fst rows) /\
  (forall n, In n (map fst rows) <-> exists i v, P i /\ present k r (places i) /\ n = key i /\ measured k r (own_bytes (own i) ColTotal) v /\ differs a v) /\
  forall n e, In (n, e) rows -> exists i, P i /\ present k r (places i) /\ n = key i /\ entry_right k r a (own i) e.
Definition told (k : account) : Prop := forall i, places i k -> T i.

Lemma sized_alone own0 k v : measured k None (own_bytes own0 ColTotal) v <-> own_bytes own0 ColTotal k (fst v) /\ snd v = 0.
Proof. reflexivity. Qed.
(** the figures of a project alone *)
Section Alone.
Variables (k : account) (a : args) (rows : dict str sentry).
Hypothesis (R : rows_right k None a rows) (G : given (a_diff a) = false) (S0 : sound k) (Tk : told k).
Lemma alone_there i : P i -> places i k -> In (key i) (map fst rows).
Proof.
  intros Pi Pl. apply R. destruct (own_value (own i) ColTotal k) as (x & X). exists i, (x, 0). split; [exact Pi|]. split; [now left|]. split; [reflexivity|]. split; [now split|]. intros G'. congruence.
Qed.
Lemma alone_item n : In n (map fst rows) -> exists i, P i /\ places i k /\ n = key i.
Proof. intros I. apply R in I. destruct I as (i & v & Pi & [Pl|[]] & E & _). now exists i. Qed.
Lemma alone_value i c v x : P i -> T i -> figure rows (key i) c v -> own_bytes (own i) c k x -> v = (x, 0).
Proof.
  intros Pi Ti Fv Ox. destruct Fv as [(e & I & ->)|(Ni & ->)].
  - destruct R as (_ & _ & Rs). destruct (Rs _ _ I) as (j & Pj & [Pl|[]] & Ej & Er). rewrite (key_own i j) in Ox by (try assumption; now apply Tk).
    destruct (listed_dec _ _ _ _ _ c Er) as [L|L].
    + apply (measured_same (own j) c k None); [apply (proj1 (row_value _ _ _ _ _ c Er)), L|]. now split.
    + rewrite (proj2 (row_value _ _ _ _ _ c Er) L). destruct (Z.eq_dec x 0) as [->|Z0]; [reflexivity|]. exfalso. apply L. destruct (own_nonzero _ _ _ _ a S0 Ox Z0) as (Lk & _).
      destruct c; cbn in *; [exact Logic.I|now left|split; left; tauto].
  - destruct (Z.eq_dec x 0) as [->|Z0]; [reflexivity|]. exfalso. apply Ni. destruct (own_nonzero _ _ _ _ a S0 Ox Z0) as (_ & j & Pj & Oj).
    rewrite <- (own_key i j Oj). apply alone_there; [now apply (own_P i j)|exact Pj].
Qed.
End Alone.
(** those of a comparison *)
Section Both.
Variables (k r : account) (a : args) (rows : dict str sentry).
Hypothesis (R : rows_right k (Some r) a rows) (Sk : sound k) (Sr : sound r) (Tk : told k) (Tr : told r).
Lemma both_T i : present k (Some r) (places i) -> T i.
Proof. intros [Q|Q]; [now apply Tk|now apply Tr]. Qed.
Lemma both_value i e c x y : T i -> In (key i, e) rows -> own_bytes (own i) c k x -> own_bytes (own i) c r y -> col_value e c = (x, x - y).
Proof.
  intros Ti I Ox Oy. destruct R as (_ & _ & Rs). destruct (Rs _ _ I) as (j & Pj & Pl & Ej & Er).
  rewrite (key_own i j) in Ox, Oy by (try assumption; now apply both_T).
  destruct (listed_dec _ _ _ _ _ c Er) as [L|L].
  - apply (measured_same (own j) c k (Some r)); [apply (proj1 (row_value _ _ _ _ _ c Er)), L|]. split; [exact Ox|]. exists y. now split.
  - rewrite (proj2 (row_value _ _ _ _ _ c Er) L).
    assert (x = 0) as ->. { destruct (Z.eq_dec x 0) as [Z0|Z0]; [exact Z0|]. exfalso. apply L. destruct (own_nonzero _ _ _ _ a Sk Ox Z0) as (Lk & _). destruct c; cbn in *; [exact Logic.I|now left|split; left; tauto]. }
    assert (y = 0) as ->. { destruct (Z.eq_dec y 0) as [Z0|Z0]; [exact Z0|]. exfalso. apply L. destruct (own_nonzero _ _ _ _ a Sr Oy Z0) as (Lk & _). destruct c; cbn in *; [exact Logic.I|now right|split; right; tauto]. }
    reflexivity.
Qed.
Lemma both_absent i x y : P i -> T i -> own_bytes (own i) ColTotal k x -> own_bytes (own i) ColTotal r y -> ~ In (key i) (map fst rows) ->
  x = y /\ (shows_all a -> x = 0 /\ y = 0 /\ forall j, present k (Some r) (places j) -> own i j <> true).
Proof.
  intros Pi Ti Ox Oy Ni.
  assert (There : forall j, present k (Some r) (places j) -> own i j = true -> ~ differs a (x, x - y)).
  { intros j Pj O D. apply Ni, R. exists j, (x, x - y). split; [now apply (own_P i j)|]. split; [exact Pj|]. split; [symmetry; now apply own_key|]. split; [|exact D].
    rewrite (key_own j i); [split; [exact Ox|exists y; now split]|now apply both_T|exact Ti|now apply own_key]. }
  assert (Some0 : x <> 0 \/ y <> 0 -> exists j, present k (Some r) (places j) /\ own i j = true).
  { intros [N|N]; [destruct (own_nonzero _ _ _ _ a Sk Ox N) as (_ & j & Q & O)|destruct (own_nonzero _ _ _ _ a Sr Oy N) as (_ & j & Q & O)]; exists j; (split; [|exact O]); [now left|now right]. }
  split.
  - destruct (Z.eq_dec x y) as [E|E]; [exact E|]. exfalso. destruct Some0 as (j & Pj & O); [lia|]. apply (There j Pj O). intros _ _. cbn [snd]. lia.
  - intros Sa. assert (N0 : forall j, present k (Some r) (places j) -> own i j <> true) by (intros j Pj O; apply (There j Pj O); now apply all_differs).
    assert (~ (x <> 0 \/ y <> 0)) by (intros N; destruct (Some0 N) as (j & Pj & O); exact (N0 j Pj O)). split; [lia|]. split; [lia|exact N0].
Qed.
Lemma both_figure i c v x y : P i -> T i -> figure rows (key i) c v -> own_bytes (own i) c k x -> own_bytes (own i) c r y ->
  (c = ColTotal -> snd v = x - y) /\ (shows_all a -> v = (x, x - y)).
Proof.
  intros Pi Ti Fv Ox Oy. destruct Fv as [(e & I & ->)|(Ni & ->)].
  - rewrite (both_value i e c x y Ti I Ox Oy). tauto.
  - destruct (own_value (own i) ColTotal k) as (x' & Ox'). destruct (own_value (own i) ColTotal r) as (y' & Oy'). destruct (both_absent i x' y' Pi Ti Ox' Oy' Ni) as (E & A). split.
    + intros ->. rewrite (own_unique _ _ _ _ _ Ox Ox'), (own_unique _ _ _ _ _ Oy Oy'). cbn [snd]. lia.
    + intros Sa. destruct (A Sa) as (_ & _ & N0).
      assert (x = 0) as ->. { destruct (Z.eq_dec x 0) as [Z0|Z0]; [exact Z0|]. exfalso. destruct (own_nonzero _ _ _ _ a Sk Ox Z0) as (_ & j & Q & O). exact (N0 j (or_introl Q) O). }
      assert (y = 0) as ->. { destruct (Z.eq_dec y 0) as [Z0|Z0]; [exact Z0|]. exfalso. destruct (own_nonzero _ _ _ _ a Sr Oy Z0) as (_ & j & Q & O). exact (N0 j (or_intror Q) O). }
      reflexivity.
Qed.
Lemma both_item n : In n (map fst rows) -> exists i, P i /\ present k (Some r) (places i) /\ n = key i.
Proof. intros I. apply R in I. destruct I as (i & v & Pi & Pl & E & _). now exists i. Qed.
End Both.

(** ** a comparison is the difference *)
Lemma compares_ok k r a b new old both : rows_right k None a new -> rows_right r None a old -> rows_right k (Some r) b both ->
  given (a_diff a) = false -> given (a_diff b) = true -> sound k -> sound r -> told k -> told r -> compares b new old both.
Proof.
  intros Rn Ro Rb Ga Gb Sk Sr Tk Tr. split.
  - intros n. split.
    + intros I. apply Rb in I. destruct I as (i & v & Pi & Pl & -> & M & D). split; [destruct Pl as [Pl|Pl]; [left; exact (alone_there k a new Rn Ga i Pi Pl)|right; exact (alone_there r a old Ro Ga i Pi Pl)]|].
      destruct (a_show_unchanged b) eqn:U; [now left|]. right. intros v1 v2 F1 F2. destruct M as (M1 & y & M2 & E).
      assert (Ti : T i) by now apply (both_T k r Tk Tr).
      rewrite (alone_value k a new Rn Ga Sk Tk i ColTotal v1 _ Pi Ti F1 M1), (alone_value r a old Ro Ga Sr Tr i ColTotal v2 _ Pi Ti F2 M2). cbn [fst]. specialize (D Gb U). lia.
    + intros (I & D). assert (exists i, P i /\ present k (Some r) (places i) /\ n = key i) as (i & Pi & Pl & ->).
      { destruct I as [I|I]; [destruct (alone_item k a new Rn n I) as (i & Pi & Pl & E)|destruct (alone_item r a old Ro n I) as (i & Pi & Pl & E)]; exists i; (split; [exact Pi|]); (split; [|exact E]); [now left|now right]. }
      destruct (own_value (own i) ColTotal k) as (x & X). destruct (own_value (own i) ColTotal r) as (y & Y). apply Rb. exists i, (x, x - y). split; [exact Pi|]. split; [exact Pl|]. split; [reflexivity|].
      split; [split; [exact X|exists y; now split]|]. intros _ U. destruct D as [D|D]; [congruence|]. cbn [snd].
      assert (Ti : T i) by now apply (both_T k r Tk Tr).
      assert (Fg : forall rows, exists v, figure rows (key i) ColTotal v).
      { intros rows. destruct (dget (key i) rows) as [e|] eqn:E; [exists (col_value e ColTotal); left; exists e; split; [now apply dget_some|reflexivity]|exists (0, 0); right; split; [now apply dget_none|reflexivity]]. }
      destruct (Fg new) as (v1 & F1), (Fg old) as (v2 & F2). specialize (D v1 v2 F1 F2).
      rewrite (alone_value k a new Rn Ga Sk Tk i ColTotal v1 _ Pi Ti F1 X), (alone_value r a old Ro Ga Sr Tr i ColTotal v2 _ Pi Ti F2 Y) in D. cbn [fst] in D. lia.
  - intros n e c v w I Fv Fw. destruct (both_item k r b both Rb n (List.in_map fst _ _ I)) as (i & Pi & Pl & ->). assert (Ti : T i) by now apply (both_T k r Tk Tr).
    destruct (own_value (own i) c k) as (x & X). destruct (own_value (own i) c r) as (y & Y).
    rewrite (both_value k r b both Rb Sk Sr Tk Tr i e c x y Ti I X Y). rewrite (alone_value k a new Rn Ga Sk Tk i c v x Pi Ti Fv X), (alone_value r a old Ro Ga Sr Tr i c w y Pi Ti Fw Y). reflexivity.
Qed.
(** ** in steps *)
Lemma steps_ok k1 k2 k3 a rows rows' all : rows_right k1 (Some k2) a rows -> rows_right k2 (Some k3) a rows' -> rows_right k1 (Some k3) a all ->
  sound k1 -> sound k2 -> sound k3 -> told k1 -> told k2 -> told k3 -> steps a rows rows' all.
Proof.
  intros R R' Ra S1 S2 S3 T1 T2 T3 n c v v' w Hc F F' Fa.
  assert (Cases : (exists i, P i /\ T i /\ n = key i) \/ (v = (0, 0) /\ v' = (0, 0) /\ w = (0, 0))).
  { destruct F as [(e & I & _)|(_ & ->)]; [left; destruct (both_item _ _ _ _ R n (List.in_map fst _ _ I)) as (i & Pi & Pl & E); exists i; split; [exact Pi|split; [exact (both_T _ _ T1 T2 i Pl)|exact E]]|].
    destruct F' as [(e & I & _)|(_ & ->)]; [left; destruct (both_item _ _ _ _ R' n (List.in_map fst _ _ I)) as (i & Pi & Pl & E); exists i; split; [exact Pi|split; [exact (both_T _ _ T2 T3 i Pl)|exact E]]|].
    destruct Fa as [(e & I & _)|(_ & ->)]; [left; destruct (both_item _ _ _ _ Ra n (List.in_map fst _ _ I)) as (i & Pi & Pl & E); exists i; split; [exact Pi|split; [exact (both_T _ _ T1 T3 i Pl)|exact E]]|]. right. repeat split. }
  destruct Cases as [(i & Pi & Ti & ->)|(-> & -> & ->)]; [|cbn; split; [lia|reflexivity]].
  destruct (own_value (own i) c k1) as (x & X). destruct (own_value (own i) c k2) as (y & Y). destruct (own_value (own i) c k3) as (z & Zz).
  destruct (both_figure k1 k2 a rows R S1 S2 T1 T2 i c v x y Pi Ti F X Y) as (A1 & A2).
  destruct (both_figure k2 k3 a rows' R' S2 S3 T2 T3 i c v' y z Pi Ti F' Y Zz) as (B1 & B2).
  destruct (both_figure k1 k3 a all Ra S1 S3 T1 T3 i c w x z Pi Ti Fa X Zz) as (C1 & C2).
  assert (Sa : a_show_unchanged a = true -> shows_all a) by (intros U; now right).
  split.
  - destruct Hc as [Hc|Hc]; [rewrite (A1 Hc), (B1 Hc), (C1 Hc); lia|]. rewrite (A2 (Sa Hc)), (B2 (Sa Hc)), (C2 (Sa Hc)). cbn [snd]. lia.
  - intros U. rewrite (A2 (Sa U)), (C2 (Sa U)). reflexivity.
Qed.
(** ** the other way round *)
Lemma turned_ok k r a rows rows' : rows_right k (Some r) a rows -> rows_right r (Some k) a rows' -> sound k -> sound r -> told k -> told r -> turned rows rows'.
Proof.
  intros R R' Sk Sr Tk Tr.
  assert (Nm : forall n, In n (map fst rows) <-> In n (map fst rows')).
  { intros n. destruct R as (_ & Ks & _), R' as (_ & Ks' & _). rewrite Ks, Ks'. split; intros (i & v & Pi & Pl & E & (M1 & y & M2 & M3) & D); exists i, (y, y - fst v);
      (split; [exact Pi|]; split; [destruct Pl; [now right|now left]|]; split; [exact E|]; split; [split; [exact M2|exists (fst v); split; [exact M1|reflexivity]]|]; intros G U; specialize (D G U); cbn [snd]; lia). }
  split; [exact Nm|]. intros n c v v' F F'. destruct F as [(e & I & ->)|(N & ->)], F' as [(e' & I' & ->)|(N' & ->)].
  - destruct (both_item _ _ _ _ R n (List.in_map fst _ _ I)) as (i & Pi & Pl & ->). assert (Ti : T i) by now apply (both_T k r Tk Tr).
    destruct (own_value (own i) c k) as (x & X). destruct (own_value (own i) c r) as (y & Y).
    rewrite (both_value k r a rows R Sk Sr Tk Tr i e c x y Ti I X Y), (both_value r k a rows' R' Sr Sk Tr Tk i e' c y x Ti I' Y X). cbn [fst snd]. f_equal; lia.
  - exfalso. apply N', Nm. exact (List.in_map fst _ _ I).
  - exfalso. apply N, Nm. exact (List.in_map fst _ _ I').
  - reflexivity.
Qed.
End Rows.
