(** * Comparisons with --unify *)
From Coq Require Import Ascii String List ZArith Lia Bool Permutation Sorted.
From Verif Require Import Base MemMap SpecTree SpecOps Filter SpecFilter Pipeline SpecPipe SpecBuild SpecBytes SpecShape SpecSyms PyStr MapFile SpecMap ProofBuild ProofBytes ProofBytes2 ProofBytes3
  ElfRead SpecElf Project SpecProject SpecEnd ProofEnd Chips SpecChips Deps Table SpecTable Formats Main SpecMain Command SpecCommand SpecFail SpecReport SpecSymbols ProofCommand1 ProofCommand2 ProofReport2 ProofReport5
  SpecAdds ProofAdds SpecSteps ProofSteps SpecCompare SpecMerge SpecMergeFiles SpecMergeSyms SpecCompareMerged ProofMerge2 ProofGroup2.
Import ListNotations.
Open Scope list_scope.
Open Scope Z_scope.

(** ** the bytes of the input sections [Q] *)
Definition group_bytes (Q : item -> Prop) (c : col) (k : account) (n : Z) : Prop :=
  exists own, (forall i, own i = true <-> Q i) /\
  match c with
  | ColSect T B => exists keep b, (forall o, keep o = true <-> counted (ac_im k) o /\ label [pr_name o] B) /\
      (forall o a, b o a = true <-> byte_goes (ac_types k) (pr_name o) a T) /\
      n = zsumf (fun o => zsumf (fun i => bytes_with (b o) (it_addr i) (it_size i)) (filter own (pr_items o))) (filter keep (ac_l k))
  | _ => own_bytes own c k n
  end.
Definition clisted (a : args) (c : col) (k : account) : Prop :=
  match c with ColTotal => True | ColType T => lists_type a T k | ColSect T B => lists_type a T k /\ lists_label T B k end.
Section Group.
Variables (Q : item -> Prop) (q : item -> bool).
Hypothesis Qq : forall i, q i = true <-> Q i.
Lemma own_q own : (forall i, own i = true <-> Q i) -> forall i, own i = q i.
Proof. intros O i. apply ProofAdds.same_bool. now rewrite O, Qq. Qed.
Lemma group_own c k n : ~ of_section c -> group_bytes Q c k n <-> own_bytes q c k n.
Proof.
  intros N. assert (H : (exists own, (forall i, own i = true <-> Q i) /\ own_bytes own c k n) <-> own_bytes q c k n).
  { split; [|intros H; exists q; now split]. intros (own & O & H). apply (ProofGroup.own_ext own); [|exact H]. intros j _. now apply own_q. }
  destruct c; [exact H|exact H|]. exfalso. apply N. exact Logic.I.
Qed.
(** a section's share is the sum over the output sections with the abbreviated name *)
Lemma sect_parts T B k n : group_bytes Q (ColSect T B) k n ->
  forall d keep, (forall N x, d N x = true <-> byte_goes (ac_types k) N x T) -> (forall o, keep o = true <-> counted (ac_im k) o) ->
  n = zsumf (fun o => zsumf (fun i => bytes_with (d (pr_name o)) (it_addr i) (it_size i)) (filter q (pr_items o))) (filter (fun o => keep o && (abbrev (pr_name o) =?= B)) (ac_l k)).
Proof.
  intros (own & O & keep' & b & K' & B' & ->) d keep D K.
  rewrite (same_filter keep' (fun o => keep o && (abbrev (pr_name o) =?= B))).
  2:{ intros o. apply ProofAdds.same_bool. rewrite K', andb_true_iff, K, keq_iff, label_abbrev. reflexivity. }
  apply zsumf_ext. intros o _. rewrite (same_filter own q) by (apply own_q, O). apply zsumf_ext. intros i _. apply same_count. intros y. apply ProofAdds.same_bool. rewrite B', D. reflexivity.
Qed.
Lemma group_value c k : exists n, group_bytes Q c k n.
Proof.
  destruct c as [|T|T B].
  1,2: destruct (own_value q ColTotal k) as (n & H) || idtac.
  - exists n. now apply group_own.
  - destruct (own_value q (ColType T) k) as (m & H'). exists m. apply group_own; [intros []|exact H'].
  - destruct (counted_decided (ac_im k)) as (keep & K). destruct (goes_decided (ac_types k)) as (d & D). eexists. exists q. split; [exact Qq|].
    exists (fun o => keep o && (abbrev (pr_name o) =?= B)), (fun o x => d (pr_name o) x T). split; [|split; [intros; apply D|reflexivity]].
    intros o. rewrite andb_true_iff, K, keq_iff, label_abbrev. reflexivity.
Qed.
Lemma group_unique c k n n' : group_bytes Q c k n -> group_bytes Q c k n' -> n = n'.
Proof.
  intros H H'. destruct c as [|T|T B].
  - apply group_own in H, H'; try (intros []; fail). exact (own_unique _ _ _ _ _ H H').
  - apply group_own in H, H'; try (intros []; fail). exact (own_unique _ _ _ _ _ H H').
  - destruct (counted_decided (ac_im k)) as (keep & K). destruct (goes_decided (ac_types k)) as (d & D).
    assert (D' : forall N x, d N x T = true <-> byte_goes (ac_types k) N x T) by (intros; apply D).
    rewrite (sect_parts _ _ _ _ H (fun N x => d N x T) keep D' K). symmetry. exact (sect_parts _ _ _ _ H' (fun N x => d N x T) keep D' K).
Qed.
Lemma group_nonzero a c k n : sound k -> group_bytes Q c k n -> n <> 0 -> clisted a c k /\ exists i, places i k /\ Q i.
Proof.
  intros Sk H N0. destruct c as [|T|T B].
  - apply group_own in H; [|intros []]. destruct (own_nonzero _ _ _ _ a Sk H N0) as (L & i & P & O). split; [exact L|]. exists i. split; [exact P|now apply Qq].
  - apply group_own in H; [|intros []]. destruct (own_nonzero _ _ _ _ a Sk H N0) as (L & i & P & O). split; [exact L|]. exists i. split; [exact P|now apply Qq].
  - destruct (counted_decided (ac_im k)) as (keep & K). destruct (goes_decided (ac_types k)) as (d & D).
    assert (D' : forall N x, d N x T = true <-> byte_goes (ac_types k) N x T) by (intros; apply D).
    rewrite (sect_parts _ _ _ _ H (fun N x => d N x T) keep D' K) in N0.
    apply zsumf_nz in N0. destruct N0 as (o & Io & N0). apply filter_In in Io. destruct Io as (Io & Ko). rewrite andb_true_iff, keq_iff in Ko. destruct Ko as (Ko & Eo).
    destruct (own_value q (ColSect T (pr_name o)) k) as (m & M). assert (M0 : m <> 0).
    { pose proof M as (keep' & b & K' & B' & ->). intros Z0. apply N0.
      assert (E : zsumf (fun i => bytes_with (fun x => d (pr_name o) x T) (it_addr i) (it_size i)) (filter q (pr_items o)) = zsumf (fun i => bytes_with b (it_addr i) (it_size i)) (filter q (pr_items o))).
      { apply zsumf_ext. intros i _. apply same_count. intros y. apply ProofAdds.same_bool. rewrite B', D'. reflexivity. }
      rewrite E. destruct (Z.eq_dec (zsumf (fun i => bytes_with b (it_addr i) (it_size i)) (filter q (pr_items o))) 0) as [X|X]; [exact X|exfalso].
      assert (Pn : forall l, 0 <= zsumf (fun i => bytes_with b (it_addr i) (it_size i)) l).
      { induction l as [|i l IH]; [reflexivity|]. rewrite zsumf_cons. pose proof (bytes_nonneg b (it_addr i) (it_size i)). lia. }
      assert (0 < zsumf (fun o0 => zsumf (fun i => bytes_with b (it_addr i) (it_size i)) (filter q (pr_items o0))) (filter keep' (ac_l k))); [|lia].
      apply (zsumf_pos _ _ o); [intros; apply Pn|apply filter_In; split; [exact Io|apply K'; split; [now apply K|reflexivity]]|]. pose proof (Pn (filter q (pr_items o))). lia. }
    destruct (own_nonzero _ _ _ _ a Sk M M0) as ((L1 & L2) & i & P & O). split; [|exists i; split; [exact P|now apply Qq]].
    split; [exact L1|]. exists (pr_name o). split; [now apply label_abbrev|exact L2].
Qed.
End Group.

(** ** rows by name *)
Section Named.
Variables (name : str -> item -> Prop) (a : args) (good : str -> col -> Prop).
Hypothesis named_dec : forall n, exists q, forall i, q i = true <-> name n i.
Hypothesis good_total : forall n, good n ColTotal.
Definition has (n : str) (k : account) : Prop := exists i, places i k /\ name n i.
Definition nrows (df : Z * Z -> Prop) (k : account) (r : option account) (rows : dict str sentry) : Prop :=
  (forall n, In n (map fst rows) <-> present k r (has n) /\ exists v, measured k r (group_bytes (name n) ColTotal) v /\ df v) /\
  forall n e c, In (n, e) rows -> good n c ->
    measured k r (group_bytes (name n) c) (col_value e c) \/ (~ present k r (clisted a c) /\ col_value e c = (0, 0)).
Lemma n_value n c k : exists x, group_bytes (name n) c k x.
Proof. destruct (named_dec n) as (q & Hq). exact (group_value _ q Hq c k). Qed.
Lemma n_one n c k x y : group_bytes (name n) c k x -> group_bytes (name n) c k y -> x = y.
Proof. destruct (named_dec n) as (q & Hq). exact (group_unique _ q Hq c k x y). Qed.
Lemma n_nz n c k x : sound k -> group_bytes (name n) c k x -> x <> 0 -> clisted a c k /\ has n k.
Proof. destruct (named_dec n) as (q & Hq). exact (group_nonzero _ q Hq a c k x). Qed.
Definition everything (_ : Z * Z) : Prop := True.
Definition changes (v : Z * Z) : Prop := a_show_unchanged a = false -> snd v <> 0.

Lemma alone_figure k rows n c v x : nrows everything k None rows -> sound k -> good n c -> figure rows n c v -> group_bytes (name n) c k x -> v = (x, 0).
Proof.
  intros (K & R) Sk G F X. destruct F as [(e & I & ->)|(N & ->)].
  - destruct (R n e c I G) as [(M1 & M2)|(L & ->)].
    + rewrite (n_one _ _ _ _ _ X M1). destruct (col_value e c) as (s0 & d0). cbn in *. now rewrite M2.
    + destruct (Z.eq_dec x 0) as [->|Z0]; [reflexivity|]. exfalso. apply L. left. exact (proj1 (n_nz _ _ _ _ Sk X Z0)).
  - destruct (Z.eq_dec x 0) as [->|Z0]; [reflexivity|]. exfalso. apply N, K. split; [left; exact (proj2 (n_nz _ _ _ _ Sk X Z0))|].
    destruct (n_value n ColTotal k) as (y & Y). exists (y, 0). split; [now split|exact Logic.I].
Qed.
Lemma alone_names k rows n : nrows everything k None rows -> In n (map fst rows) <-> has n k.
Proof.
  intros (K & _). rewrite K. split; [intros ([H|[]] & _); exact H|]. intros H. split; [now left|]. destruct (n_value n ColTotal k) as (y & Y). exists (y, 0). split; [now split|exact Logic.I].
Qed.
Lemma both_row k r rows n e c x y : nrows changes k (Some r) rows -> sound k -> sound r -> good n c -> In (n, e) rows ->
  group_bytes (name n) c k x -> group_bytes (name n) c r y -> col_value e c = (x, x - y).
Proof.
  intros (K & R) Sk Sr G I X Y. destruct (R n e c I G) as [(M1 & z & M2 & M3)|(L & ->)].
  - destruct (col_value e c) as (s0 & d0). cbn [fst snd] in *. rewrite M3. now rewrite (n_one _ _ _ _ _ X M1), (n_one _ _ _ _ _ Y M2).
  - assert (x = 0) as ->. { destruct (Z.eq_dec x 0) as [Z0|Z0]; [exact Z0|]. exfalso. apply L. left. exact (proj1 (n_nz _ _ _ _ Sk X Z0)). }
    assert (y = 0) as ->. { destruct (Z.eq_dec y 0) as [Z0|Z0]; [exact Z0|]. exfalso. apply L. right. exact (proj1 (n_nz _ _ _ _ Sr Y Z0)). }
    reflexivity.
Qed.
Lemma both_names k r rows n x y : nrows changes k (Some r) rows -> group_bytes (name n) ColTotal k x -> group_bytes (name n) ColTotal r y ->
  In n (map fst rows) <-> (has n k \/ has n r) /\ (a_show_unchanged a = true \/ x <> y).
Proof.
  intros (K & _) X Y. rewrite K. split.
  - intros (P & v & (M1 & z & M2 & M3) & D). split; [exact P|]. destruct (a_show_unchanged a) eqn:U; [now left|]. right. specialize (D U). rewrite (n_one _ _ _ _ _ X M1), (n_one _ _ _ _ _ Y M2). lia.
  - intros (P & D). split; [exact P|]. exists (x, x - y). split; [split; [exact X|exists y; now split]|]. intros U. cbn [snd]. destruct D as [D|D]; [congruence|lia].
Qed.
(** what is not listed is the same; it is nothing if everything is listed *)
Lemma both_none k r rows n x y : nrows changes k (Some r) rows -> sound k -> sound r -> ~ In n (map fst rows) -> group_bytes (name n) ColTotal k x -> group_bytes (name n) ColTotal r y ->
  x = y /\ (a_show_unchanged a = true -> ~ has n k /\ ~ has n r).
Proof.
  intros R Sk Sr N X Y. rewrite (both_names k r rows n x y R X Y) in N. split.
  - destruct (Z.eq_dec x y) as [E|E]; [exact E|]. exfalso. apply N. split; [|now right].
    destruct (Z.eq_dec x 0) as [->|Z0]; [right; apply (n_nz _ _ _ _ Sr Y); congruence|left; exact (proj2 (n_nz _ _ _ _ Sk X Z0))].
  - intros U. split; intros H; apply N; tauto.
Qed.
Lemma both_figure k r rows n c v x y : nrows changes k (Some r) rows -> sound k -> sound r -> good n c -> figure rows n c v -> group_bytes (name n) c k x -> group_bytes (name n) c r y ->
  (c = ColTotal -> snd v = x - y) /\ (a_show_unchanged a = true -> v = (x, x - y)).
Proof.
  intros R Sk Sr G F X Y. destruct F as [(e & I & ->)|(N & ->)].
  - rewrite (both_row k r rows n e c x y R Sk Sr G I X Y). now split.
  - destruct (n_value n ColTotal k) as (x' & X'). destruct (n_value n ColTotal r) as (y' & Y'). destruct (both_none k r rows n x' y' R Sk Sr N X' Y') as (E & A). split.
    + intros ->. rewrite (n_one _ _ _ _ _ X X'), (n_one _ _ _ _ _ Y Y'), E. cbn [snd]. lia.
    + intros U. destruct (A U) as (A1 & A2).
      assert (x = 0) as ->. { destruct (Z.eq_dec x 0) as [Z0|Z0]; [exact Z0|]. exfalso. apply A1. exact (proj2 (n_nz _ _ _ _ Sk X Z0)). }
      assert (y = 0) as ->. { destruct (Z.eq_dec y 0) as [Z0|Z0]; [exact Z0|]. exfalso. apply A2. exact (proj2 (n_nz _ _ _ _ Sr Y Z0)). }
      reflexivity.
Qed.
Lemma some_figure (rows : dict str sentry) n c : exists v, figure rows n c v.
Proof.
  destruct (dget n rows) as [e|] eqn:E; [exists (col_value e c); left; exists e; split; [now apply dget_some|reflexivity]|exists (0, 0); right; split; [now apply dget_none|reflexivity]].
Qed.
Lemma compares_named k r new old both : nrows everything k None new -> nrows everything r None old -> nrows changes k (Some r) both -> sound k -> sound r -> compares_in good a new old both.
Proof.
  intros Rn Ro Rb Sk Sr. split.
  - intros n. destruct (n_value n ColTotal k) as (x & X). destruct (n_value n ColTotal r) as (y & Y).
    rewrite (both_names k r both n x y Rb X Y), (alone_names k new n Rn), (alone_names r old n Ro).
    assert (E : a_show_unchanged a = true \/ x <> y <-> a_show_unchanged a = true \/ forall v w, figure new n ColTotal v -> figure old n ColTotal w -> fst v <> fst w).
    { split; (intros [U|D]; [now left|right]).
      - intros v w F F'. now rewrite (alone_figure k new n ColTotal v x Rn Sk (good_total n) F X), (alone_figure r old n ColTotal w y Ro Sr (good_total n) F' Y).
      - destruct (some_figure new n ColTotal) as (v & F), (some_figure old n ColTotal) as (w & F'). specialize (D v w F F').
        now rewrite (alone_figure k new n ColTotal v x Rn Sk (good_total n) F X), (alone_figure r old n ColTotal w y Ro Sr (good_total n) F' Y) in D. }
    rewrite E. reflexivity.
  - intros n e c v w G I F F'. destruct (n_value n c k) as (x & X). destruct (n_value n c r) as (y & Y).
    rewrite (both_row k r both n e c x y Rb Sk Sr G I X Y), (alone_figure k new n c v x Rn Sk G F X), (alone_figure r old n c w y Ro Sr G F' Y). reflexivity.
Qed.
Lemma turned_named k r rows rows' : nrows changes k (Some r) rows -> nrows changes r (Some k) rows' -> sound k -> sound r -> turned_in good rows rows'.
Proof.
  intros R R' Sk Sr.
  assert (Nm : forall n, In n (map fst rows) <-> In n (map fst rows')).
  { intros n. destruct (n_value n ColTotal k) as (x & X). destruct (n_value n ColTotal r) as (y & Y). rewrite (both_names k r rows n x y R X Y), (both_names r k rows' n y x R' Y X). intuition congruence. }
  split; [exact Nm|]. intros n c v v' G F F'. destruct (n_value n c k) as (x & X). destruct (n_value n c r) as (y & Y). destruct F as [(e & I & ->)|(N & ->)], F' as [(e' & I' & ->)|(N' & ->)].
  - rewrite (both_row k r rows n e c x y R Sk Sr G I X Y), (both_row r k rows' n e' c y x R' Sr Sk G I' Y X). cbn [fst snd]. f_equal; lia.
  - exfalso. apply N', Nm. exact (List.in_map fst _ _ I).
  - exfalso. apply N, Nm. exact (List.in_map fst _ _ I').
  - reflexivity.
Qed.
Lemma steps_named k1 k2 k3 rows rows' all : nrows changes k1 (Some k2) rows -> nrows changes k2 (Some k3) rows' -> nrows changes k1 (Some k3) all -> sound k1 -> sound k2 -> sound k3 -> steps_in good a rows rows' all.
Proof.
  intros R R' Ra S1 S2 S3 n c v v' w G Hc F F' Fa. destruct (n_value n c k1) as (x & X). destruct (n_value n c k2) as (y & Y). destruct (n_value n c k3) as (z & Zz).
  destruct (both_figure k1 k2 rows n c v x y R S1 S2 G F X Y) as (A1 & A2).
  destruct (both_figure k2 k3 rows' n c v' y z R' S2 S3 G F' Y Zz) as (B1 & B2).
  destruct (both_figure k1 k3 all n c w x z Ra S1 S3 G Fa X Zz) as (C1 & C2).
  split.
  - destruct Hc as [Hc|Hc]; [rewrite (A1 Hc), (B1 Hc), (C1 Hc); lia|]. rewrite (A2 Hc), (B2 Hc), (C2 Hc). cbn [snd]. lia.
  - intros U. rewrite (A2 U), (C2 U). reflexivity.
Qed.
End Named.
