From Coq Require Import Ascii String List ZArith Bool Lia Sorting.Sorted Permutation.
From Verif Require Import Base MemMap SpecTree Pipeline PyStr SpecPipe SpecBuild SpecBytes ProofBytes ProofExpand.
Import ListNotations.
Open Scope list_scope.
Open Scope Z_scope.

(** ** the pieces of an input section *)
Definition behind (p q : Z * asym) : Prop := fst p + av_size (snd p) <= fst q.
Definition sized (p : Z * asym) : Prop := av_value (snd p) = fst p /\ 0 < av_size (snd p).
Definition inb (i : isection) (p : Z * asym) : bool := (i_addr i <=? fst p) && (fst p <? i_addr i + i_size i).
(** what the loop needs *)
Definition ready (L : dict Z asym) (i : isection) : Prop :=
  StronglySorted behind L /\ Forall sized L /\ 0 <= i_size i /\ i_archive i = EXE /\
  (exists p, In p L /\ i_addr i + i_size i <= fst p) /\
  (forall p, In p L -> inb i p = true -> fst p + av_size (snd p) <= i_addr i + i_size i).

Lemma inb_spec i p : inb i p = true <-> i_addr i <= fst p < i_addr i + i_size i.
Proof. unfold inb. rewrite andb_true_iff, Z.leb_le, Z.ltb_lt. reflexivity. Qed.
Lemma ready_tail p L i : ready (p :: L) i -> fst p < i_addr i + i_size i -> ready L i.
Proof.
  intros (S0 & F & Z0 & A & (q & Iq & Q) & E) Lt. inversion S0; subst. inversion F; subst. split; [assumption|]. split; [assumption|]. split; [exact Z0|]. split; [exact A|].
  split; [destruct Iq as [<-|Iq]; [lia|now exists q]|]. intros r Ir. apply E. now right.
Qed.
Lemma ready_move L i n : ready L i -> 0 <= n <= i_size i -> ready L (move_isec i n).
Proof.
  intros (S0 & F & Z0 & A & (q & Iq & Q) & E) N. split; [exact S0|]. split; [exact F|]. cbn [move_isec i_size i_addr i_archive].
  split; [lia|]. split; [exact A|]. split; [exists q; split; [exact Iq|lia]|].
  intros r Ir B. apply inb_spec in B. cbn [move_isec i_size i_addr] in B. specialize (E r Ir). rewrite inb_spec in E. lia.
Qed.
(** symbols behind the first one are in what is left if they were in it before *)
Lemma inb_moved p L i n : StronglySorted behind (p :: L) -> i_addr i + n = fst p + av_size (snd p) -> 0 <= n -> forall q, In q L -> inb (move_isec i n) q = inb i q.
Proof.
  intros S0 N Nn q Iq. inversion S0 as [|? ? _ F]; subst. rewrite Forall_forall in F. specialize (F q Iq). unfold behind in F.
  unfold inb. cbn [move_isec i_addr i_size]. replace (i_addr i + n + (i_size i - n)) with (i_addr i + i_size i) by lia.
  replace (i_addr i + n <=? fst q) with true by (symmetry; apply Z.leb_le; lia). now replace (i_addr i <=? fst q) with true by (symmetry; apply Z.leb_le; lia).
Qed.

(** ** weights *)
Section Weight.
Variables (P : Z -> bool) (f : str -> str -> bool).
Definition weight (p : isection) : Z := if f (i_archive p) (i_object p) then bytes_with P (i_addr p) (i_size p) else 0.
Definition sbytes (p : Z * asym) : Z := bytes_with P (fst p) (av_size (snd p)).
Definition sweight (p : Z * asym) : Z := if f (av_archive (snd p)) (av_object (snd p)) then sbytes p else 0.
Definition left_over (L : dict Z asym) (i : isection) : Z :=
  (if f EXE (i_object i) then bytes_with P (i_addr i) (i_size i) - zsumf sbytes (filter (inb i) L) else 0) + zsumf sweight (filter (inb i) L).

Lemma weight_set_last g acc : zsumf weight (set_last_fill g acc) = zsumf weight acc.
Proof.
  unfold set_last_fill. rewrite <- (rev_involutive acc) at 2. destruct (rev acc) as [|i l]; [reflexivity|]. cbn [rev].
  rewrite !zsumf_app, !zsumf_cons, !zsumf_nil. reflexivity.
Qed.
Lemma weight_sym a y : sized (a, y) -> weight (isec_of_asym y) = sweight (a, y).
Proof. intros (V & _). unfold weight, sweight, sbytes, isec_of_asym. cbn [i_archive i_object i_addr i_size fst snd] in *. now rewrite V. Qed.
Lemma filter_none L i : (forall q, In q L -> i_addr i + i_size i <= fst q) -> filter (inb i) L = [].
Proof.
  intros H. induction L as [|q L IH]; [reflexivity|]. cbn [filter]. replace (inb i q) with false; [apply IH; intros; apply H; now right|].
  symmetry. apply not_true_iff_false. rewrite inb_spec. specialize (H q (or_introl eq_refl)). lia.
Qed.
Lemma filter_same (g h : Z * asym -> bool) L : (forall q, In q L -> g q = h q) -> filter g L = filter h L.
Proof. intros H. induction L as [|q L IH]; [reflexivity|]. cbn [filter]. rewrite (H q (or_introl eq_refl)), IH; [reflexivity|]. intros. apply H. now right. Qed.

Lemma expand_weight : forall L i acc, ready L i -> zsumf weight (expand_isec L i acc) = zsumf weight acc + left_over L i.
Proof.
  induction L as [|[a y] L IH]; intros i acc R.
  { destruct R as (_ & _ & _ & _ & (? & [] & _) & _). }
  pose proof R as (S0 & F & Z0 & A & Q & E). pose proof (Forall_inv F) as Sz. destruct (Sz) as (V & Pz). cbn [fst snd] in V, Pz.
  cbn [expand_isec]. destruct (Z.ltb_spec a (i_addr i)) as [L1|L1].
  { rewrite IH by (apply (ready_tail _ _ _ R); cbn [fst]; lia). unfold left_over. cbn [filter].
    replace (inb i (a, y)) with false; [reflexivity|]. symmetry. apply not_true_iff_false. rewrite inb_spec. cbn [fst]. lia. }
  assert (Step : a < i_addr i + i_size i -> forall acc', zsumf weight acc' = zsumf weight acc + weight (resize_isec i (a - i_addr i) EXE) + sweight (a, y) ->
    zsumf weight (expand_isec L (move_isec (move_isec i (a - i_addr i)) (av_size y)) acc') = zsumf weight acc + left_over ((a, y) :: L) i).
  { intros L2 acc' Ea. assert (B : inb i (a, y) = true) by (rewrite inb_spec; cbn [fst]; lia).
    pose proof (E (a, y) (or_introl eq_refl) B) as En. cbn [fst snd] in En.
    assert (Rm : ready L (move_isec (move_isec i (a - i_addr i)) (av_size y))).
    { apply ready_move; [apply ready_move; [apply (ready_tail _ _ _ R); cbn [fst]; lia|lia]|cbn [move_isec i_size]; lia]. }
    rewrite IH by exact Rm. rewrite Ea. unfold left_over. cbn [filter]. rewrite B.
    assert (Same : filter (inb (move_isec (move_isec i (a - i_addr i)) (av_size y))) L = filter (inb i) L).
    { apply filter_same. intros q Iq. rewrite (inb_moved (a, y) L (move_isec i (a - i_addr i)) (av_size y) S0) by (cbn; lia || exact Iq).
      unfold inb. cbn [move_isec i_addr i_size]. replace (i_addr i + (a - i_addr i) + (i_size i - (a - i_addr i))) with (i_addr i + i_size i) by lia.
      pose proof (StronglySorted_inv S0) as (_ & Fb). rewrite Forall_forall in Fb. specialize (Fb q Iq). unfold behind in Fb. cbn [fst snd] in Fb.
      replace (i_addr i + (a - i_addr i) <=? fst q) with true by (symmetry; apply Z.leb_le; lia). now replace (i_addr i <=? fst q) with true by (symmetry; apply Z.leb_le; lia). }
    rewrite Same, !zsumf_cons. cbn [move_isec i_object i_addr i_size]. unfold weight at 2. cbn [resize_isec i_archive i_object i_addr i_size].
    unfold sbytes at 2. cbn [fst snd]. destruct (f EXE (i_object i)); [|lia].
    replace (i_addr i + (a - i_addr i) + av_size y) with (a + av_size y) by lia.
    assert (Bi : bytes_with P (i_addr i) (i_size i) = bytes_with P (i_addr i) (a - i_addr i) + (bytes_with P a (av_size y) + bytes_with P (a + av_size y) (i_size i - (a - i_addr i) - av_size y))).
    { rewrite <- bytes_app by lia. set (k := a - i_addr i) in *. replace a with (i_addr i + k) by lia. rewrite <- bytes_app by lia. f_equal. lia. }
    rewrite Bi. lia. }
  destruct (Z.eqb_spec a (i_addr i)) as [Ea|Na]; [destruct (Z.eqb_spec (i_size i) 0) as [Zi|Nz]|]; cbn [andb negb].
  - replace (a <? i_addr i + i_size i) with false by (symmetry; apply Z.ltb_ge; lia).
    cbn [orb]. assert (W : left_over ((a, y) :: L) i = 0).
    { unfold left_over. rewrite filter_none, !zsumf_nil, bytes_none; [destruct (f EXE (i_object i)); lia|lia|].
      intros q [<-|Iq]; cbn [fst]; [lia|]. pose proof (StronglySorted_inv S0) as (_ & Fb). rewrite Forall_forall in Fb. specialize (Fb q Iq). unfold behind in Fb. cbn in Fb. lia. }
    rewrite W. destruct acc as [|x acc]; cbn [negb Z.eqb orb]; [|rewrite weight_set_last; lia].
    cbn [app]. rewrite zsumf_cons, zsumf_nil. unfold weight. rewrite bytes_none by lia. destruct (f _ _); lia.
  - assert (Mv : move_isec i (av_size y) = move_isec (move_isec i (a - i_addr i)) (av_size y)).
    { replace (a - i_addr i) with 0 by lia. unfold move_isec. cbn. f_equal; lia. }
    rewrite Mv. apply Step; [lia|]. rewrite zsumf_app, zsumf_cons, zsumf_nil, (weight_sym a y) by exact Sz. unfold weight at 3. cbn [resize_isec i_size i_addr i_archive i_object].
    rewrite (bytes_none P (i_addr i)) by lia. destruct (f _ _); lia.
  - destruct (Z.ltb_spec a (i_addr i + i_size i)) as [L2|L2].
    + rewrite V. apply Step; [exact L2|]. rewrite zsumf_app, !zsumf_cons, zsumf_nil, (weight_sym a y) by exact Sz. lia.
    + assert (W : left_over ((a, y) :: L) i = weight i).
      { unfold left_over. rewrite filter_none, !zsumf_nil by (intros q [<-|Iq]; cbn [fst]; [lia|]; pose proof (StronglySorted_inv S0) as (_ & Fb); rewrite Forall_forall in Fb; specialize (Fb q Iq); unfold behind in Fb; cbn in Fb; lia).
        unfold weight. rewrite A. destruct (f EXE (i_object i)); lia. }
      rewrite W. destruct (negb (i_size i =? 0) || _) eqn:B.
      * rewrite zsumf_app, zsumf_cons, zsumf_nil. lia.
      * rewrite weight_set_last. apply orb_false_iff in B. destruct B as (B & _). apply negb_false_iff, Z.eqb_eq in B. unfold weight. rewrite bytes_none by lia. destruct (f _ _); lia.
Qed.

(** ** of an output section *)
Definition item_weight (L : dict Z asym) (i : isection) : Z := if i_archive i =?= EXE then left_over L i else weight i.
Lemma expand_osec_weight L s : (forall i, In i (o_isecs s) -> i_archive i = EXE -> ready L i) ->
  zsumf weight (o_isecs (expand_osec L s)) = zsumf (item_weight L) (o_isecs s).
Proof.
  unfold expand_osec. cbn [set_isecs o_isecs]. intros H.
  assert (G : forall l acc, (forall i, In i l -> i_archive i = EXE -> ready L i) ->
    zsumf weight (fold_left (fun acc i => if negb (i_archive i =?= EXE) then acc ++ [i] else expand_isec L i acc) l acc) = zsumf weight acc + zsumf (item_weight L) l).
  { induction l as [|i l IH]; intros acc Hl; cbn [fold_left]; [rewrite zsumf_nil; lia|]. rewrite IH by (intros; apply Hl; [now right|assumption]).
    rewrite zsumf_cons. unfold item_weight at 2. destruct (keqP (i_archive i) EXE) as [E|E]; cbn [negb].
    - rewrite expand_weight by (apply Hl; [now left|exact E]). lia.
    - rewrite zsumf_app, zsumf_cons, zsumf_nil. lia. }
  rewrite G by exact H. rewrite zsumf_nil. reflexivity.
Qed.
End Weight.

(** ** what holds of all pieces *)
Definition refill (i : isection) (g : Z) : isection := ISection (i_name i) (i_addr i) (i_size i) g (i_archive i) (i_object i) (i_symbols i).
Section Pieces.
Variable Q : isection -> Prop.
Hypothesis Qf : forall j g, Q j -> 0 <= g -> Q (refill j g).
Lemma all_set_last g acc : Forall Q acc -> 0 <= g -> Forall Q (set_last_fill g acc).
Proof.
  unfold set_last_fill. rewrite <- (rev_involutive acc) at 1. destruct (rev acc) as [|i l]; [constructor|]. cbn [rev]. intros F G.
  apply Forall_app in F. destruct F as (F1 & F2). apply Forall_app. split; [exact F1|]. constructor; [|constructor]. exact (Qf i g (Forall_inv F2) G).
Qed.
Lemma expand_all i0 : 0 <= i_fill i0 -> forall L i acc, ready L i -> i_object i = i_object i0 -> i_fill i = i_fill i0 -> i_addr i0 <= i_addr i -> i_addr i + i_size i = i_addr i0 + i_size i0 ->
  (forall j, i_archive j = EXE -> i_object j = i_object i0 -> i_addr i0 <= i_addr j -> 0 <= i_size j -> i_addr j + i_size j <= i_addr i0 + i_size i0 -> 0 <= i_fill j -> Q j) ->
  (forall p, In p L -> sized p -> inb i0 p = true -> fst p + av_size (snd p) <= i_addr i0 + i_size i0 -> Q (isec_of_asym (snd p))) ->
  Forall Q acc -> Forall Q (expand_isec L i acc).
Proof.
  intros Fi. induction L as [|[a y] L IH]; intros i acc R Ho Hf Ha He Qe Qs Fa.
  { destruct R as (_ & _ & _ & _ & (? & [] & _) & _). }
  pose proof R as (S0 & F & Z0 & A & Q0 & E). pose proof (Forall_inv F) as Sz. destruct (Sz) as (V & Pz). cbn [fst snd] in V, Pz.
  assert (Qs' : forall p, In p L -> sized p -> inb i0 p = true -> fst p + av_size (snd p) <= i_addr i0 + i_size i0 -> Q (isec_of_asym (snd p))) by (intros p Ip; apply Qs; now right).
  assert (Qy : i_addr i <= a < i_addr i + i_size i -> a + av_size y <= i_addr i0 + i_size i0 /\ Q (isec_of_asym y)).
  { intros B. assert (B' : inb i (a, y) = true) by (rewrite inb_spec; exact B). pose proof (E (a, y) (or_introl eq_refl) B') as En. cbn [fst snd] in En.
    split; [lia|]. apply (Qs (a, y)); [now left|exact Sz|rewrite inb_spec; cbn [fst]; lia|cbn [fst snd]; lia]. }
  assert (Qi : Q i) by (apply Qe; try assumption; lia).
  cbn [expand_isec]. destruct (Z.ltb_spec a (i_addr i)) as [L1|L1].
  { apply IH; try assumption. apply (ready_tail _ _ _ R). cbn [fst]. lia. }
  assert (Rm : a < i_addr i + i_size i -> ready L (move_isec (move_isec i (a - i_addr i)) (av_size y))).
  { intros L2. destruct (Qy (conj L1 L2)) as (En & _). apply ready_move; [apply ready_move; [apply (ready_tail _ _ _ R); cbn [fst]; lia|lia]|cbn [move_isec i_size]; lia]. }
  destruct ((a =? i_addr i) && negb (i_size i =? 0)) eqn:B1.
  { apply andb_true_iff in B1. destruct B1 as (B1 & B2). apply Z.eqb_eq in B1. apply negb_true_iff, Z.eqb_neq in B2.
    assert (L2 : a < i_addr i + i_size i) by lia. destruct (Qy (conj L1 L2)) as (En & Qy').
    assert (Mv : move_isec i (av_size y) = move_isec (move_isec i (a - i_addr i)) (av_size y)).
    { replace (a - i_addr i) with 0 by lia. unfold move_isec. cbn. f_equal; lia. }
    rewrite Mv. apply IH; try assumption; try (cbn; lia); [apply Rm, L2|]. apply Forall_app. split; [exact Fa|]. constructor; [exact Qy'|constructor]. }
  destruct (Z.ltb_spec a (i_addr i + i_size i)) as [L2|L2].
  { destruct (Qy (conj L1 L2)) as (En & Qy'). rewrite V. apply IH; try assumption; try (cbn; lia); [apply Rm, L2|].
    apply Forall_app. split; [exact Fa|]. constructor; [|constructor; [exact Qy'|constructor]]. apply Qe; cbn [resize_isec i_archive i_object i_addr i_size i_fill]; try assumption; try reflexivity; lia. }
  destruct (negb (i_size i =? 0) || _).
  - apply Forall_app. split; [exact Fa|]. constructor; [exact Qi|constructor].
  - apply all_set_last; [exact Fa|lia].
Qed.
Lemma expand_osec_all L s : 
  (forall i, In i (o_isecs s) -> 0 <= i_fill i /\ (i_archive i = EXE -> ready L i)) ->
  (forall i, In i (o_isecs s) -> i_archive i <> EXE -> Q i) ->
  (forall i j, In i (o_isecs s) -> i_archive i = EXE -> i_archive j = EXE -> i_object j = i_object i -> i_addr i <= i_addr j -> 0 <= i_size j -> i_addr j + i_size j <= i_addr i + i_size i -> 0 <= i_fill j -> Q j) ->
  (forall i p, In i (o_isecs s) -> i_archive i = EXE -> In p L -> sized p -> inb i p = true -> fst p + av_size (snd p) <= i_addr i + i_size i -> Q (isec_of_asym (snd p))) ->
  Forall Q (o_isecs (expand_osec L s)).
Proof.
  unfold expand_osec. cbn [set_isecs o_isecs]. intros H1 H2 H3 H4.
  assert (G : forall l acc, (forall i, In i l -> In i (o_isecs s)) -> Forall Q acc ->
    Forall Q (fold_left (fun acc i => if negb (i_archive i =?= EXE) then acc ++ [i] else expand_isec L i acc) l acc)).
  { induction l as [|i l IH]; intros acc Sub Fa; cbn [fold_left]; [exact Fa|]. apply IH; [intros; apply Sub; now right|].
    assert (Ii : In i (o_isecs s)) by (apply Sub; now left). destruct (H1 i Ii) as (Fi & Re). destruct (keqP (i_archive i) EXE) as [E|E]; cbn [negb].
    - apply (expand_all i Fi); auto; try lia; eauto.
    - apply Forall_app. split; [exact Fa|]. constructor; [auto|constructor]. }
  apply G; [auto|constructor].
Qed.
End Pieces.
