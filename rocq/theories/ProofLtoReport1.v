From Coq Require Import Ascii String List ZArith Bool Lia Sorting.Sorted Permutation.
From Verif Require Import Base MemMap SpecTree Pipeline PyStr SpecPipe SpecBuild SpecBytes ProofBytes ProofExpand Project SpecProject SpecShape SpecOwner MapFile SpecMap SpecEnd SpecLto ProofLto1 ProofLto2 ProofLto4
  ElfRead SpecElf Dwarf SpecDwarf SpecDebug SpecPath Chips Deps Table SpecTable Formats Main SpecMain SpecCommand SpecFail SpecReport SpecLto2 SpecLtoReport.
Import ListNotations.
Open Scope list_scope.
Open Scope Z_scope.

(** ** input sections as items *)
Definition core (j : isection) : item := Item (i_name j) (i_addr j) (i_size j) (i_archive j) (i_object j) [].
Definition back (s : osection) : printed := Printed (o_name s) (o_addr s) (o_size s) (map core (o_isecs s)).
Lemma core_set_last g l : map core (set_last_fill g l) = map core l.
Proof.
  unfold set_last_fill. rewrite <- (rev_involutive l) at 2. destruct (rev l) as [|i r]; [reflexivity|]. cbn [rev]. rewrite !map_app. reflexivity.
Qed.
Lemma one_bound js : forall a e, one_after_other a js e -> a <= e /\ Forall (fun j => a <= it_addr j /\ it_addr j + it_size j <= e /\ 0 <= it_size j) js.
Proof.
  induction js as [|j r IH]; cbn [one_after_other]; intros a e H; [split; [lia|constructor]|]. destruct H as (A & Z0 & H). destruct (IH _ _ H) as (L & F).
  split; [lia|]. constructor; [lia|]. eapply Forall_impl; [|exact F]. cbn beta. intros x Hx. lia.
Qed.
Lemma one_covers js : forall a e, one_after_other a js e -> forall x, a <= x < e -> exists j, In j js /\ it_addr j <= x < it_addr j + it_size j.
Proof.
  induction js as [|j r IH]; cbn [one_after_other]; intros a e H x Hx; [lia|]. destruct H as (A & Z0 & H).
  destruct (Z.lt_ge_cases x (a + it_size j)) as [L|L]; [exists j; split; [now left|lia]|]. destruct (IH _ _ H x) as (k & Ik & Hk); [lia|]. exists k. split; [now right|exact Hk].
Qed.

(** ** the loop over the symbols *)
Definition from_symbol (L : dict Z asym) (i : isection) (j : item) : Prop :=
  exists p, In p L /\ inb i p = true /\ j = core (isec_of_asym (snd p)) /\ av_value (snd p) = fst p.
Definition from_rest (L : dict Z asym) (ob : str) (j : item) : Prop :=
  it_archive j = EXE /\ it_object j = ob /\ forall p, In p L -> ~ (it_addr j <= fst p < it_addr j + it_size j).
Lemma rest_cons a y L ob j : from_rest L ob j -> ~ (it_addr j <= a < it_addr j + it_size j) -> from_rest ((a, y) :: L) ob j.
Proof. intros (A & B & C) N. split; [exact A|]. split; [exact B|]. intros p [<-|Ip]; [exact N|now apply C]. Qed.

Lemma expand_apart : forall L i acc, ready L i -> exists js, map core (expand_isec L i acc) = map core acc ++ js /\
  one_after_other (i_addr i) js (i_addr i + i_size i) /\ Forall (fun j => from_symbol L i j \/ from_rest L (i_object i) j) js.
Proof.
  induction L as [|[a y] L IH]; intros i acc R.
  { destruct R as (_ & _ & _ & _ & (? & [] & _) & _). }
  pose proof R as (S0 & F & Z0 & A & Q & E). pose proof (Forall_inv F) as Sz. destruct (Sz) as (V & Pz). cbn [fst snd] in V, Pz.
  assert (Be : forall q, In q L -> a + av_size y <= fst q).
  { intros q Iq. pose proof (StronglySorted_inv S0) as (_ & Fb). rewrite Forall_forall in Fb. specialize (Fb q Iq). exact Fb. }
  cbn [expand_isec]. destruct (Z.ltb_spec a (i_addr i)) as [L1|L1].
  { destruct (IH i acc) as (js & J1 & J2 & J3); [apply (ready_tail _ _ _ R); cbn [fst]; lia|]. exists js. split; [exact J1|]. split; [exact J2|].
    destruct (one_bound _ _ _ J2) as (_ & Bd). rewrite Forall_forall in *. intros j Ij. destruct (J3 j Ij) as [(p & Ip & H)|H].
    - left. exists p. split; [now right|exact H].
    - right. apply rest_cons; [exact H|]. specialize (Bd j Ij). lia. }
  assert (Rm : a < i_addr i + i_size i -> ready L (move_isec (move_isec i (a - i_addr i)) (av_size y)) /\ a + av_size y <= i_addr i + i_size i).
  { intros L2. assert (B : inb i (a, y) = true) by (rewrite inb_spec; cbn [fst]; lia). pose proof (E (a, y) (or_introl eq_refl) B) as En. cbn [fst snd] in En. split; [|lia].
    apply ready_move; [apply ready_move; [apply (ready_tail _ _ _ R); cbn [fst]; lia|lia]|cbn [move_isec i_size]; lia]. }
  assert (Step : a < i_addr i + i_size i -> forall acc' new, map core acc' = map core acc ++ new -> (new = [core (isec_of_asym y)] /\ a = i_addr i \/ new = [core (resize_isec i (a - i_addr i) EXE); core (isec_of_asym y)]) ->
    exists js, map core (expand_isec L (move_isec (move_isec i (a - i_addr i)) (av_size y)) acc') = map core acc ++ js /\
      one_after_other (i_addr i) js (i_addr i + i_size i) /\ Forall (fun j => from_symbol ((a, y) :: L) i j \/ from_rest ((a, y) :: L) (i_object i) j) js).
  { intros L2 acc' new Ea En. destruct (Rm L2) as (R' & Le). destruct (IH _ acc' R') as (js & J1 & J2 & J3). cbn [move_isec i_addr i_size i_object] in J2, J3.
    replace (i_addr i + (a - i_addr i) + av_size y) with (a + av_size y) in J2 by lia.
    replace (a + av_size y + (i_size i - (a - i_addr i) - av_size y)) with (i_addr i + i_size i) in J2 by lia.
    exists (new ++ js). split; [rewrite J1, Ea, <- app_assoc; reflexivity|]. split.
    - destruct En as [(-> & Eq)| ->]; cbn [app one_after_other core isec_of_asym resize_isec it_addr it_size i_addr i_size]; rewrite V.
      + split; [exact Eq|]. split; [lia|]. rewrite Eq in J2; exact J2.
      + split; [reflexivity|]. split; [lia|]. split; [lia|]. split; [lia|]. now replace (i_addr i + (a - i_addr i) + av_size y) with (a + av_size y) by lia.
    - destruct (one_bound _ _ _ J2) as (_ & Bd). apply Forall_app. split.
      + assert (Py : from_symbol ((a, y) :: L) i (core (isec_of_asym y))).
        { exists (a, y). split; [now left|]. split; [rewrite inb_spec; cbn [fst]; lia|]. now split. }
        destruct En as [(-> & Eq)| ->]; [constructor; [now left|constructor]|]. constructor; [|constructor; [now left|constructor]].
        right. split; [reflexivity|]. split; [reflexivity|]. cbn [core resize_isec it_addr it_size i_addr i_size]. intros p [<-|Ip]; cbn [fst]; [lia|]. specialize (Be p Ip). lia.
      + rewrite Forall_forall in *. intros j Ij. destruct (J3 j Ij) as [(p & Ip & B & H)|H].
        * left. exists p. split; [now right|]. split; [|exact H]. apply inb_spec in B. cbn [move_isec i_addr i_size] in B. apply inb_spec. lia.
        * right. apply rest_cons; [exact H|]. specialize (Bd j Ij). lia. }
  destruct ((a =? i_addr i) && negb (i_size i =? 0)) eqn:B1.
  { apply andb_true_iff in B1. destruct B1 as (B1 & B2). apply Z.eqb_eq in B1. apply negb_true_iff, Z.eqb_neq in B2.
    assert (Mv : move_isec i (av_size y) = move_isec (move_isec i (a - i_addr i)) (av_size y)).
    { replace (a - i_addr i) with 0 by lia. unfold move_isec. cbn. f_equal; lia. }
    rewrite Mv. eapply Step; [lia|rewrite map_app; reflexivity|]. left. now split. }
  destruct (Z.ltb_spec a (i_addr i + i_size i)) as [L2|L2].
  { rewrite V. eapply Step; [lia|rewrite map_app; reflexivity|]. right. reflexivity. }
  destruct (negb (i_size i =? 0) || _) eqn:B2.
  - exists [core i]. split; [apply map_app|]. split; [cbn [one_after_other core it_addr it_size]; now repeat split|]. constructor; [|constructor].
    right. split; [exact A|]. split; [reflexivity|]. cbn [core it_addr it_size]. intros p [<-|Ip]; cbn [fst]; [lia|]. specialize (Be p Ip). lia.
  - exists []. apply orb_false_iff in B2. destruct B2 as (B2 & _). apply negb_false_iff, Z.eqb_eq in B2.
    split; [rewrite core_set_last, app_nil_r; reflexivity|]. split; [cbn; lia|constructor].
Qed.

(** ** of an output section *)
Section Expand.
Variables (symbols : dict Z cusym) (comps : list component).
Hypotheses (Ok : symbols_ok comps (map usym_of symbols)) (Va : forall p, In p symbols -> cu_value (snd p) = fst p).
Let L := archive_symbols symbols comps.
Let syms := map usym_of symbols.
Lemma owned_offered y x ob : In y syms -> owner comps y = Some (x, ob) -> exists p, In p L /\ fst p = us_addr y.
Proof.
  intros Iy Ow. apply List.in_map_iff in Iy. destruct Iy as (p & <- & Ip). unfold owner in Ow. cbn [usym_of us_path] in Ow.
  destruct (find_symbol_component (longest comps) (cu_name (snd p))) as [c|] eqn:Fc; [|discriminate]. eexists. split; [apply (offered_In symbols comps Ok); exists p, c; split; [exact Ip|]; split; [exact Fc|reflexivity]|]. reflexivity.
Qed.
Lemma piece_of i (j : item) : i_archive i = EXE -> from_symbol L i j \/ from_rest L (i_object i) j ->
  symbol_piece (owner comps) syms (core i) j \/ other_piece (owner comps) syms (core i) j.
Proof.
  intros A [(p & Ip & B & -> & V)|(E1 & E2 & H)].
  - left. apply (offered_In symbols comps Ok) in Ip. destruct Ip as (q & c & Iq & Fc & ->). exists (usym_of q). split; [now apply List.in_map|]. split; [exact B|].
    split; [unfold owner; cbn [usym_of us_path]; rewrite Fc; reflexivity|]. cbn in V |- *. now split.
  - right. split; [exact E1|]. split; [exact E2|]. intros y Iy Ny. destruct (owner comps y) as [[x ob]|] eqn:Ow; [|congruence].
    destruct (owned_offered y x ob Iy Ow) as (p & Ip & Ep). specialize (H p Ip). rewrite Ep in H. unfold starts_in. cbn [item_section i_addr i_size].
    apply not_true_iff_false. rewrite andb_true_iff, Z.leb_le, Z.ltb_lt. exact H.
Qed.
Lemma osec_apart o : Forall (fun i => 0 <= it_size i /\ (it_archive i = "(exe)" -> followed comps syms (item_section i))) (pr_items o) ->
  section_apart (owner comps) syms o (back (expand_osec L (printed_section o))).
Proof.
  intros F. split; [reflexivity|]. split; [reflexivity|]. split; [reflexivity|].
  unfold back, expand_osec. cbn [pr_items set_isecs o_isecs printed_section].
  assert (G : forall its acc, Forall (fun i => 0 <= it_size i /\ (it_archive i = "(exe)" -> followed comps syms (item_section i))) its ->
    exists jss, Forall2 (item_apart (owner comps) syms) its jss /\
      map core (fold_left (fun acc i => if negb (i_archive i =?= EXE) then acc ++ [i] else expand_isec L i acc) (map item_section its) acc) = map core acc ++ concat jss).
  { induction its as [|i its IH]; intros acc Fi; cbn [map fold_left]; [exists []; split; [constructor|now rewrite app_nil_r]|].
    pose proof (Forall_inv Fi) as (Z0 & Fo). apply Forall_inv_tail in Fi. cbn [item_section i_archive]. destruct (keqP (it_archive i) EXE) as [E|E]; cbn [negb].
    - destruct (expand_apart L (item_section i) acc) as (js & J1 & J2 & J3).
      { apply (ready_ok symbols comps Ok Va); [exact Z0|exact E|now apply Fo]. }
      destruct (IH (expand_isec L (item_section i) acc) Fi) as (jss & H1 & H2). exists (js :: jss). split; [|rewrite H2, J1, <- app_assoc; reflexivity].
      constructor; [|exact H1]. unfold item_apart. fold EXE. rewrite E, keq_refl. split; [exact J2|]. eapply Forall_impl; [|exact J3]. intros j Hj. cbn beta in Hj.
      destruct (piece_of (item_section i) j E Hj) as [H|H]; [left|right]; exact H.
    - destruct (IH (acc ++ [item_section i]) Fi) as (jss & H1 & H2). exists ([core (item_section i)] :: jss). split; [|rewrite H2, map_app, <- app_assoc; reflexivity].
      constructor; [|exact H1]. unfold item_apart. fold EXE. destruct (keqP (it_archive i) EXE) as [X|X]; [contradiction|]. exists (core (item_section i)). now repeat split. }
  destruct (G (pr_items o) [] F) as (jss & H1 & H2). exists jss. split; [exact H1|exact H2].
Qed.
End Expand.

(** ** what holds of everything taken apart *)
Lemma pieces_in own syms i js j : 0 <= it_size i -> item_apart own syms i js -> In j js -> it_addr i <= it_addr j /\ it_addr j + it_size j <= it_addr i + it_size i /\ 0 <= it_size j.
Proof.
  intros Z0 H Ij. unfold item_apart in H. destruct (it_archive i =?= "(exe)").
  - destruct H as (H & _). apply one_bound in H. destruct H as (_ & H). rewrite Forall_forall in H. exact (H j Ij).
  - destruct H as (j' & -> & A & B & _). destruct Ij as [<-|[]]. lia.
Qed.
Lemma pieces_cover own syms i js x : item_apart own syms i js -> it_addr i <= x < it_addr i + it_size i -> exists j, In j js /\ it_addr j <= x < it_addr j + it_size j.
Proof.
  intros H Hx. unfold item_apart in H. destruct (it_archive i =?= "(exe)").
  - destruct H as (H & _). exact (one_covers _ _ _ H x Hx).
  - destruct H as (j' & -> & A & B & _). exists j'. split; [now left|lia].
Qed.
Lemma apart_item own syms o o' j : section_apart own syms o o' -> In j (pr_items o') -> exists i js, In i (pr_items o) /\ item_apart own syms i js /\ In j js.
Proof.
  intros (_ & _ & _ & jss & F & E) Ij. rewrite E in Ij. apply in_concat in Ij. destruct Ij as (js & Ijs & Ij). clear E.
  induction F as [|i js0 its jss H F IH]; [destruct Ijs|]. destruct Ijs as [->|Ijs]; [exists i, js; split; [now left|now split]|].
  destruct (IH Ijs) as (i' & js' & A & B & C). exists i', js'. split; [now right|now split].
Qed.
Lemma apart_from own syms o o' i : section_apart own syms o o' -> In i (pr_items o) -> exists js, item_apart own syms i js /\ forall j, In j js -> In j (pr_items o').
Proof.
  intros (_ & _ & _ & jss & F & E) Ii. rewrite E. clear E.
  induction F as [|i0 js0 its jss H F IH]; [destruct Ii|]. destruct Ii as [->|Ii]; [exists js0; split; [exact H|intros j Ij; cbn [concat]; apply in_or_app; now left]|].
  destruct (IH Ii) as (js & A & B). exists js. split; [exact A|]. intros j Ij. cbn [concat]. apply in_or_app. right. now apply B.
Qed.
(** every symbol of a component that starts in an optimised input section is a piece *)
Lemma apart_symbol comps own syms o o' i y x ob : symbols_ok comps syms -> owners comps own syms -> section_apart own syms o o' -> In i (pr_items o) -> it_archive i = "(exe)" ->
  In y syms -> starts_in (item_section i) y = true -> own y = Some (x, ob) ->
  exists j, In j (pr_items o') /\ it_addr j = us_addr y /\ it_size j = us_size y /\ it_archive j = x /\ it_object j = ob.
Proof.
  intros So Ow Ap Ii Ei Iy St Oy. destruct (apart_from _ _ _ _ _ Ap Ii) as (js & H & Sub). pose proof H as H0. unfold item_apart in H. rewrite Ei in H. rewrite keq_refl in H. destruct H as (_ & F).
  pose proof St as St0. unfold starts_in in St0. apply andb_true_iff in St0. rewrite Z.leb_le, Z.ltb_lt in St0. cbn [item_section i_addr i_size] in St0.
  destruct (pieces_cover _ _ _ _ (us_addr y) H0 St0) as (j & Ij & Hj). rewrite Forall_forall in F. destruct (F j Ij) as [(z & Iz & Sz & Oz & Az & Zz)|(_ & _ & N)].
  - assert (Cy : forall w p, In w syms -> own w = Some p -> in_component comps w).
    { intros w [x0 o0] Iw Ow'. specialize (Ow w Iw). rewrite Ow' in Ow. destruct Ow as (c & (Ic & W & _) & _). now exists c. }
    assert (us_addr z = us_addr y).
    { destruct (Z.lt_trichotomy (us_addr z) (us_addr y)) as [Lt|[Eq|Lt]]; [|exact Eq|lia].
      pose proof (so_apart _ _ So z y Iz Iy (Cy _ _ Iz Oz) (Cy _ _ Iy Oy) Lt). lia. }
    assert (z = y).
    { pose proof (so_once _ _ So) as Nd. clear -Nd Iz Iy H. revert Nd Iz Iy. generalize syms. intros l0. induction l0 as [|s0 l IH]; intros Nd Iz Iy; [destruct Iz|]. cbn [map] in Nd. inversion Nd as [|? ? N1 N2]; subst.
      destruct Iz as [->|Iz], Iy as [->|Iy]; [reflexivity| | |auto].
      - exfalso. apply N1. apply List.in_map_iff. now exists y.
      - exfalso. apply N1. apply List.in_map_iff. now exists z. }
    subst z. rewrite Oy in Oz. injection Oz as -> ->. exists j. split; [now apply Sub|]. now repeat split.
  - exfalso. specialize (N y Iy). rewrite Oy in N. specialize (N ltac:(discriminate)). unfold starts_in in N. cbn [item_section i_addr i_size] in N.
    apply not_true_iff_false in N. apply N. rewrite andb_true_iff, Z.leb_le, Z.ltb_lt. exact Hj.
Qed.
