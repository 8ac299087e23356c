(** * Proofs about the map file parser: invariants of the section loop *)
From Coq Require Import Ascii String List ZArith Bool Lia.
From Verif Require Import Base MemMap Pipeline PyStr MapFile SpecMap ProofPyStr ProofMap1 ProofMap2.
Import ListNotations.
Open Scope list_scope.
Open Scope Z_scope.

(** ** chains *)

Fixpoint chain {A} (R : A -> A -> Prop) (l : list A) : Prop :=
  match l with
  | x :: ((y :: _) as l') => R x y /\ chain R l'
  | _ => True
  end.

Lemma chain_snoc {A} (R : A -> A -> Prop) l x y : chain R (l ++ [x; y]) <-> chain R (l ++ [x]) /\ R x y.
Proof.
  induction l as [|a l IH]; cbn [app chain]; [tauto|].
  destruct l as [|b l]; cbn [app chain] in *; [tauto|]. rewrite IH. tauto.
Qed.

Lemma chain_adjacent {A} (R : A -> A -> Prop) l : chain R l -> forall l1 x y l2, l = l1 ++ x :: y :: l2 -> R x y.
Proof.
  induction l as [|a l IH]; intros C l1 x y l2 E; [destruct l1; discriminate|].
  destruct l1 as [|b l1]; cbn in E.
  - injection E as -> ->. apply C.
  - injection E as -> E. apply (IH) with (l1 := l1) (l2 := l2); auto. destruct l; [exact I|apply C].
Qed.

Lemma chain_replace {A} (R Q : A -> A -> Prop) :
  (forall x x' y y', Q x x' -> Q y y' -> R x y -> R x' y') ->
  forall l l', Forall2 Q l l' -> chain R l -> chain R l'.
Proof.
  intros H l l' F. induction F as [|x x' l l' X F IH]; cbn [chain]; auto.
  destruct F as [|y y' l l' Y F]; auto. intros [C D]. split; eauto.
Qed.

(** ** what an input section keeps when padding is charged to it *)
Lemma same_refl i : same_isec i i.
Proof. repeat split. Qed.

Lemma charge_same size l l' : charge_fill size l = Ok l' -> Forall2 same_isec l l'.
Proof.
  revert l'. induction l as [|s l IH]; intros l'; cbn [charge_fill].
  - intro H. injection H as <-. constructor.
  - destruct (truthy (pi_size s)).
    + destruct size; [|discriminate]. intro H. injection H as <-. constructor; [repeat split|].
      clear. induction l; constructor; auto. apply same_refl.
    + destruct (charge_fill size l) as [l1|]; cbn [bind]; [|discriminate]. intro H. injection H as <-.
      constructor; [apply same_refl|auto].
Qed.

Lemma Forall2_refl' {A} (R : A -> A -> Prop) : (forall x, R x x) -> forall l, Forall2 R l l.
Proof. intros H l. induction l; constructor; auto. Qed.
Lemma Forall2_tl {A B} (R : A -> B -> Prop) l l' : Forall2 R l l' -> Forall2 R (tl l) (tl l').
Proof. intros []; cbn; [constructor|assumption]. Qed.
Lemma Forall2_rev' {A B} (R : A -> B -> Prop) l l' : Forall2 R l l' -> Forall2 R (rev l) (rev l').
Proof. induction 1; cbn [rev]; [constructor|]. apply Forall2_app; auto. Qed.

(** the result of [add_input_section], up to padding: the last input section may lose its
    size, the new one too *)
Lemma add_input_shape size o i o' : add_input_section size o i = Ok o' ->
  po_name o' = po_name o /\ po_addr o' = po_addr o /\ po_size o' = po_size o /\
  ((po_isecs o = [] /\ po_isecs o' = [i]) \/
   exists before last a oa os last1 i1 before',
     po_isecs o = before ++ [last] /\ pi_addr i = Some a /\ po_addr o = Some oa /\ po_size o = Some os /\
     i1 = (if (a <? oa) || (a >=? oa + os) then set_isize 0 i else i) /\
     last1 = (if (match pi_addr last with Some la => la =? a | None => false end) then set_isize 0 last else last) /\
     Forall2 same_isec (before ++ [last1]) before' /\
     ((truthy (pi_size i1) = true \/ pi_fill i1 = 0) /\ before' = before ++ [last1] /\ po_isecs o' = before' ++ [i1] \/
      truthy (pi_size i1) = false /\ pi_fill i1 <> 0 /\ charge_fill size (rev (before ++ [last1])) = Ok (rev before') /\
        po_isecs o' = before' ++ [set_ifill 0 i1])).
Proof.
  unfold add_input_section. destruct (rev (po_isecs o)) as [|last before] eqn:E.
  - intro H. injection H as <-. repeat split; auto. left. split; auto.
    rewrite <- (rev_involutive (po_isecs o)), E. reflexivity.
  - assert (E' : po_isecs o = rev before ++ [last]) by (rewrite <- (rev_involutive (po_isecs o)), E; reflexivity).
    destruct (pi_addr i) as [a|] eqn:A; [|discriminate]. destruct (po_addr o) as [oa|] eqn:OA; [|discriminate].
    destruct (po_size o) as [os|] eqn:OS; [|discriminate]. cbv zeta.
    set (i1 := if (a <? oa) || (a >=? oa + os) then set_isize 0 i else i).
    set (last1 := if (match pi_addr last with Some la => la =? a | None => false end) then set_isize 0 last else last).
    destruct (negb (truthy (pi_size i1)) && negb (pi_fill i1 =? 0)) eqn:C.
    + destruct (charge_fill size (last1 :: before)) as [l|] eqn:G; cbn [bind]; [|discriminate]. intro H. injection H as <-.
      cbn [set_pisecs po_name po_addr po_size po_isecs]. repeat split; auto. right.
      exists (rev before), last, a, oa, os, last1, i1, (rev l). repeat split; auto.
      * apply charge_same, Forall2_rev' in G. exact G.
      * right. apply andb_true_iff in C as [C1 C2]. apply negb_true_iff in C1. apply negb_true_iff, Z.eqb_neq in C2.
        repeat split; auto. rewrite rev_involutive. replace (rev (rev before ++ [last1])) with (last1 :: before); auto.
        rewrite rev_app_distr, rev_involutive. reflexivity.
    + intro H. injection H as <-. cbn [set_pisecs po_name po_addr po_size po_isecs]. repeat split; auto. right.
      exists (rev before), last, a, oa, os, last1, i1, (rev before ++ [last1]). repeat split; auto.
      * apply Forall2_refl', same_refl.
      * left. repeat split; auto. apply andb_false_iff in C as [C|C]; apply negb_false_iff in C; auto.
        right. now apply Z.eqb_eq.
Qed.

(** ** superseded and out-of-range sections *)

Definition good (o : posec) : Prop := chain superseded (po_isecs o) /\ Forall (ranged o) (tl (po_isecs o)).

Lemma ranged_same o o' i j : po_addr o = po_addr o' -> po_size o = po_size o' -> same_isec i j -> ranged o i -> ranged o' j.
Proof.
  intros A S (_ & E1 & E2 & _) (oa & os & a & ? & ? & ? & ?). exists oa, os, a. rewrite <- A, <- S, <- E1, <- E2. auto.
Qed.

Lemma Forall_Forall2 {A B} (P : A -> Prop) (Q : B -> Prop) (R : A -> B -> Prop) :
  (forall x y, R x y -> P x -> Q y) -> forall l l', Forall2 R l l' -> Forall P l -> Forall Q l'.
Proof. intros H l l' F. induction F; intro G; inversion G; subst; constructor; eauto. Qed.

Lemma add_input_good size o i o' : good o -> add_input_section size o i = Ok o' -> good o'.
Proof.
  intros [C F] H. destruct (add_input_shape _ _ _ _ H) as (N & A & S & [[E E']|
    (before & last & a & oa & os & last1 & i1 & before' & E & IA & OA & OS & I1 & L1 & SM & CASES)]).
  - unfold good. rewrite E'. split; cbn; [exact I|constructor].
  - assert (I1A : pi_addr i1 = Some a) by (rewrite I1; destruct (_ || _); auto).
    assert (L1A : pi_addr last1 = pi_addr last) by (rewrite L1; match goal with |- context [if ?b then set_isize _ last else _] => destruct b end; auto).
    assert (CB : chain superseded (before ++ [last1])).
    { rewrite E in C. clear -C L1 L1A. destruct before as [|x l] using rev_ind; [exact I|]. clear IHl.
      rewrite <- app_assoc in *. cbn [app] in *. rewrite chain_snoc in *. destruct C as [C1 C2]. split; auto.
      intros b X Y. apply (C2 b); auto. now rewrite <- L1A. }
    assert (CB' : chain superseded (before' ++ [i1])).
    { assert (R : chain superseded ((before ++ [last1]) ++ [i1])).
      { rewrite <- app_assoc. cbn [app]. rewrite chain_snoc. split; auto. intros b X Y.
        assert (b = a) by congruence. subst b. rewrite L1A in X. rewrite X in L1. rewrite Z.eqb_refl in L1. now rewrite L1. }
      revert R. apply (chain_replace superseded same_isec).
      - intros x x' y y' (_ & X1 & X2 & _) (_ & Y1 & _) XY b P Q. rewrite <- X2. apply (XY b); congruence.
      - apply Forall2_app; auto. constructor; [apply same_refl|constructor]. }
    assert (RB : Forall (ranged o') (tl (before' ++ [i1]))).
    { assert (R : Forall (ranged o) (tl ((before ++ [last1]) ++ [i1]))).
      { rewrite E in F.
        assert (RI : ranged o i1).
        { exists oa, os, a. repeat split; auto. intro OUT. rewrite I1.
          replace ((a <? oa) || (a >=? oa + os)) with true; auto. symmetry. apply orb_true_iff.
          destruct OUT; [left; now apply Z.ltb_lt|right; now apply Z.geb_le]. }
        assert (RL : ranged o last -> ranged o last1).
        { intros (oa' & os' & a' & P1 & P2 & P3 & P4). exists oa', os', a'. rewrite L1A. repeat split; auto.
          intro OUT. rewrite L1. match goal with |- context [if ?b then set_isize _ last else _] => destruct b end; auto. }
        clear -F RI RL. destruct before as [|x before]; cbn [app tl] in *.
        - constructor; [auto|constructor].
        - apply Forall_app in F as [F1 F2]. rewrite <- app_assoc. apply Forall_app. split; auto.
          inversion F2; subst. cbn [app]. constructor; [auto|]. constructor; [auto|constructor]. }
      assert (X : Forall2 same_isec (tl ((before ++ [last1]) ++ [i1])) (tl (before' ++ [i1]))).
      { assert (Y : Forall2 same_isec ((before ++ [last1]) ++ [i1]) (before' ++ [i1])).
        { apply Forall2_app; auto. constructor; [apply same_refl|constructor]. }
        now apply Forall2_tl. }
      revert X R. apply Forall_Forall2. intros x y. apply ranged_same; auto. }
    destruct CASES as [(_ & _ & E')|(_ & _ & _ & E')]; rewrite <- ?E' in *.
    + split; auto.
    + unfold good. rewrite E'.
      assert (Y : Forall2 same_isec (before' ++ [i1]) (before' ++ [set_ifill 0 i1])).
      { apply Forall2_app; [apply Forall2_refl', same_refl|]. constructor; [repeat split|constructor]. }
      split.
      * revert CB'. apply (chain_replace superseded same_isec); auto.
        intros x x' y y' (_ & X1 & X2 & _) (_ & Y1 & _) XY b P Q. rewrite <- X2. apply (XY b); congruence.
      * assert (Z : Forall2 same_isec (tl (before' ++ [i1])) (tl (before' ++ [set_ifill 0 i1]))) by now apply Forall2_tl.
        revert Z RB. apply Forall_Forall2. intros x y. apply ranged_same; auto.
Qed.

Definition good_state (st : pstate) : Prop :=
  Forall good (ps_done st) /\ match ps_out st with Some o => good o | None => True end.

Lemma flush_good size o i o' : good o -> flush_input size o i = Ok o' -> good o'.
Proof.
  intros G. destruct i as [i|]; cbn [flush_input].
  - now apply add_input_good.
  - intro H. now injection H as <-.
Qed.

Lemma good_header o a s : po_addr o = None -> good o -> good (POsec (po_name o) (Some a) (Some s) (po_isecs o)).
Proof.
  intros N [C F]. split; auto. cbn [po_isecs]. destruct F as [|i l (oa & os & b & H & _)]; [constructor|congruence].
Qed.

Lemma section_line_good st o line st' : ps_out st = Some o -> good_state st -> section_line st o line = Ok st' -> good_state st'.
Proof.
  intros O [D G]. rewrite O in G. unfold section_line. destruct line as [|c line].
  - destruct (flush_input (ps_size st) o (ps_in st)) as [o1|] eqn:E; cbn [bind]; [|discriminate].
    intro H. injection H as <-. split; cbn; auto. apply Forall_app. split; auto. constructor; auto. eapply flush_good; eauto.
  - destruct (po_addr o) as [oa|] eqn:A.
    + destruct (sw "." (c :: line) || sw "COMMON" (c :: line)).
      * destruct (flush_input (ps_size st) o (ps_in st)) as [o1|] eqn:E; cbn [bind]; [|discriminate].
        destruct (input_line (c :: line)); cbn [bind]; [|discriminate]. intro H. injection H as <-.
        split; cbn; auto. eapply flush_good; eauto.
      * destruct (ps_in st) as [i|]; [|intro H; injection H as <-; split; auto; now rewrite O].
        destruct (pi_addr i).
        -- destruct (sw "*fill*" (c :: line)).
           { destruct (fill_line i (c :: line)) as [[i1 z1]|]; cbn [bind]; [|discriminate]. intro H. injection H as <-. split; cbn; auto. }
           destruct (existsb _ EXPLICIT_BYTES).
           { destruct (data_line i (c :: line)); cbn [bind]; [|discriminate]. intro H. injection H as <-. split; cbn; auto. }
           intro H. injection H as <-. split; auto. now rewrite O.
        -- destruct (cont_line i (c :: line)); cbn [bind]; [|discriminate]. intro H. injection H as <-. split; cbn; auto.
    + intro H. injection H as <-. unfold header_line.
      assert (X : forall a s sz, good_state (PState true (Some (POsec (po_name o) (Some a) (Some s) (po_isecs o))) (ps_in st) sz (ps_done st))).
      { intros a s sz. split; cbn; auto. now apply good_header. }
      destruct (split (c :: line)) as [|x [|y [|z l]]]; auto.
      destruct (py_int x), (py_int y); auto.
Qed.

Lemma sections_line_good st line st' : good_state st -> sections_line st line = Ok st' -> good_state st'.
Proof.
  intros G. unfold sections_line. destruct (negb (ps_found st)).
  - intro H. injection H as <-. exact G.
  - destruct (ps_out st) as [o|] eqn:O.
    + now apply section_line_good.
    + destruct (sw "." line); [|intro H; injection H as <-; exact G]. unfold output_line.
      destruct G as [D _].
      assert (X : forall n a s sz, good_state (PState true (Some (POsec n a s [])) None sz (ps_done st))).
      { intros. split; cbn; auto. split; cbn; auto. }
      destruct (split line) as [|n [|a [|s [|x l]]]]; try discriminate.
      * intro H. injection H as <-. apply X.
      * destruct (py_int a); cbn [bind]; [|discriminate]. destruct (py_int s); cbn [bind]; [|discriminate].
        intro H. injection H as <-. apply X.
Qed.

Lemma sections_loop_good lines : forall prev st st' rest, good_state st -> sections_loop lines prev st = Ok (st', rest) -> good_state st'.
Proof.
  induction lines as [|l lines IH]; intros prev st st' rest G; cbn [sections_loop].
  - intro H. injection H as <- <-. exact G.
  - destruct (sw "Cross Reference Table" l); [intro H; injection H as <- <-; exact G|].
    destruct (sections_line st l) as [st1|] eqn:E; cbn [bind]; [|discriminate]. apply IH. eapply sections_line_good; eauto.
Qed.

Lemma get_sections_good lines ss rest : get_sections lines = Ok (ss, rest) -> Forall good ss.
Proof.
  unfold get_sections. destruct (sections_loop lines [] ps_init) as [[st r]|] eqn:E; cbn [bind]; [|discriminate].
  destruct (negb (ps_found st)); [discriminate|]. intro H. injection H as <- <-.
  apply sections_loop_good in E; [apply E|]. split; cbn; auto.
Qed.

Lemma map_file_good lines m : map_file lines = Ok m -> Forall good (pm_sections m).
Proof.
  intro H. destruct (map_file_parts _ _ H) as (pre & ls & s & _ & _ & _ & _ & _ & rest & G & _).
  eapply get_sections_good; eauto.
Qed.

(** ** truncation *)

Lemma sections_line_done st line st' : sections_line st line = Ok st' -> exists l, ps_done st' = ps_done st ++ l.
Proof.
  assert (Z : forall l : list posec, exists x, l = l ++ x) by (intro l; exists []; now rewrite app_nil_r).
  unfold sections_line. destruct (negb (ps_found st)); [intro H; injection H as <-; apply Z|].
  destruct (ps_out st) as [o|].
  - unfold section_line. destruct (strip line) as [|c s].
    + destruct (flush_input _ _ _); cbn [bind]; [|discriminate]. intro H. injection H as <-. cbn. eauto.
    + destruct (po_addr o).
      * destruct (sw "." (c :: s) || sw "COMMON" (c :: s)).
        { destruct (flush_input _ _ _); cbn [bind]; [|discriminate]. destruct (input_line _); cbn [bind]; [|discriminate].
          intro H. injection H as <-. apply Z. }
        destruct (ps_in st) as [i|]; [|intro H; injection H as <-; apply Z].
        destruct (pi_addr i).
        -- destruct (sw "*fill*" (c :: s)).
           { destruct (fill_line i _) as [[]|]; cbn [bind]; [|discriminate]. intro H. injection H as <-. apply Z. }
           destruct (existsb _ EXPLICIT_BYTES).
           { destruct (data_line i _); cbn [bind]; [|discriminate]. intro H. injection H as <-. apply Z. }
           intro H. injection H as <-. apply Z.
        -- destruct (cont_line i _); cbn [bind]; [|discriminate]. intro H. injection H as <-. apply Z.
      * intro H. injection H as <-. unfold header_line.
        destruct (split (c :: s)) as [|x [|y [|z l]]]; try apply Z. destruct (py_int x), (py_int y); apply Z.
  - destruct (sw "." line); [|intro H; injection H as <-; apply Z]. unfold output_line.
    destruct (split line) as [|n [|a [|s [|x l]]]]; try discriminate.
    + intro H. injection H as <-. apply Z.
    + destruct (py_int a); cbn [bind]; [|discriminate]. destruct (py_int s); cbn [bind]; [|discriminate].
      intro H. injection H as <-. apply Z.
Qed.

Lemma sections_loop_done lines : forall prev st st' rest, sections_loop lines prev st = Ok (st', rest) -> exists l, ps_done st' = ps_done st ++ l.
Proof.
  induction lines as [|l lines IH]; intros prev st st' rest; cbn [sections_loop].
  - intro H. injection H as <- <-. exists []. now rewrite app_nil_r.
  - destruct (sw "Cross Reference Table" l); [intro H; injection H as <- <-; exists []; now rewrite app_nil_r|].
    destruct (sections_line st l) as [st1|] eqn:E; cbn [bind]; [|discriminate]. intro H.
    destruct (sections_line_done _ _ _ E) as [x X]. destruct (IH _ _ _ _ H) as [y Y].
    exists (x ++ y). now rewrite Y, X, app_assoc.
Qed.

Lemma sections_loop_cut a b : forall prev prev' st st1 r1 st2 r2,
  sections_loop a prev st = Ok (st1, r1) -> sections_loop (a ++ b) prev' st = Ok (st2, r2) ->
  exists l, ps_done st2 = ps_done st1 ++ l.
Proof.
  induction a as [|x a IH]; intros prev prev' st st1 r1 st2 r2; cbn [app sections_loop].
  - intro H. injection H as <- <-. apply sections_loop_done.
  - destruct (sw "Cross Reference Table" x).
    + intros H H'. injection H as <- <-. injection H' as <- <-. exists []. now rewrite app_nil_r.
    + destruct (sections_line st x); cbn [bind]; [|discriminate]. apply IH.
Qed.

Lemma map_file_cut a b m m' : map_file a = Ok m -> map_file (a ++ b) = Ok m' ->
  exists l, pm_sections m' = pm_sections m ++ l.
Proof.
  intros H H'. destruct (map_file_parts _ _ H) as (pre & ls & s & E & F & P & _ & _ & rest & G & _).
  destruct (map_file_parts _ _ H') as (pre' & ls' & s' & E' & F' & P' & _ & _ & rest' & G' & _).
  rewrite E in E'. rewrite <- app_assoc in E'. cbn [app] in E'.
  destruct (parts_unique _ _ _ _ _ _ E' F F' P P') as (<- & <- & <-).
  unfold get_sections in G, G'.
  destruct (sections_loop (ls :: s) [] ps_init) as [[st r]|] eqn:L; cbn [bind] in G; [|discriminate].
  destruct (sections_loop (ls :: s ++ b) [] ps_init) as [[st' r']|] eqn:L'; cbn [bind] in G'; [|discriminate].
  destruct (negb (ps_found st)); [discriminate|]. destruct (negb (ps_found st')); [discriminate|].
  injection G as <- <-. injection G' as <- <-. eapply (sections_loop_cut (ls :: s) b); eauto.
Qed.

(** ** exceptions *)

Lemma py_int_err s e : py_int s = Err e -> e = ValueError.
Proof. unfold py_int. destruct (match s with [] => _ | _ => _ end); [discriminate|]. intro H. now injection H. Qed.

Ltac ints :=
  repeat match goal with
  | |- context [bind (py_int ?x) _] => let E := fresh "PI" in destruct (py_int x) eqn:E; cbn [bind]; [|apply py_int_err in E as ->]
  end.
Ltac done_err := first [discriminate | let HE := fresh in intro HE; injection HE as <-; unfold parse_error; cbn; tauto].

Lemma charge_err size l e : charge_fill size l = Err e -> parse_error e.
Proof.
  induction l as [|s l IH]; cbn [charge_fill]; [discriminate|]. destruct (truthy _).
  - destruct size; done_err.
  - destruct (charge_fill size l); cbn [bind]; [discriminate|auto].
Qed.
Lemma add_err size o i e : add_input_section size o i = Err e -> parse_error e.
Proof.
  unfold add_input_section. destruct (rev (po_isecs o)); [discriminate|].
  destruct (pi_addr i), (po_addr o), (po_size o); try done_err. cbv zeta.
  destruct (negb _ && negb _); [|discriminate].
  match goal with |- bind ?m _ = _ -> _ => destruct m eqn:E; cbn [bind]; [discriminate|] end.
  intro H. injection H as <-. eapply charge_err; eauto.
Qed.
Lemma flush_err size o i e : flush_input size o i = Err e -> parse_error e.
Proof. destruct i; cbn [flush_input]; [apply add_err|discriminate]. Qed.

Lemma region_row_err l e : region_row l = Err e -> parse_error e.
Proof.
  unfold region_row. destruct (split l) as [|a [|b [|c [|d [|? ?]]]]]; try done_err; ints; done_err.
Qed.
Lemma regions_loop_err lines : forall prev f h acc e, regions_loop lines prev f h acc = Err e -> parse_error e.
Proof.
  induction lines as [|l lines IH]; intros prev f h acc e; cbn [regions_loop]; [discriminate|].
  destruct (sw _ l); [discriminate|]. destruct f; cbn [negb]; [|apply IH]. destruct h; cbn [negb]; [|apply IH].
  destruct (region_row l) eqn:E; cbn [bind]; [apply IH|]. intro H. injection H as <-. eapply region_row_err; eauto.
Qed.
Lemma input_line_err l e : input_line l = Err e -> parse_error e.
Proof.
  unfold input_line. destruct (split_max 3 l) as [|a [|b [|c [|d [|? ?]]]]]; try done_err; ints; try done_err.
  destruct (get_archive_object_file d). discriminate.
Qed.
Lemma cont_line_err i l e : cont_line i l = Err e -> parse_error e.
Proof.
  unfold cont_line. destruct (split_max 2 l) as [|a [|b [|c [|? ?]]]]; try done_err; ints; try done_err.
  destruct (get_archive_object_file c). discriminate.
Qed.
Lemma fill_line_err i l e : fill_line i l = Err e -> parse_error e.
Proof. unfold fill_line. destruct (split l) as [|a [|b [|c [|? ?]]]]; try done_err; ints; done_err. Qed.
Lemma data_line_err i l e : data_line i l = Err e -> parse_error e.
Proof.
  unfold data_line. destruct (split l) as [|a [|b [|c [|d [|? ?]]]]]; try done_err. destruct (existsb _ _); ints; done_err.
Qed.

Lemma sections_line_err st l e : sections_line st l = Err e -> parse_error e.
Proof.
  unfold sections_line. destruct (negb (ps_found st)); [discriminate|]. destruct (ps_out st) as [o|].
  - unfold section_line. destruct (strip l) as [|c s].
    + destruct (flush_input _ _ _) eqn:E; cbn [bind]; [discriminate|]. intro H. injection H as <-. eapply flush_err; eauto.
    + destruct (po_addr o); [|discriminate]. destruct (_ || _).
      { destruct (flush_input _ _ _) eqn:E; cbn [bind].
        - destruct (input_line _) eqn:F; cbn [bind]; [discriminate|]. intro H. injection H as <-. eapply input_line_err; eauto.
        - intro H. injection H as <-. eapply flush_err; eauto. }
      destruct (ps_in st) as [i|]; [|discriminate]. destruct (pi_addr i).
      * destruct (sw _ _).
        { destruct (fill_line _ _) as [[]|] eqn:F; cbn [bind]; [discriminate|]. intro H. injection H as <-. eapply fill_line_err; eauto. }
        destruct (existsb _ _); [|discriminate].
        destruct (data_line _ _) eqn:F; cbn [bind]; [discriminate|]. intro H. injection H as <-. eapply data_line_err; eauto.
      * destruct (cont_line _ _) eqn:F; cbn [bind]; [discriminate|]. intro H. injection H as <-. eapply cont_line_err; eauto.
  - destruct (sw _ _); [|discriminate]. unfold output_line.
    destruct (split l) as [|n [|a [|s [|x r]]]]; try done_err; ints; done_err.
Qed.
Lemma sections_loop_err lines : forall prev st e, sections_loop lines prev st = Err e -> parse_error e.
Proof.
  induction lines as [|l lines IH]; intros prev st e; cbn [sections_loop]; [discriminate|].
  destruct (sw _ l); [discriminate|]. destruct (sections_line st l) eqn:E; cbn [bind]; [apply IH|].
  intro H. injection H as <-. eapply sections_line_err; eauto.
Qed.

Lemma crt_loop_err lines : forall f h y t e, (forall s, y = Some s -> dget s t <> None) -> crt_loop lines f h y t = Err e -> e = IndexError.
Proof.
  induction lines as [|l lines IH]; intros f h y t e Y; cbn [crt_loop]; [discriminate|].
  destruct (negb f && sw _ l); [now apply IH|]. destruct (negb h); [now apply IH|].
  destruct l as [|c l]; [discriminate|]. destruct ((c =?= " "%char) || (c =?= tab)).
  - destruct y as [y|]; cbn [crt_reference].
    + destruct (dget y t) eqn:G; [|exfalso; eapply Y; eauto]. cbn [bind]. apply IH. intros s E. injection E as <-. rewrite dget_dset_same. discriminate.
    + cbn [bind]. apply IH. discriminate.
  - unfold crt_entry. destruct (split_max 1 (c :: l)) as [|a [|b [|? ?]]]; cbn [bind]; try (intro H; now injection H).
    apply IH. intros s E. injection E as <-. rewrite dget_dset_same. discriminate.
Qed.

Lemma map_file_err lines e : map_file lines = Err e -> parse_error e.
Proof.
  unfold map_file, get_memory_regions, get_sections, get_cross_reference_table.
  destruct (regions_loop lines [] false false []) as [[[[f h] rs] rest]|] eqn:R; cbn [bind].
  2:{ intro H. injection H as <-. eapply regions_loop_err; eauto. }
  destruct (negb f || negb h); cbn [bind]; [done_err|].
  destruct (sections_loop rest [] ps_init) as [[st r]|] eqn:S; cbn [bind].
  2:{ intro H. injection H as <-. eapply sections_loop_err; eauto. }
  destruct (negb (ps_found st)); cbn [bind]; [done_err|].
  destruct (crt_loop r false false None []) eqn:C; cbn [bind]; [discriminate|].
  intro H. injection H as <-. apply crt_loop_err in C; [subst; unfold parse_error; cbn; tauto|]. discriminate.
Qed.

(** ** validate *)

Lemma validate_isecs_spec l : forall a off, validate_isecs (Some a) off l = Ok tt <-> follows (a + off) l.
Proof.
  induction l as [|i l IH]; intros a off; cbn [validate_isecs].
  - split; [constructor|reflexivity].
  - destruct (pi_size i) as [n|] eqn:S.
    + destruct (Z.eqb_spec n 0) as [->|N].
      * rewrite IH. split; intro H.
        -- constructor; auto.
        -- inversion H; subst; auto. congruence.
      * cbn [py_add bind]. destruct (pi_addr i) as [b|] eqn:B.
        -- destruct (Z.eqb_spec (a + off) b) as [<-|NE].
           ++ rewrite IH. replace (a + (off + (n + pi_fill i))) with (a + off + n + pi_fill i) by lia. split; intro H.
              ** eapply follows_next; eauto.
              ** inversion H; subst; [intuition congruence|]. congruence.
           ++ split; [discriminate|]. intro H. inversion H; subst; [intuition congruence|]. congruence.
        -- split; [discriminate|]. intro H. inversion H; subst; [intuition congruence|]. congruence.
    + rewrite IH. split; intro H.
      * constructor; auto.
      * inversion H; subst; auto. congruence.
Qed.

Lemma validate_none l off : validate_isecs None off l = Ok tt <-> Forall (fun i => pi_size i = None \/ pi_size i = Some 0) l.
Proof.
  induction l as [|i l IH]; cbn [validate_isecs].
  - split; [constructor|reflexivity].
  - destruct (pi_size i) as [n|] eqn:S.
    + destruct (Z.eqb_spec n 0) as [->|N].
      * rewrite IH. split; intro H; [constructor; auto|inversion H; auto].
      * cbn [py_add bind]. split; [discriminate|]. intro H. inversion H; subst. rewrite S in H2. intuition congruence.
    + rewrite IH. split; intro H; [constructor; auto|inversion H; auto].
Qed.

Lemma follows_all_empty l a : Forall (fun i => pi_size i = None \/ pi_size i = Some 0) l -> follows a l.
Proof. induction 1; constructor; auto. Qed.

Lemma validate_section_spec o : validate_section o = Ok tt <-> contiguous o.
Proof.
  unfold validate_section, contiguous. destruct (po_isecs o) as [|i l] eqn:E.
  - split; [left; constructor|reflexivity].
  - destruct (pi_addr i) as [a|] eqn:A.
    + rewrite validate_isecs_spec, Z.add_0_r. split.
      * intro H. right. exists i, l, a. auto.
      * intros [H|(i' & l' & a' & Q & A' & H)]; [now apply follows_all_empty|]. injection Q as <- <-. congruence.
    + rewrite validate_none. split; [auto|]. intros [H|(i' & l' & a' & Q & A' & H)]; auto. injection Q as <- <-. congruence.
Qed.

Lemma validate_sections_spec l : validate_sections l = Ok tt <-> Forall contiguous l.
Proof.
  induction l as [|o l IH]; cbn [validate_sections].
  - split; [constructor|reflexivity].
  - pose proof (validate_section_spec o) as V. destruct (validate_section o) as [[]|]; cbn [bind].
    + rewrite IH. split; intro H; [constructor; tauto|now inversion H].
    + split; [discriminate|]. intro H. inversion H; subst. apply V in H2. discriminate.
Qed.

(** with addresses for all input sections, the only other outcome is MapFileException *)
Lemma validate_isecs_err l : Forall (fun i => pi_addr i <> None) l -> forall a off e, validate_isecs (Some a) off l = Err e -> e = MapFileException.
Proof.
  induction 1 as [|i l A _ IH]; intros a off e; cbn [validate_isecs]; [discriminate|].
  destruct (pi_size i) as [n|]; [|apply IH]. destruct (n =? 0); [apply IH|]. cbn [py_add bind].
  destruct (pi_addr i); [|contradiction]. destruct (_ =? _); [apply IH|]. intro H. now injection H.
Qed.
Lemma validate_sections_err l e : Forall (fun o => Forall (fun i => pi_addr i <> None) (po_isecs o)) l ->
  validate_sections l = Err e -> e = MapFileException.
Proof.
  induction 1 as [|o l A _ IH]; cbn [validate_sections]; [discriminate|].
  destruct (validate_section o) as [[]|e1] eqn:E; cbn [bind]; auto. intro H. injection H as <-.
  unfold validate_section in E. destruct (po_isecs o) as [|i r]; [discriminate|].
  destruct (pi_addr i) as [a|] eqn:B; [|inversion A; contradiction]. eapply validate_isecs_err; eauto.
Qed.
