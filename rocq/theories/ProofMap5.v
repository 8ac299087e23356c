(** * Proofs about the map file parser: printed sections are read back *)
From Coq Require Import Ascii String List ZArith Bool Lia.
From Verif Require Import Base MemMap Pipeline PyStr MapFile SpecMap ProofPyStr ProofMap1 ProofMap2 ProofMap3 ProofMap4.
Import ListNotations.
Open Scope list_scope.
Open Scope Z_scope.

(** ** the input section of an item *)

Lemma pads_fill l : forall i, pi_fill (fold_left pad_apply l i) = pi_fill i + pads_size l.
Proof.
  induction l as [|p l IH]; intro i; cbn [fold_left pads_size fold_right]; [lia|]. rewrite IH. fold (pads_size l).
  assert (E : pi_fill (pad_apply i p) = pi_fill i + pad_size p).
  { destruct p; cbn; auto. destruct (match pi_addr i with Some ia => ia =? a | None => false end); reflexivity. }
  lia.
Qed.

Lemma pads_keep l : forall i, let r := fold_left pad_apply l i in
  pi_name r = pi_name i /\ pi_archive r = pi_archive i /\ pi_object r = pi_object i /\ (pi_size r = pi_size i \/ pi_size r = Some 0).
Proof.
  induction l as [|p l IH]; intro i; cbn [fold_left]; [auto|].
  destruct (IH (pad_apply i p)) as (A & B & C & D). rewrite A, B, C.
  assert (E : pi_name (pad_apply i p) = pi_name i /\ pi_archive (pad_apply i p) = pi_archive i /\ pi_object (pad_apply i p) = pi_object i /\
    (pi_size (pad_apply i p) = pi_size i \/ pi_size (pad_apply i p) = Some 0)).
  { destruct p; cbn; auto. destruct (match pi_addr i with Some ia => ia =? a | None => false end); cbn; auto. }
  destruct E as (E1 & E2 & E3 & E4). repeat split; auto. destruct D as [->|D]; auto.
Qed.

Lemma pads_size_kept l : forall i ia, pi_addr i = Some ia -> (forall a n, In (Fill a n) l -> a <> ia) ->
  pi_size (fold_left pad_apply l i) = pi_size i.
Proof.
  induction l as [|p l IH]; intros i ia A F; cbn [fold_left]; auto.
  rewrite (IH _ ia); [|now rewrite pad_apply_addr|intros a n I; apply (F a n); now right].
  destruct p; cbn; auto. rewrite A. destruct (Z.eqb_spec ia a) as [->|N]; auto.
  exfalso. apply (F a n); [now left|reflexivity].
Qed.

Lemma item_read_as i : read_as i (item_isec i).
Proof.
  unfold item_isec. destruct (pads_keep (it_pads i) (PIsec (it_name i) (Some (it_addr i)) (Some (it_size i)) (it_archive i) (it_object i) 0)) as (A & B & C & D).
  repeat split; auto. now rewrite pads_addr.
Qed.

Lemma item_exact i : fill_elsewhere i -> item_isec i = exact_isec i.
Proof.
  intro F. unfold item_isec.
  set (i0 := PIsec (it_name i) (Some (it_addr i)) (Some (it_size i)) (it_archive i) (it_object i) 0).
  destruct (pads_keep (it_pads i) i0) as (A & B & C & _).
  pose proof (pads_addr (it_pads i) i0) as D. pose proof (pads_fill (it_pads i) i0) as E.
  pose proof (pads_size_kept (it_pads i) i0 (it_addr i) eq_refl F) as G.
  destruct (fold_left pad_apply (it_pads i) i0). cbn in *. subst. reflexivity.
Qed.

(** ** everything but sizes and paddings *)

Lemma read_same i r r' : same_isec r r' -> read_as i r -> read_as i r'.
Proof. intros (A & B & C & D & E) (P & Q & R & S & T). unfold read_as. rewrite <- A, <- B, <- C, <- D, <- E. auto. Qed.
Lemma read_zero i r : read_as i r -> read_as i (set_isize 0 r).
Proof. intros (P & Q & R & S & T). repeat split; auto. Qed.
Lemma read_fill i r z : read_as i r -> read_as i (set_ifill z r).
Proof. intros (P & Q & R & S & T). repeat split; auto. Qed.

Lemma Forall2_comp {A B C} (P : A -> B -> Prop) (Q : B -> C -> Prop) (R : A -> C -> Prop) :
  (forall a b c, P a b -> Q b c -> R a c) -> forall l m n, Forall2 P l m -> Forall2 Q m n -> Forall2 R l n.
Proof. intros H l m n F. revert n. induction F; intros k G; inversion G; subst; constructor; eauto. Qed.

Lemma Forall2_split_r {A B} (R : A -> B -> Prop) l b x : Forall2 R l (b ++ [x]) -> exists l1 y, l = l1 ++ [y] /\ Forall2 R l1 b /\ R y x.
Proof.
  intro F. apply Forall2_app_inv_r in F as (l1 & l2 & F1 & F2 & ->). inversion F2; subst. inversion H3; subst.
  exists l1, x0. auto.
Qed.

Lemma add_input_read size o i it l o' : Forall2 read_as l (po_isecs o) -> read_as it i -> add_input_section size o i = Ok o' ->
  Forall2 read_as (l ++ [it]) (po_isecs o').
Proof.
  intros F I H. destruct (add_input_shape _ _ _ _ H) as (_ & _ & _ & [[E E']|
    (before & last & a & oa & os & last1 & i1 & before' & E & IA & OA & OS & I1 & L1 & SM & CASES)]).
  - rewrite E in F. inversion F; subst. rewrite E'. constructor; auto.
  - rewrite E in F. apply Forall2_split_r in F as (l1 & y & -> & F1 & Y).
    assert (F' : Forall2 read_as (l1 ++ [y]) before').
    { eapply Forall2_comp; [|apply Forall2_app; [exact F1|constructor; [|constructor]]|exact SM].
      - intros u v w U V. exact (read_same u v w V U).
      - rewrite L1. match goal with |- context [if ?b then _ else _] => destruct b end; auto using read_zero. }
    assert (I1' : read_as it i1) by (rewrite I1; destruct (_ || _); auto using read_zero).
    destruct CASES as [(_ & _ & ->)|(_ & _ & _ & ->)]; apply Forall2_app; auto using Forall2_cons, read_fill.
Qed.

Lemma run_items_read items : forall z o ip l r z1,
  Forall2 read_as l (po_isecs o ++ match ip with Some i => [i] | None => [] end) ->
  run_items z o ip items = Ok (r, z1) ->
  po_name r = po_name o /\ po_addr r = po_addr o /\ po_size r = po_size o /\ Forall2 read_as (l ++ items) (po_isecs r).
Proof.
  assert (FL : forall z o ip l o1, Forall2 read_as l (po_isecs o ++ match ip with Some i => [i] | None => [] end) ->
    flush_input z o ip = Ok o1 -> Forall2 read_as l (po_isecs o1)).
  { intros z o [i|] l o1 F H; cbn [flush_input] in H.
    - apply Forall2_split_r in F as (l1 & y & -> & F1 & Y). eapply add_input_read; eauto.
    - injection H as <-. now rewrite app_nil_r in F. }
  induction items as [|i items IH]; intros z o ip l r z1 F; cbn [run_items].
  - destruct (flush_input z o ip) as [o1|] eqn:E; cbn [bind]; [|discriminate]. intro H. injection H as <- <-.
    destruct (flush_po _ _ _ _ E) as (A & B & C). repeat split; auto. rewrite app_nil_r. eauto.
  - destruct (flush_input z o ip) as [o1|] eqn:E; cbn [bind]; [|discriminate]. intro H.
    destruct (flush_po _ _ _ _ E) as (A & B & C).
    destruct (IH _ o1 (Some (item_isec i)) (l ++ [i]) _ _ (Forall2_app (FL _ _ _ _ _ F E) (Forall2_cons _ _ (item_read_as i) (Forall2_nil _))) H) as (A' & B' & C' & D').
    repeat split; try congruence. now rewrite <- app_assoc in D'.
Qed.

Lemma reads_as o r : reads o r -> section_read_as o r.
Proof.
  intros (z0 & z1 & H). destruct (run_items_read _ _ (POsec (pr_name o) (Some (pr_addr o)) (Some (pr_size o)) []) None [] _ _ (Forall2_nil _) H) as (A & B & C & D). repeat split; auto.
Qed.

Lemma read_back rs l crt lines m : printed_map rs l crt lines -> map_file lines = Ok m -> Forall2 section_read_as l (pm_sections m).
Proof.
  intros P H. destruct (printed_map_reads _ _ _ _ _ P H) as (_ & F & _).
  clear -F. induction F; constructor; auto using reads_as.
Qed.

(** ** the sizes *)

Lemma pads_size_rule l : forall i ia, pi_addr i = Some ia ->
  pi_size (fold_left pad_apply l i) =
  if existsb (fun p => match p with Fill a _ => a =? ia | Data _ => false end) l then Some 0 else pi_size i.
Proof.
  induction l as [|p l IH]; intros i ia A; cbn [fold_left existsb]; auto.
  rewrite (IH _ ia) by now rewrite pad_apply_addr.
  destruct p as [a n|n]; cbn [pad_apply]; [|reflexivity]. rewrite A, (Z.eqb_sym ia a).
  destruct (a =? ia); cbn [orb]; [|destruct (existsb _ l); reflexivity]. destruct (existsb _ l); reflexivity.
Qed.

Lemma item_size_rule i : pi_size (item_isec i) = Some (if padded_at_start i then 0 else it_size i).
Proof.
  unfold item_isec. erewrite (pads_size_rule _ _ (it_addr i)) by reflexivity. unfold padded_at_start. destruct (existsb _ _); reflexivity.
Qed.

Lemma sizes_snoc o l : forall first, sizes_read o first l = [] /\ l = [] \/
  exists l0 x q s, l = l0 ++ [x] /\ sizes_read o first l = q ++ [s] /\
    forall i, sizes_read o first (l ++ [i]) = q ++ [if it_addr i =? it_addr x then 0 else s] ++
      [if outside_section o i || padded_at_start i then 0 else it_size i].
Proof.
  induction l as [|y l IH]; intro first; [now left|]. right. destruct (IH false) as [[_ ->]|(l0 & x & q & s & -> & E & H)].
  - exists [], y, [], (if (negb first && outside_section o y) || padded_at_start y then 0 else it_size y).
    split; [reflexivity|]. split; [cbn; now rewrite orb_false_r|]. intro i. cbn [app sizes_read next_at_start negb andb].
    rewrite orb_false_r. f_equal.
    destruct (it_addr i =? it_addr y); [now rewrite orb_true_r|now rewrite orb_false_r].
  - exists (y :: l0), x, ((if (negb first && outside_section o y) || padded_at_start y || next_at_start y (l0 ++ [x]) then 0 else it_size y) :: q), s.
    split; [reflexivity|]. split; [cbn [sizes_read app]; now rewrite E|]. intro i. cbn [sizes_read app]. rewrite H.
    cbn [app]. f_equal. destruct l0; reflexivity.
Qed.

Lemma same_sizes l l' : Forall2 same_isec l l' -> map pi_size l = map pi_size l'.
Proof. induction 1 as [|x y l l' (A & B & C & _) _ IH]; cbn [map]; congruence. Qed.

Lemma add_input_sizes p size o i it l o' : po_addr o = Some (pr_addr p) -> po_size o = Some (pr_size p) ->
  Forall2 read_as l (po_isecs o) -> map pi_size (po_isecs o) = map Some (sizes_read p true l) ->
  i = item_isec it -> add_input_section size o i = Ok o' ->
  map pi_size (po_isecs o') = map Some (sizes_read p true (l ++ [it])).
Proof.
  intros OA OS F SZ -> H. destruct (add_input_shape _ _ _ _ H) as (_ & _ & _ & [[E E']|
    (before & last & a & oa & os & last1 & i1 & before' & E & IA & OA' & OS' & I1 & L1 & SM & CASES)]).
  - rewrite E in F. inversion F; subst. rewrite E'. cbn. now rewrite item_size_rule, orb_false_r.
  - rewrite OA in OA'. rewrite OS in OS'. injection OA' as <-. injection OS' as <-.
    assert (IA' : a = it_addr it) by (unfold item_isec in IA; rewrite pads_addr in IA; now injection IA). subst a.
    rewrite E in F, SZ. apply Forall2_split_r in F as (l1 & y & -> & F1 & Y).
    destruct (sizes_snoc p (l1 ++ [y]) true) as [[_ X]|(l0 & x & q & s & LE & SE & R)]; [now destruct l1|].
    apply app_inj_tail in LE as [<- <-].
    rewrite SE, !map_app in SZ. cbn [map] in SZ. apply app_inj_tail in SZ as [SZ1 SZ2].
    assert (B : map pi_size before' = map Some (q ++ [if it_addr it =? it_addr y then 0 else s])).
    { rewrite <- (same_sizes _ _ SM), !map_app, SZ1. cbn [map]. do 2 f_equal. rewrite L1.
      destruct Y as (_ & YA & _). rewrite YA, Z.eqb_sym. destruct (it_addr it =? it_addr y); auto. }
    assert (I1' : pi_size i1 = Some (if outside_section p it || padded_at_start it then 0 else it_size it)).
    { rewrite I1. unfold outside_section. rewrite Z.geb_leb.
      destruct ((it_addr it <? pr_addr p) || (pr_addr p + pr_size p <=? it_addr it)); cbn [orb]; [reflexivity|]. apply item_size_rule. }
    rewrite R, app_assoc, map_app, <- B. cbn [map]. rewrite <- I1'.
    destruct CASES as [(_ & _ & ->)|(_ & _ & _ & ->)]; now rewrite map_app.
Qed.

Lemma run_items_sizes p items : forall z o ip l r z1, po_addr o = Some (pr_addr p) -> po_size o = Some (pr_size p) ->
  Forall2 read_as l (po_isecs o) -> map pi_size (po_isecs o) = map Some (sizes_read p true l) ->
  run_items z o (option_map item_isec ip) items = Ok (r, z1) ->
  map pi_size (po_isecs r) = map Some (sizes_read p true (l ++ match ip with Some i => [i] | None => [] end ++ items)).
Proof.
  assert (FL : forall z o ip l o1, po_addr o = Some (pr_addr p) -> po_size o = Some (pr_size p) ->
    Forall2 read_as l (po_isecs o) -> map pi_size (po_isecs o) = map Some (sizes_read p true l) ->
    flush_input z o (option_map item_isec ip) = Ok o1 ->
    Forall2 read_as (l ++ match ip with Some i => [i] | None => [] end) (po_isecs o1) /\
    map pi_size (po_isecs o1) = map Some (sizes_read p true (l ++ match ip with Some i => [i] | None => [] end))).
  { intros z o [i|] l o1 OA OS F SZ H; cbn [option_map flush_input] in H.
    - split; [eapply add_input_read; eauto using item_read_as|eapply add_input_sizes; eauto].
    - injection H as <-. rewrite app_nil_r. auto. }
  induction items as [|i items IH]; intros z o ip l r z1 OA OS F SZ; cbn [run_items].
  - destruct (flush_input z o (option_map item_isec ip)) as [o1|] eqn:E; cbn [bind]; [|discriminate]. intro H. injection H as <- <-.
    rewrite app_nil_r. now apply (FL _ _ _ _ _ OA OS F SZ E).
  - destruct (flush_input z o (option_map item_isec ip)) as [o1|] eqn:E; cbn [bind]; [|discriminate]. intro H.
    destruct (flush_po _ _ _ _ E) as (A & B & C). destruct (FL _ _ _ _ _ OA OS F SZ E) as [F1 SZ1].
    rewrite (IH (last_fill z (it_pads i)) o1 (Some i) (l ++ match ip with Some i => [i] | None => [] end) r z1); try congruence; auto.
    now rewrite <- app_assoc.
Qed.

Lemma reads_sizes o r : reads o r -> map pi_size (po_isecs r) = map Some (sizes_read o true (pr_items o)).
Proof.
  intros (z0 & z1 & H).
  exact (run_items_sizes o (pr_items o) z0 (POsec (pr_name o) (Some (pr_addr o)) (Some (pr_size o)) []) None [] r z1 eq_refl eq_refl (Forall2_nil _) eq_refl H).
Qed.

Lemma read_back_sizes rs l crt lines m : printed_map rs l crt lines -> map_file lines = Ok m ->
  Forall2 (fun o r => section_read_as o r /\ map pi_size (po_isecs r) = map Some (sizes_read o true (pr_items o))) l (pm_sections m).
Proof.
  intros P H. destruct (printed_map_reads _ _ _ _ _ P H) as (_ & F & _).
  clear -F. induction F; constructor; auto using reads_as, reads_sizes.
Qed.

(** ** regular sections exactly *)

Lemma add_regular size o i last before a oa os :
  po_isecs o = before ++ [last] -> pi_addr i = Some a -> po_addr o = Some oa -> po_size o = Some os ->
  oa <= a < oa + os -> pi_addr last <> Some a -> (pi_size i = Some 0 -> pi_fill i = 0) -> pi_size i <> None ->
  add_input_section size o i = Ok (set_pisecs (po_isecs o ++ [i]) o).
Proof.
  intros E A OA OS R L F N. unfold add_input_section. rewrite E, rev_app_distr. cbn [rev app].
  rewrite A, OA, OS. cbv zeta.
  replace ((a <? oa) || (a >=? oa + os)) with false.
  2:{ symmetry. apply orb_false_iff. split; [apply Z.ltb_ge; lia|]. rewrite Z.geb_leb. apply Z.leb_gt. lia. }
  replace (match pi_addr last with Some la => la =? a | None => false end) with false.
  2:{ destruct (pi_addr last); auto. symmetry. apply Z.eqb_neq. congruence. }
  replace (negb (truthy (pi_size i)) && negb (pi_fill i =? 0)) with false.
  2:{ destruct (pi_size i) as [n|]; [|contradiction]. cbn [truthy]. rewrite negb_involutive.
      destruct (Z.eqb_spec n 0) as [->|]; auto. rewrite F by reflexivity. reflexivity. }
  cbn [rev]. rewrite rev_involutive. reflexivity.
Qed.

Lemma distinct_app l i j r : distinct_neighbours (l ++ i :: j :: r) -> it_addr i <> it_addr j.
Proof.
  induction l as [|x l IH]; cbn [app].
  - intros [H _]. exact H.
  - intro H. apply IH. destruct l; cbn [app] in *; apply H.
Qed.

Lemma in_tl_mid {A} (done : list A) x p r : In p (tl ((done ++ [x]) ++ p :: r)).
Proof. destruct done; cbn [app tl]; [now left|]. apply in_or_app. right. now left. Qed.

Lemma run_regular o : forall items done p z,
  regular o -> pr_items o = done ++ p :: items ->
  exists z1, run_items z (POsec (pr_name o) (Some (pr_addr o)) (Some (pr_size o)) (map exact_isec done)) (Some (exact_isec p)) items = Ok (exact_section o, z1).
Proof.
  intros items. induction items as [|i items IH]; intros done p z REG E.
  - cbn [run_items].
    assert (X : flush_input z (POsec (pr_name o) (Some (pr_addr o)) (Some (pr_size o)) (map exact_isec done)) (Some (exact_isec p)) =
      Ok (exact_section o)).
    { cbn [flush_input]. unfold exact_section. rewrite E. destruct REG as (_ & R & D).
      destruct done as [|x done] using rev_ind; [reflexivity|]. clear IHdone.
      rewrite map_app. cbn [map].
      erewrite add_regular with (before := map exact_isec done) (last := exact_isec x); [|reflexivity..| | | |].
      - unfold set_pisecs. cbn [po_isecs po_name po_addr po_size]. rewrite !map_app. cbn [map]. reflexivity.
      - rewrite E in R. rewrite Forall_forall in R. apply R. apply in_tl_mid.
      - cbn. rewrite E in D. rewrite <- app_assoc in D. cbn [app] in D. apply distinct_app in D. congruence.
      - cbn. intro S0. injection S0 as S0. rewrite E in R. rewrite Forall_forall in R.
        apply (R p); auto. apply in_tl_mid.
      - discriminate. }
    rewrite X. cbn [bind]. eauto.
  - cbn [run_items].
    assert (X : flush_input z (POsec (pr_name o) (Some (pr_addr o)) (Some (pr_size o)) (map exact_isec done)) (Some (exact_isec p)) =
      Ok (POsec (pr_name o) (Some (pr_addr o)) (Some (pr_size o)) (map exact_isec (done ++ [p])))).
    { cbn [flush_input]. destruct REG as (_ & R & D).
      destruct done as [|x done] using rev_ind; [reflexivity|]. clear IHdone.
      rewrite map_app. cbn [map].
      erewrite add_regular with (before := map exact_isec done) (last := exact_isec x); [|reflexivity..| | | |].
      - unfold set_pisecs. cbn [po_isecs po_name po_addr po_size]. rewrite !map_app. cbn [map]. reflexivity.
      - rewrite E in R. rewrite Forall_forall in R. apply R. apply in_tl_mid.
      - cbn. rewrite E in D. rewrite <- app_assoc in D. cbn [app] in D. apply distinct_app in D. congruence.
      - cbn. intro S0. injection S0 as S0. rewrite E in R. rewrite Forall_forall in R.
        apply (R p); auto. apply in_tl_mid.
      - discriminate. }
    rewrite X. cbn [bind].
    assert (FI : fill_elsewhere i).
    { destruct REG as (F & _). rewrite Forall_forall in F. apply F. rewrite E. apply in_or_app. right. right. now left. }
    rewrite (item_exact _ FI). apply IH; auto. rewrite E, <- app_assoc. reflexivity.
Qed.

Lemma run_regular0 o z : regular o -> exists z1,
  run_items z (POsec (pr_name o) (Some (pr_addr o)) (Some (pr_size o)) []) None (pr_items o) = Ok (exact_section o, z1).
Proof.
  intro REG. destruct (pr_items o) as [|i items] eqn:E.
  - exists z. cbn [run_items flush_input bind]. unfold exact_section. rewrite E. reflexivity.
  - cbn [run_items flush_input bind].
    assert (FI : fill_elsewhere i) by (destruct REG as (F & _); rewrite E in F; now inversion F).
    rewrite (item_exact _ FI). apply (run_regular o items [] i); auto.
Qed.

Lemma exact_read_back rs l crt lines : printed_map rs l crt lines -> Forall regular l ->
  exists m, map_file lines = Ok m /\ pm_regions m = rs /\ pm_sections m = map exact_section l /\
    pm_crt m = match crt with None => None | Some es => match fold_left put_entry es [] with [] => None | t => Some t end end.
Proof.
  intros P REG. destruct (printed_map_run _ _ _ _ P) as (ls & script & r & S & E).
  assert (T : forall o, In o l -> forall z0, exists r, run_items z0 (POsec (pr_name o) (Some (pr_addr o)) (Some (pr_size o)) []) None (pr_items o) = Ok r).
  { intros o I z0. rewrite Forall_forall in REG. destruct (run_regular0 o z0 (REG o I)) as [z1 X]. eauto. }
  destruct (script_total _ _ S T None []) as [st X].
  destruct (script_run _ _ S _ _ _ X) as (q & z1 & -> & F). rewrite X in E. cbn [bind ps_found negb ps_done app] in E.
  eexists. split; [exact E|]. cbn [pm_regions pm_sections pm_crt]. repeat split; auto.
  clear -F REG. induction F as [|o r l q (z0 & z1 & R) _ IH]; cbn [map]; auto. inversion REG; subst.
  destruct (run_regular0 o z0) as [z2 Y]; auto. rewrite Y in R. injection R as <- <-. f_equal. auto.
Qed.

(** ** padding *)

Definition fills (l : list pisec) : Z := fold_right (fun i z => pi_fill i + z) 0 l.
Lemma fills_app l1 l2 : fills (l1 ++ l2) = fills l1 + fills l2.
Proof. unfold fills. induction l1; cbn [app fold_right]; lia. Qed.
Lemma fills_rev l : fills (rev l) = fills l.
Proof. induction l; cbn [rev]; auto. rewrite fills_app, IHl. unfold fills. cbn [fold_right]. lia. Qed.

Lemma charge_fills n l l' : charge_fill (Some n) l = Ok l' -> (exists x, In x l /\ truthy (pi_size x) = true) -> fills l' = fills l + n.
Proof.
  revert l'. induction l as [|s l IH]; intros l' H (x & I & T); [destruct I|]. cbn [charge_fill] in H.
  destruct (truthy (pi_size s)) eqn:TS.
  - injection H as <-. unfold fills. cbn. lia.
  - destruct (charge_fill (Some n) l) as [l1|]; cbn [bind] in H; [|discriminate]. injection H as <-.
    destruct I as [->|I]; [congruence|]. unfold fills. cbn [fold_right]. fold (fills l1) (fills l). rewrite (IH _ eq_refl); [lia|eauto].
Qed.

(** non-empty first input section *)
Definition first_nonempty (l : list pisec) : Prop := match l with i :: _ => truthy (pi_size i) = true | [] => True end.

Lemma add_fills z o i o' : add_input_section z o i = Ok o' ->
  (truthy (pi_size i) = false \/ (exists a oa os, pi_addr i = Some a /\ po_addr o = Some oa /\ po_size o = Some os /\ ~ oa <= a < oa + os) ->
     pi_fill i = 0 \/ z = Some (pi_fill i)) ->
  first_nonempty (po_isecs o') ->
  first_nonempty (po_isecs o) /\ fills (po_isecs o') = fills (po_isecs o) + pi_fill i.
Proof.
  intros H EMPTY FN. destruct (add_input_shape _ _ _ _ H) as (_ & _ & _ & [[E E']|
    (before & last & a & oa & os & last1 & i1 & before' & E & IA & OA & OS & I1 & L1 & SM & CASES)]).
  - rewrite E, E'. split; [exact I|]. unfold fills. cbn. lia.
  - assert (FL : pi_fill last1 = pi_fill last) by (rewrite L1; match goal with |- context [if ?b then _ else _] => destruct b end; auto).
    assert (FI : pi_fill i1 = pi_fill i) by (rewrite I1; destruct (_ || _); auto).
    assert (TL : truthy (pi_size last1) = true -> truthy (pi_size last) = true).
    { rewrite L1. match goal with |- context [if ?b then _ else _] => destruct b end; auto. cbn. discriminate. }
    assert (FB : first_nonempty before' -> before' <> [] -> first_nonempty (before ++ [last1]) ).
    { intros G _. clear -SM G. inversion SM as [|x y l l' (_ & _ & S & _) F]; subst; [exact I|]. cbn in *. now rewrite S. }
    assert (NB : before' <> []).
    { intro Q. subst before'. inversion SM. destruct before; discriminate. }
    assert (G : first_nonempty before').
    { destruct before'; [contradiction|]. destruct CASES as [(_ & _ & Q)|(_ & _ & _ & Q)]; rewrite Q in FN; exact FN. }
    specialize (FB G NB). split.
    + rewrite E. clear -FB TL. destruct before; cbn in *; auto.
    + destruct CASES as [(_ & -> & Q)|(T & NZ & C & Q)]; rewrite Q, E, !fills_app; unfold fills; cbn [fold_right set_ifill pi_fill].
      * fold (fills before). lia.
      * assert (Z : z = Some (pi_fill i)).
        { destruct EMPTY as [X|X]; auto; [|congruence].
          rewrite I1 in T. destruct ((a <? oa) || (a >=? oa + os)) eqn:O; auto.
          right. exists a, oa, os. repeat split; auto. apply orb_true_iff in O as [O|O]; [apply Z.ltb_lt in O|apply Z.geb_le in O]; lia. }
        rewrite Z in C. apply charge_fills in C.
        -- rewrite !fills_rev, fills_app in C. unfold fills in C. cbn [fold_right] in C. lia.
        -- clear -FB. assert (exists x, In x (before ++ [last1]) /\ truthy (pi_size x) = true) as (x & X & T).
           { destruct before; cbn in *; eexists; split; eauto. }
           exists x. split; auto. now apply -> in_rev.
Qed.

Lemma item_isec_fill i : pi_fill (item_isec i) = pads_size (it_pads i).
Proof. unfold item_isec. rewrite pads_fill. reflexivity. Qed.
Lemma item_isec_addr i : pi_addr (item_isec i) = Some (it_addr i).
Proof. unfold item_isec. now rewrite pads_addr. Qed.

(** a pending item may be charged elsewhere without loss *)
Definition chargeable (o : printed) (i : item) (z : option Z) : Prop :=
  takes_no_space o i -> pads_size (it_pads i) = 0 \/ z = Some (pads_size (it_pads i)).

Lemma one_fill_chargeable o i z : (takes_no_space o i -> at_most_one_fill i) -> chargeable o i (last_fill z (it_pads i)).
Proof.
  intros H T. destruct (H T) as [->|(a & n & ->)]; [now left|]. right. cbn. f_equal. lia.
Qed.

Lemma item_empty o i oa os : truthy (pi_size (item_isec i)) = false \/ ~ oa <= it_addr i < oa + os ->
  pr_addr o = oa -> pr_size o = os -> takes_no_space o i.
Proof.
  intros [H|H] <- <-; [|right; left; exact H].
  destruct (existsb (fun p => match p with Fill a _ => a =? it_addr i | Data _ => false end) (it_pads i)) eqn:E.
  - apply existsb_exists in E as ([a n|n] & I & Q); [|discriminate]. apply Z.eqb_eq in Q. subst a. right. right. eauto.
  - left. unfold item_isec in H. rewrite (pads_size_kept _ _ (it_addr i)) in H; auto.
    + cbn in H. apply negb_false_iff, Z.eqb_eq in H. exact H.
    + intros a n I Q. assert (X : existsb (fun p => match p with Fill a _ => a =? it_addr i | Data _ => false end) (it_pads i) = true).
      { apply existsb_exists. exists (Fill a n). split; auto. now apply Z.eqb_eq. }
      congruence.
Qed.

Lemma run_items_fills pr : forall items z o p r z1,
  po_addr o = Some (pr_addr pr) -> po_size o = Some (pr_size pr) ->
  (po_isecs o = [] \/ chargeable pr p z) ->
  Forall (fun i => takes_no_space pr i -> at_most_one_fill i) items ->
  run_items z o (Some (item_isec p)) items = Ok (r, z1) -> first_nonempty (po_isecs r) ->
  first_nonempty (po_isecs o) /\
  read_padding r = fills (po_isecs o) + fold_right (fun i z => pads_size (it_pads i) + z) 0 (p :: items).
Proof.
  induction items as [|i items IH]; intros z o p r z1 A S C F; cbn [run_items].
  - destruct (flush_input z o (Some (item_isec p))) as [o1|] eqn:E; cbn [bind]; [|discriminate]. intros H FN. injection H as <- <-.
    cbn [flush_input] in E. destruct C as [C|C].
    + unfold add_input_section in E. rewrite C in E. cbn [rev] in E. injection E as <-. rewrite C. split; [exact I|].
      unfold read_padding, fills. cbn. rewrite item_isec_fill. lia.
    + destruct (add_fills _ _ _ _ E) as [G1 G2]; auto.
      * intro T. rewrite item_isec_fill. apply C. apply (item_empty pr p (pr_addr pr) (pr_size pr)); auto.
        destruct T as [T|(a & oa & os & P1 & P2 & P3 & P4)]; [now left|]. right. rewrite item_isec_addr in P1. congruence.
      * split; auto. unfold read_padding. fold (fills (po_isecs o1)). rewrite G2, item_isec_fill. cbn. lia.
  - destruct (flush_input z o (Some (item_isec p))) as [o1|] eqn:E; cbn [bind]; [|discriminate]. intros H FN.
    destruct (flush_po _ _ _ _ E) as (_ & A1 & S1). inversion F as [|? ? FI FR]; subst.
    destruct (IH _ _ _ _ _ (eq_trans A1 A) (eq_trans S1 S) (or_intror (one_fill_chargeable pr i z FI)) FR H FN) as [G1 G2].
    cbn [flush_input] in E. destruct C as [C|C].
    + unfold add_input_section in E. rewrite C in E. cbn [rev] in E. injection E as <-. rewrite C. split; [exact I|].
      rewrite G2. unfold fills. cbn. rewrite item_isec_fill. lia.
    + destruct (add_fills _ _ _ _ E) as [G3 G4]; auto.
      * intro T. rewrite item_isec_fill. apply C. apply (item_empty pr p (pr_addr pr) (pr_size pr)); auto.
        destruct T as [T|(a & oa & os & P1 & P2 & P3 & P4)]; [now left|]. right. rewrite item_isec_addr in P1. congruence.
      * split; auto. rewrite G2, G4, item_isec_fill. cbn. lia.
Qed.

Lemma reads_fills o r : reads o r -> Forall (fun i => takes_no_space o i -> at_most_one_fill i) (tl (pr_items o)) ->
  (forall i l, po_isecs r = i :: l -> pi_size i <> Some 0) -> read_padding r = printed_padding o.
Proof.
  intros R F N. pose proof (reads_as _ _ R) as (_ & _ & _ & RA).
  assert (FN : first_nonempty (po_isecs r)).
  { destruct (po_isecs r) as [|i l] eqn:E; [exact I|]. specialize (N i l eq_refl). cbn.
    inversion RA as [|x y ? ? (_ & _ & _ & _ & SZ)]; subst. destruct SZ as [SZ|SZ]; rewrite SZ in *; cbn; [|now contradiction N].
    destruct (Z.eqb_spec (it_size x) 0) as [Q|Q]; auto. rewrite Q in N. now contradiction N. }
  destruct R as (z0 & z1 & H). unfold printed_padding. destruct (pr_items o) as [|i items].
  - cbn [run_items flush_input bind] in H. injection H as <- <-. reflexivity.
  - cbn [run_items flush_input bind] in H.
    destruct (run_items_fills o items _ _ _ _ _ (eq_refl : po_addr (POsec (pr_name o) (Some (pr_addr o)) (Some (pr_size o)) []) = _) eq_refl (or_introl eq_refl) F H FN) as [_ G].
    rewrite G. reflexivity.
Qed.

Lemma padding_kept rs l crt lines m : printed_map rs l crt lines -> map_file lines = Ok m ->
  Forall2 (fun o r => Forall (fun i => takes_no_space o i -> at_most_one_fill i) (tl (pr_items o)) ->
                      (forall i l, po_isecs r = i :: l -> pi_size i <> Some 0) ->
                      read_padding r = printed_padding o) l (pm_sections m).
Proof.
  intros P H. destruct (printed_map_reads _ _ _ _ _ P H) as (_ & F & _).
  clear -F. induction F; constructor; auto. intros. now apply reads_fills.
Qed.
