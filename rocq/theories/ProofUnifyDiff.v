From Verif Require Import Base MemMap SpecTree ProofDiff ProofUnify.
From Coq Require Import List ZArith Lia Bool.
Import ListNotations.
Open Scope list_scope.
Open Scope Z_scope.

Lemma sel_flat_map {A} p (g : A -> list (list str * entry)) l :
  sel p (flat_map g l) = flat_map (fun a => sel p (g a)) l.
Proof.
  induction l as [|a l IH]; simpl; [reflexivity|]. rewrite sel_app, IH. reflexivity.
Qed.

Lemma sel_nonempty p l : sel p l <> [] <-> In p (map fst l).
Proof.
  unfold sel. split.
  - intros N. destruct (filter (fun pe => fst pe =?= p) l) as [|pe l'] eqn:E; [exfalso; apply N; reflexivity|].
    assert (I : In pe (pe :: l')) by (simpl; auto). rewrite <- E in I.
    apply filter_In in I. destruct I as [I K]. apply keq_true in K. subst. apply in_map, I.
  - intros I F. apply in_map_iff in I. destruct I as (pe & <- & I).
    assert (I2 : In pe (filter (fun x => fst x =?= fst pe) l)).
    { apply filter_In. split; [assumption|apply keq_refl]. }
    apply (in_map snd) in I2. rewrite F in I2. destruct I2.
Qed.

Section MergeSums.
  Context {C : Type} (mergeC : C -> C -> C).
  Variables (cur ref : option (dict str C)) (m : dict str C).
  Hypothesis Wc : forall d, cur = Some d -> wf_dict d.
  Hypothesis Wr : forall d, ref = Some d -> wf_dict d.
  Hypothesis M : omerge (merge_level mergeC) cur ref = Some m.

  Lemma merged_wf : wf_dict m.
  Proof.
    destruct cur as [dc|]; simpl in M.
    + destruct ref as [dr|]; injection M as <-; [apply wf_merge_level|]; apply (Wc dc eq_refl).
    + apply Wr. exact M.
  Qed.

  Lemma merged_dget k : dget k m = omerge mergeC (og k cur) (og k ref).
  Proof.
    destruct cur as [dc|], ref as [dr|]; simpl in M; try discriminate M; injection M as <-; simpl.
    - apply dget_merge_level. apply (Wr dr eq_refl).
    - destruct (dget k dc); reflexivity.
    - destruct (dget k dr); reflexivity.
  Qed.

  Lemma merged_sum_cur (f : C -> Z) :
    zsumf (fun kv => oval f (og (fst kv) cur)) m = oval (zsumf (fun kv => f (snd kv))) cur.
  Proof.
    replace (zsumf (fun kv : str * C => oval f (og (fst kv) cur)) m)
      with (zsumf (fun k => oval f (og k cur)) (keys m))
      by (unfold keys; rewrite zsumf_map; reflexivity).
    pose proof merged_wf as Wm.
    destruct cur as [d|]; simpl.
    - apply zsumf_keys; [apply (Wc d eq_refl)|exact Wm|].
      intros k I. destruct ref; simpl in M; injection M as <-; [|assumption].
      apply keys_merge_level. auto.
    - apply zsumf_zero. reflexivity.
  Qed.

  Lemma merged_sum_ref (f : C -> Z) :
    zsumf (fun kv => oval f (og (fst kv) ref)) m = oval (zsumf (fun kv => f (snd kv))) ref.
  Proof.
    replace (zsumf (fun kv : str * C => oval f (og (fst kv) ref)) m)
      with (zsumf (fun k => oval f (og k ref)) (keys m))
      by (unfold keys; rewrite zsumf_map; reflexivity).
    pose proof merged_wf as Wm.
    destruct ref as [d|]; simpl.
    - apply zsumf_keys; [apply (Wr d eq_refl)|exact Wm|].
      intros k I. destruct cur; simpl in M; injection M as <-; [|assumption].
      apply keys_merge_level. auto.
    - apply zsumf_zero. reflexivity.
  Qed.
End MergeSums.

Definition agree {C} (lookC : list str -> C -> option entry) (c r : option C) : Prop :=
  forall p x y, olook lookC p c = Some x -> olook lookC p r = Some y -> e_abbrev x = e_abbrev y.

Definition osel {C} (aents : C -> list (list str * entry)) p (o : option C) : list entry :=
  match o with Some c => sel p (aents c) | None => [] end.

(** aggregated sizes of the fixed/merged item [f] against those of [c] and [r] *)
Definition sums_ok {C} (aents : C -> list (list str * entry)) (c r : option C) (f : C) : Prop :=
  forall p,
    zsumf e_size (sel p (aents f)) = zsumf e_size (osel aents p c) /\
    zsumf e_diff (sel p (aents f)) = zsumf e_size (osel aents p c) - zsumf e_size (osel aents p r) /\
    (sel p (aents f) = [] <-> osel aents p c = [] /\ osel aents p r = []).

Definition comm_ok {C} (mergeC : C -> C -> C) (fixC : option C -> option C -> C -> C)
    (lookC : list str -> C -> option entry) (aents : C -> list (list str * entry)) (wfC : C -> Prop) : Prop :=
  forall c r m,
    (forall x, c = Some x -> wfC x) -> (forall x, r = Some x -> wfC x) ->
    omerge mergeC c r = Some m -> agree lookC c r ->
    sums_ok aents c r (fixC c r m).

Definition daents {C} (aents : C -> list (list str * entry)) (d : dict str C) :=
  flat_map (fun kc => aents (snd kc)) d.

Lemma osel_daents_size {C} (aents : C -> list (list str * entry)) p (o : option (dict str C)) :
  zsumf e_size (osel (daents aents) p o) =
  oval (zsumf (fun kv => zsumf e_size (sel p (aents (snd kv))))) o.
Proof.
  destruct o as [d|]; simpl; [|reflexivity].
  unfold daents. rewrite sel_flat_map, zsumf_flat_map. reflexivity.
Qed.

Lemma flat_map_nil {A B} (g : A -> list B) l : flat_map g l = [] <-> (forall a, In a l -> g a = []).
Proof.
  induction l as [|a l IH]; simpl.
  - split; [intros _ ? []|reflexivity].
  - split.
    + intros E. apply app_eq_nil in E. destruct E as [E1 E2]. rewrite IH in E2.
      intros b [<-|I]; auto.
    + intros H. rewrite (H a) by auto. apply IH. auto.
Qed.

Section DictLevel.
  Context {C : Type} (mergeC : C -> C -> C) (fixC : option C -> option C -> C -> C)
          (lookC : list str -> C -> option entry) (aents : C -> list (list str * entry)) (wfC : C -> Prop).
  Hypothesis OK : comm_ok mergeC fixC lookC aents wfC.

  Lemma comm_dict (cur ref : option (dict str C)) m :
    (forall d, cur = Some d -> wf_sub wfC d) -> (forall d, ref = Some d -> wf_sub wfC d) ->
    omerge (merge_level mergeC) cur ref = Some m ->
    agree (look_dict lookC) cur ref ->
    sums_ok (daents aents) cur ref
      (map (fun kv => (fst kv, fixC (og (fst kv) cur) (og (fst kv) ref) (snd kv))) m).
  Proof.
    intros Wc Wr M A.
    assert (Wc' : forall d, cur = Some d -> wf_dict d) by (intros d E; apply (Wc d E)).
    assert (Wr' : forall d, ref = Some d -> wf_dict d) by (intros d E; apply (Wr d E)).
    pose proof (merged_wf mergeC cur ref m Wc' Wr' M) as Wm.
    assert (K : forall kv, In kv m ->
      sums_ok aents (og (fst kv) cur) (og (fst kv) ref)
              (fixC (og (fst kv) cur) (og (fst kv) ref) (snd kv))).
    { intros [k x] I. apply OK.
      - intros y E. destruct cur as [d|]; [|discriminate]. eapply dget_wf; [apply (Wc d eq_refl)|exact E].
      - intros y E. destruct ref as [d|]; [|discriminate]. eapply dget_wf; [apply (Wr d eq_refl)|exact E].
      - rewrite <- (merged_dget mergeC cur ref m Wc' Wr' M). apply In_dget; assumption.
      - intros p u v U V. apply (A (k :: p) u v).
        + destruct cur as [d|]; simpl in *; [|discriminate]. destruct (dget k d); [exact U|discriminate].
        + destruct ref as [d|]; simpl in *; [|discriminate]. destruct (dget k d); [exact V|discriminate]. }
    intros p.
    assert (FS : sel p (daents aents (map (fun kv => (fst kv, fixC (og (fst kv) cur) (og (fst kv) ref) (snd kv))) m))
      = flat_map (fun kv => sel p (aents (fixC (og (fst kv) cur) (og (fst kv) ref) (snd kv)))) m).
    { unfold daents. rewrite sel_flat_map, !flat_map_concat_map, map_map. reflexivity. }
    rewrite FS. clear FS. rewrite !zsumf_flat_map.
    rewrite !osel_daents_size.
    pose proof (merged_sum_cur mergeC cur ref m Wc' Wr' M (fun c => zsumf e_size (sel p (aents c)))) as SC.
    pose proof (merged_sum_ref mergeC cur ref m Wc' Wr' M (fun c => zsumf e_size (sel p (aents c)))) as SR.
    cbv beta in SC, SR. rewrite <- SC, <- SR. clear SC SR.
    assert (OS : forall o, oval (fun c => zsumf e_size (sel p (aents c))) o = zsumf e_size (osel aents p o))
      by (intros [?|]; reflexivity).
    repeat split.
    - apply zsumf_ext. intros kv I. rewrite OS. apply (K kv I p).
    - rewrite <- zsumf_minus. apply zsumf_ext. intros kv I. rewrite !OS. apply (K kv I p).
    - rename H into E. rewrite flat_map_nil in E.
      destruct cur as [d|]; [|reflexivity]. simpl. unfold daents. rewrite sel_flat_map, flat_map_nil.
      intros [k c] I. simpl.
      assert (G : dget k d = Some c) by (apply In_dget; [apply (Wc' d eq_refl)|assumption]).
      assert (X : In k (keys m)).
      { destruct ref; simpl in M; injection M as <-.
        - apply keys_merge_level. left. apply (in_map fst) in I. exact I.
        - apply (in_map fst) in I. exact I. }
      apply In_key_dget in X. destruct X as (x & X). apply dget_In in X.
      specialize (E _ X). specialize (K _ X p). cbn [fst snd] in *.
      simpl og in *. rewrite G in *. apply K in E. apply E.
    - rename H into E. rewrite flat_map_nil in E.
      destruct ref as [d|]; [|reflexivity]. simpl. unfold daents. rewrite sel_flat_map, flat_map_nil.
      intros [k c] I. simpl.
      assert (G : dget k d = Some c) by (apply In_dget; [apply (Wr' d eq_refl)|assumption]).
      assert (X : In k (keys m)).
      { destruct cur; simpl in M; injection M as <-.
        - apply keys_merge_level. right. apply (in_map fst) in I. exact I.
        - apply (in_map fst) in I. exact I. }
      apply In_key_dget in X. destruct X as (x & X). apply dget_In in X.
      specialize (E _ X). specialize (K _ X p). cbn [fst snd] in *.
      simpl og in *. rewrite G in *. apply K in E. apply E.
    - intros [E1 E2]. rewrite flat_map_nil. intros [k x] I. cbn [fst snd].
      apply (K _ I p). cbn [fst snd]. split.
      + destruct cur as [d|]; [|reflexivity]. simpl. destruct (dget k d) as [c|] eqn:G; [|reflexivity].
        simpl in E1. unfold daents in E1. rewrite sel_flat_map, flat_map_nil in E1.
        apply dget_In in G. apply (E1 _ G).
      + destruct ref as [d|]; [|reflexivity]. simpl. destruct (dget k d) as [c|] eqn:G; [|reflexivity].
        simpl in E2. unfold daents in E2. rewrite sel_flat_map, flat_map_nil in E2.
        apply dget_In in G. apply (E2 _ G).
  Qed.
End DictLevel.

Lemma sel_aents_node {C} (aents : C -> list (list str * entry)) p (n : node C) :
  sel p (aents_node aents n) =
  (if p =?= [n_abbrev n] then [entry_of_node n] else []) ++
  match p with
  | [] => []
  | k :: q => if k =?= n_abbrev n then sel q (daents aents (n_sub n)) else []
  end.
Proof.
  change (aents_node aents n) with
    ([([n_abbrev n], entry_of_node n)] ++
     map (fun pe => (n_abbrev n :: fst pe, snd pe)) (daents aents (n_sub n))).
  rewrite sel_app. f_equal.
  - unfold sel. simpl. rewrite keq_sym. destruct (p =?= [n_abbrev n]); reflexivity.
  - destruct p as [|k q].
    + apply sel_none. intros pe I. apply in_map_iff in I. destruct I as (? & <- & _). simpl. congruence.
    + destruct (keqP k (n_abbrev n)) as [->|N].
      * apply sel_cons_prefix.
      * apply sel_none. intros pe I. apply in_map_iff in I. destruct I as (? & <- & _). simpl. congruence.
Qed.

Lemma comm_node {C} (mergeC : C -> C -> C) fixC lookC aents wfC :
  comm_ok mergeC fixC lookC aents wfC ->
  comm_ok (merge_node mergeC) (fix_node fixC) (look_node lookC) (aents_node aents) (wf_node wfC).
Proof.
  intros OK c r m Wc Wr M A.
  assert (D : sums_ok (daents aents) (option_map n_sub c) (option_map n_sub r)
      (map (fun kv => (fst kv, fixC (og (fst kv) (option_map n_sub c)) (og (fst kv) (option_map n_sub r)) (snd kv)))
           (n_sub m))).
  { apply (comm_dict mergeC fixC lookC aents wfC OK).
    - intros d E. destruct c as [n|]; [|discriminate]. injection E as <-. apply (Wc n eq_refl).
    - intros d E. destruct r as [n|]; [|discriminate]. injection E as <-. apply (Wr n eq_refl).
    - destruct c as [n|], r as [n'|]; simpl in *; try discriminate M; injection M as <-; reflexivity.
    - intros p x y X Y. apply (A p x y).
      + destruct c as [n|]; [|discriminate]. destruct p; [discriminate X|exact X].
      + destruct r as [n|]; [|discriminate]. destruct p; [discriminate Y|exact Y]. }
  assert (SG : forall k (o : option (node C)), sub_get k o = og k (option_map n_sub o))
    by (intros k [?|]; reflexivity).
  set (F := fix_node fixC c r m).
  assert (FS : n_sub F = map (fun kv => (fst kv, fixC (og (fst kv) (option_map n_sub c)) (og (fst kv) (option_map n_sub r)) (snd kv))) (n_sub m)).
  { subst F. unfold fix_node. destruct c, r; reflexivity. }
  rewrite <- FS in D. clear FS.
  assert (FA : forall n, c = Some n \/ r = Some n -> n_abbrev n = n_abbrev F).
  { intros n E. subst F. destruct c as [x|], r as [y|]; simpl in M; try discriminate M; injection M as <-;
      destruct E as [E|E]; try discriminate E; injection E as <-; try reflexivity.
    symmetry. apply (A [] _ _ eq_refl eq_refl). }
  assert (FE : e_size (entry_of_node F) = oval n_size c /\
               e_diff (entry_of_node F) = oval n_size c - oval n_size r).
  { subst F. destruct c as [x|], r as [y|]; simpl in M; try discriminate M; injection M as <-; simpl; lia. }
  assert (CR : ~ (c = None /\ r = None)).
  { intros [-> ->]. discriminate M. }
  clearbody F. intros p.
  assert (SO : forall o : option (node C), (forall n, o = Some n -> n_abbrev n = n_abbrev F) ->
    osel (aents_node aents) p o =
    match o with None => [] | Some n =>
    (if p =?= [n_abbrev F] then [entry_of_node n] else []) ++
    match p with
    | [] => []
    | k :: q => if k =?= n_abbrev F then osel (daents aents) q (option_map n_sub o) else []
    end end).
  { intros [n|] H; [|reflexivity]. simpl. rewrite sel_aents_node. rewrite (H n eq_refl). reflexivity. }
  rewrite (SO c), (SO r) by (intros; apply FA; auto). rewrite sel_aents_node.
  assert (P : match p with [] => True | k :: q =>
    let '(s, d, e) := (zsumf e_size (sel q (daents aents (n_sub F))),
                       zsumf e_diff (sel q (daents aents (n_sub F))),
                       sel q (daents aents (n_sub F))) in
    s = zsumf e_size (osel (daents aents) q (option_map n_sub c)) /\
    d = zsumf e_size (osel (daents aents) q (option_map n_sub c)) - zsumf e_size (osel (daents aents) q (option_map n_sub r)) /\
    (e = [] <-> osel (daents aents) q (option_map n_sub c) = [] /\ osel (daents aents) q (option_map n_sub r) = []) end).
  { destruct p as [|k q]; [exact I|]. apply (D q). }
  clear D SO. destruct FE as [FE1 FE2].
  destruct p as [|k q].
  - replace ([] =?= [n_abbrev F]) with false by (symmetry; apply keq_neq; congruence).
    destruct c, r; simpl; repeat split; reflexivity.
  - destruct P as (P1 & P2 & P3).
    destruct (keqP k (n_abbrev F)) as [->|N].
    + destruct (keqP (n_abbrev F :: q) [n_abbrev F]) as [E|E].
      * rewrite !zsumf_app, P1, P2, zsumf_cons, zsumf_cons, FE1, FE2.
        destruct c, r; simpl; rewrite ?zsumf_cons, ?zsumf_nil; simpl;
          (split; [lia|split; [lia|]]);
          try (split; [discriminate|intros [? ?]; discriminate]).
      * simpl app. rewrite P1, P2. destruct c, r; simpl in *; rewrite ?zsumf_nil in *; tauto.
    + replace (k :: q =?= [n_abbrev F]) with false by (symmetry; apply keq_neq; congruence).
      destruct c, r; simpl; repeat split; reflexivity.
Qed.

Lemma comm_sym : comm_ok merge_sym fix_sym look_sym aents_sym wf_sym.
Proof.
  intros c r m _ _ M A p.
  assert (S : forall y : sym, sel p (aents_sym y) = if [y_abbrev y] =?= p then [entry_of_sym y] else []).
  { intros y. unfold sel, aents_sym. simpl. destruct ([y_abbrev y] =?= p); reflexivity. }
  destruct c as [x|], r as [y|]; simpl in M; try discriminate M; injection M as <-;
    unfold merge_sym, osel, fix_sym; rewrite !S; simpl.
  - rewrite <- (A [] _ _ eq_refl eq_refl : y_abbrev x = y_abbrev y).
    destruct ([y_abbrev x] =?= p); unfold zsumf; simpl; repeat split; lia || tauto || congruence || (intros [? ?]; congruence).
  - destruct ([y_abbrev x] =?= p); unfold zsumf; simpl; repeat split; lia || tauto || congruence || (intros [? ?]; congruence).
  - destruct ([y_abbrev y] =?= p); unfold zsumf; simpl; repeat split; lia || tauto || congruence || (intros [? ?]; congruence).
Qed.

Lemma comm_sect : comm_ok merge_sect fix_sect look_sect aents_sect wf_sect.
Proof. apply comm_node, comm_node, comm_node, comm_sym. Qed.

Lemma unify_diff_comm a b t p :
  wf_map a -> wf_map b ->
  (forall t p x y, look a t p = Some x -> look b t p = Some y -> e_abbrev x = e_abbrev y) ->
  match look (unify (diff a b)) t p, look (diff (unify a) (unify b)) t p with
  | None, None => True
  | Some e, Some f => e_size e = e_size f /\ e_diff e = e_diff f /\ e_abbrev e = e_abbrev f
  | _, _ => False
  end.
Proof.
  intros Wa Wb A.
  rewrite diff_look by (apply wf_unify; assumption).
  pose proof (unify_look (diff a b) t p) as LD.
  pose proof (unify_look a t p) as LA. pose proof (unify_look b t p) as LB.
  assert (S : zsumf e_size (with_apath (diff a b) t p) = zsumf e_size (with_apath a t p) /\
    zsumf e_diff (with_apath (diff a b) t p) = zsumf e_size (with_apath a t p) - zsumf e_size (with_apath b t p) /\
    (with_apath (diff a b) t p = [] <-> with_apath a t p = [] /\ with_apath b t p = [])).
  { unfold with_apath. rewrite dget_diff by assumption.
    set (c := dget t (m_types a)). set (r := dget t (m_types b)).
    destruct (omerge merge_type c r) as [M|] eqn:E.
    2:{ destruct c, r; simpl in E; try discriminate E. simpl. repeat split; reflexivity. }
    assert (D : sums_ok (daents aents_sect) (option_map t_sections c) (option_map t_sections r)
      (map (fun kv => (fst kv, fix_sect (og (fst kv) (option_map t_sections c)) (og (fst kv) (option_map t_sections r)) (snd kv)))
           (t_sections M))).
    { apply (comm_dict merge_sect fix_sect look_sect aents_sect wf_sect comm_sect).
      - intros d X. destruct c as [T|] eqn:Y; [|discriminate]. injection X as <-. apply (wf_map_type a t T Wa Y).
      - intros d X. destruct r as [T|] eqn:Y; [|discriminate]. injection X as <-. apply (wf_map_type b t T Wb Y).
      - destruct c, r; simpl in *; try discriminate E; injection E as <-; reflexivity.
      - intros q x y X Y. apply (A t q x y); unfold look; fold c; fold r.
        + destruct c; [exact X|discriminate X].
        + destruct r; [exact Y|discriminate Y]. }
    specialize (D p).
    destruct c as [c'|], r as [r'|]; simpl in E; try discriminate E; injection E as <-; exact D. }
  destruct S as (S1 & S2 & S3).
  assert (EI : forall (e f : entry), ends_in e p -> ends_in f p -> e_abbrev e = e_abbrev f).
  { intros e f (q & E) (q' & F). rewrite E in F. apply app_inj_tail in F. tauto. }
  destruct (look (unify (diff a b)) t p) as [e|].
  - destruct LD as (N & D1 & D2 & D3). rewrite S3 in N.
    destruct (look (unify a) t p) as [ea|], (look (unify b) t p) as [eb|]; simpl.
    + destruct LA as (_ & LA1 & _ & LA3), LB as (_ & LB1 & _ & LB3).
      repeat split; [lia|lia|apply EI; assumption].
    + destruct LA as (_ & LA1 & _ & LA3). rewrite LB in *. simpl in *. rewrite zsumf_nil in S2.
      repeat split; [lia|lia|apply EI; assumption].
    + destruct LB as (_ & LB1 & _ & LB3). rewrite LA in *. simpl in *. rewrite zsumf_nil in *.
      repeat split; [lia|lia|apply EI; assumption].
    + rewrite LA, LB in N. tauto.
  - apply S3 in LD. destruct LD as [LDa LDb].
    destruct (look (unify a) t p) as [ea|]; [tauto|].
    destruct (look (unify b) t p) as [eb|]; [tauto|]. exact I.
Qed.
