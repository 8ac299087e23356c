From Verif Require Import Base MemMap SpecTree ProofDiff.
From Coq Require Import List ZArith Lia Bool.
Import ListNotations.
Open Scope list_scope.
Open Scope Z_scope.

Definition oadd (u v : option entry) : option entry :=
  match u, v with
  | None, v => v
  | u, None => u
  | Some a, Some b => Some (Entry (e_abbrev a) (e_size a + e_size b) (e_diff a + e_diff b))
  end.

Fixpoint agg (l : list entry) : option entry :=
  match l with [] => None | e :: l' => oadd (Some e) (agg l') end.

Lemma oadd_assoc u v w : oadd (oadd u v) w = oadd u (oadd v w).
Proof.
  destruct u, v, w; simpl; try reflexivity. f_equal; f_equal; lia.
Qed.

Lemma oadd_None_r u : oadd u None = u.
Proof. destruct u; reflexivity. Qed.

Lemma agg_app l m : agg (l ++ m) = oadd (agg l) (agg m).
Proof.
  induction l as [|e l IH]; cbn [agg app]; [reflexivity|].
  rewrite IH. rewrite oadd_assoc. reflexivity.
Qed.

Definition sel (p : list str) (l : list (list str * entry)) : list entry :=
  map snd (filter (fun pe => fst pe =?= p) l).

Lemma sel_app p l m : sel p (l ++ m) = sel p l ++ sel p m.
Proof. unfold sel. rewrite filter_app, map_app. reflexivity. Qed.

Lemma sel_cons_prefix x p l :
  sel (x :: p) (map (fun pe => (x :: fst pe, snd pe)) l) = sel p l.
Proof.
  unfold sel. induction l as [|[q e] l IH]; simpl; [reflexivity|].
  destruct (keqP (x :: q) (x :: p)) as [E|N], (keqP q p) as [E'|N']; simpl.
  - f_equal. exact IH.
  - congruence.
  - congruence.
  - exact IH.
Qed.

Lemma sel_none p l : (forall pe, In pe l -> fst pe <> p) -> sel p l = [].
Proof.
  intros H. unfold sel. rewrite filter_false; [reflexivity|].
  intros a I. apply keq_neq. auto.
Qed.

Section Level.
  Context {C : Type} (abbrev : C -> str) (new : C -> C) (add : C -> C -> C)
          (lookC : list str -> C -> option entry) (aents : C -> list (list str * entry)).

  Record unify_ok : Prop := {
    uo_new_abbrev : forall c, abbrev (new c) = abbrev c;
    uo_add_abbrev : forall u c, abbrev (add u c) = abbrev u;
    uo_head : forall c pe, In pe (aents c) -> exists q, fst pe = abbrev c :: q;
    uo_new : forall q c, lookC q (new c) = agg (sel (abbrev c :: q) (aents c));
    uo_add : forall q u c, lookC q (add u c) = oadd (lookC q u) (agg (sel (abbrev c :: q) (aents c))) }.

  Hypothesis OK : unify_ok.

  Lemma sel_other k q c : k <> abbrev c -> sel (k :: q) (aents c) = [].
  Proof.
    intros N. apply sel_none. intros pe I E. destruct (uo_head OK _ _ I) as (q' & F). congruence.
  Qed.

  Lemma unify_items_look p original unified :
    look_dict lookC p (unify_items abbrev new add original unified) =
    oadd (look_dict lookC p unified) (agg (sel p (flat_map (fun kc => aents (snd kc)) original))).
  Proof.
    destruct p as [|k q].
    - simpl. rewrite sel_none; [reflexivity|].
      intros pe I E. apply in_flat_map in I. destruct I as (kc & _ & I).
      destruct (uo_head OK _ _ I) as (q & F). congruence.
    - unfold unify_items. revert unified.
      induction original as [|[k0 c] original IH]; intros unified.
      + simpl. rewrite oadd_None_r. reflexivity.
      + cbn [fold_left flat_map fst snd]. rewrite IH, sel_app, agg_app, <- oadd_assoc. f_equal.
        simpl. destruct (keqP k (abbrev c)) as [->|N].
        * destruct (dget (abbrev c) unified) as [u|] eqn:D; rewrite dget_dset_eq.
          -- apply (uo_add OK).
          -- rewrite (uo_new OK). reflexivity.
        * rewrite sel_other by assumption. simpl. rewrite oadd_None_r.
          destruct (dget (abbrev c) unified); rewrite dget_dset_neq by assumption; reflexivity.
  Qed.
End Level.

Lemma unify_ok_node {C} abbrev new add (lookC : list str -> C -> option entry) aents :
  unify_ok abbrev new add lookC aents ->
  let items := unify_items abbrev new add in
  unify_ok n_abbrev (unify_new_node items) (unify_add_node items) (look_node lookC) (aents_node aents).
Proof.
  intros OK items.
  assert (NE : forall (n : node C) pe, In pe (flat_map (fun kc => aents (snd kc)) (n_sub n)) -> fst pe <> []).
  { intros n pe I E. apply in_flat_map in I. destruct I as (kc & _ & I).
    destruct (uo_head _ _ _ _ _ OK _ _ I) as (q & F). congruence. }
  assert (S : forall q (n : node C),
    sel (n_abbrev n :: q) (aents_node aents n) =
    match q with [] => [entry_of_node n] | _ => sel q (flat_map (fun kc => aents (snd kc)) (n_sub n)) end).
  { intros q n.
    change (aents_node aents n) with
      ([([n_abbrev n], entry_of_node n)] ++
       map (fun pe => (n_abbrev n :: fst pe, snd pe)) (flat_map (fun kc => aents (snd kc)) (n_sub n))).
    rewrite sel_app, sel_cons_prefix.
    destruct q as [|k q].
    - rewrite (sel_none [] (flat_map _ _)) by apply NE.
      unfold sel. simpl. rewrite keq_refl. reflexivity.
    - rewrite (sel_none (n_abbrev n :: k :: q)); [reflexivity|].
      intros pe [<-|[]]. simpl. congruence. }
  constructor; intros; try reflexivity.
  - destruct H as [<-|H]; simpl; [eauto|].
    apply in_map_iff in H. destruct H as (pe' & <- & _). simpl. eauto.
  - rewrite S. destruct q as [|k q]; [reflexivity|].
    unfold look_node, unify_new_node. cbn [n_sub].
    rewrite (unify_items_look _ _ _ _ _ OK). reflexivity.
  - rewrite S. destruct q as [|k q]; [reflexivity|].
    unfold look_node, unify_add_node. cbn [n_sub].
    rewrite (unify_items_look _ _ _ _ _ OK). reflexivity.
Qed.

Lemma unify_ok_sym : unify_ok y_abbrev unify_new_sym unify_add_sym look_sym aents_sym.
Proof.
  assert (S : forall q (y : sym), sel (y_abbrev y :: q) (aents_sym y) =
    match q with [] => [entry_of_sym y] | _ => [] end).
  { intros q y. unfold sel, aents_sym. simpl.
    destruct q as [|k q].
    - rewrite keq_refl. reflexivity.
    - destruct (keqP [y_abbrev y] (y_abbrev y :: k :: q)); [congruence|reflexivity]. }
  constructor; intros; try reflexivity.
  - destruct H as [<-|[]]. simpl. eauto.
  - rewrite S. destruct q; reflexivity.
  - rewrite S. destruct q; reflexivity.
Qed.

Lemma unify_ok_obj : unify_ok n_abbrev (unify_new_node unify_syms) (unify_add_node unify_syms) look_obj aents_obj.
Proof. exact (unify_ok_node _ _ _ _ _ unify_ok_sym). Qed.
Lemma unify_ok_arch : unify_ok n_abbrev (unify_new_node unify_objs) (unify_add_node unify_objs) look_arch aents_arch.
Proof. exact (unify_ok_node _ _ _ _ _ unify_ok_obj). Qed.
Lemma unify_ok_sect : unify_ok n_abbrev (unify_new_node unify_archs) (unify_add_node unify_archs) look_sect aents_sect.
Proof. exact (unify_ok_node _ _ _ _ _ unify_ok_arch). Qed.

Lemma unify_look_agg m t p : look (unify m) t p = agg (with_apath m t p).
Proof.
  unfold look, with_apath. simpl. rewrite dget_dmap.
  destruct (dget t (m_types m)) as [T|]; simpl; [|reflexivity].
  unfold unify_sects. rewrite (unify_items_look _ _ _ _ _ unify_ok_sect).
  unfold look_dict at 1. destruct p; reflexivity.
Qed.

(** all entries with an abbreviated path have its last name as abbreviated name *)
Definition ends_in (e : entry) (p : list str) : Prop := exists q, p = q ++ [e_abbrev e].

Lemma aents_last_node {C} (aents : C -> list (list str * entry)) (n : node C) :
  (forall c pe, In pe (aents c) -> ends_in (snd pe) (fst pe)) ->
  forall pe, In pe (aents_node aents n) -> ends_in (snd pe) (fst pe).
Proof.
  intros H pe [<-|I].
  - exists []. reflexivity.
  - apply in_map_iff in I. destruct I as (pe' & <- & I).
    apply in_flat_map in I. destruct I as (kc & _ & I).
    destruct (H _ _ I) as (q & E). exists (n_abbrev n :: q). simpl. rewrite E. reflexivity.
Qed.

Lemma aents_last_sym y pe : In pe (aents_sym y) -> ends_in (snd pe) (fst pe).
Proof. intros [<-|[]]. exists []. reflexivity. Qed.

Lemma aents_last_sect s pe : In pe (aents_sect s) -> ends_in (snd pe) (fst pe).
Proof.
  apply aents_last_node; intros. eapply aents_last_node; [|eassumption]; intros.
  eapply aents_last_node; [|eassumption]; intros. eapply aents_last_sym; eassumption.
Qed.

Lemma with_apath_abbrev m t p e : In e (with_apath m t p) -> ends_in e p.
Proof.
  unfold with_apath. destruct (dget t (m_types m)) as [T|]; [|intros []].
  intros I. apply in_map_iff in I. destruct I as (pe & <- & I).
  apply filter_In in I. destruct I as [I E]. apply keq_true in E. subst p.
  apply in_flat_map in I. destruct I as (kc & _ & I). eapply aents_last_sect, I.
Qed.

Lemma agg_sums l : l <> [] ->
  exists a, agg l = Some (Entry a (zsumf e_size l) (zsumf e_diff l)) /\
            (exists e, In e l /\ a = e_abbrev e).
Proof.
  induction l as [|e l IH]; intros N; [congruence|].
  cbn [agg]. destruct l as [|e' l].
  - exists (e_abbrev e). simpl. split.
    + unfold zsumf. simpl. rewrite !Z.add_0_r. destruct e; reflexivity.
    + exists e. auto.
  - destruct IH as (a & E & _); [congruence|]. exists (e_abbrev e). rewrite E.
    split; [reflexivity|]. exists e. simpl. auto.
Qed.

Lemma agg_nil l : agg l = None <-> l = [].
Proof.
  destruct l as [|e l]; simpl; [tauto|]. destruct (agg l); split; congruence.
Qed.

Lemma unify_look m t p :
  match look (unify m) t p with
  | None => with_apath m t p = []
  | Some e => with_apath m t p <> [] /\
              e_size e = zsumf e_size (with_apath m t p) /\
              e_diff e = zsumf e_diff (with_apath m t p) /\
              ends_in e p
  end.
Proof.
  rewrite unify_look_agg. destruct (with_apath m t p) as [|e0 l] eqn:E; [reflexivity|].
  destruct (agg_sums (e0 :: l)) as (a & A & (e & I & ->)); [congruence|].
  rewrite A. simpl. repeat split; [congruence|].
  rewrite <- E in I. destruct (with_apath_abbrev _ _ _ _ I) as (q & ->). exists q. reflexivity.
Qed.

(** ** idempotence *)

Section Unified.
  Context {C : Type} (abbrev : C -> str) (new : C -> C) (add : C -> C -> C) (uniC : C -> Prop).

  (** the dictionaries produced by [unify_items] *)
  Definition unified_dict (d : dict str C) : Prop :=
    wf_dict d /\ Forall (fun kc => fst kc = abbrev (snd kc) /\ uniC (snd kc)) d.

  Hypothesis new_abbrev : forall c, abbrev (new c) = abbrev c.
  Hypothesis add_abbrev : forall u c, abbrev (add u c) = abbrev u.
  Hypothesis new_uni : forall c, uniC (new c).
  Hypothesis add_uni : forall u c, uniC u -> uniC (add u c).
  Hypothesis new_id : forall c, uniC c -> new c = c.

  Lemma unified_dset k c d :
    unified_dict d -> abbrev c = k -> uniC c -> unified_dict (dset k c d).
  Proof.
    intros [W F] E U. split; [apply wf_dset, W|].
    clear W. induction F as [|[k' c'] d [Ek Ec] F IH]; simpl.
    - repeat constructor; assumption || (simpl; congruence).
    - destruct (keqP k k') as [->|N].
      + constructor; [|assumption]. simpl. auto.
      + constructor; [auto|assumption].
  Qed.

  Lemma unified_items original d :
    unified_dict d -> unified_dict (unify_items abbrev new add original d).
  Proof.
    unfold unify_items. revert d.
    induction original as [|[k c] original IH]; intros d U; cbn [fold_left snd fst]; [assumption|].
    apply IH. destruct (dget (abbrev c) d) as [u|] eqn:D.
    - pose proof U as [_ F]. rewrite Forall_forall in F.
      destruct (F _ (dget_In _ _ _ D)) as [Eu Uu]. simpl in *.
      apply unified_dset; [assumption| |auto]. rewrite add_abbrev. congruence.
    - apply unified_dset; auto.
  Qed.

  Lemma unify_items_id original d :
    unified_dict (d ++ original) -> unify_items abbrev new add original d = d ++ original.
  Proof.
    unfold unify_items. revert d.
    induction original as [|[k c] original IH]; intros d U; cbn [fold_left snd fst].
    - rewrite app_nil_r. reflexivity.
    - pose proof U as [W F]. apply Forall_app in F. destruct F as [_ F].
      inversion F as [|? ? [Ek Ec] _]; subst. simpl in Ek, Ec. rewrite <- Ek.
      assert (N : ~ In k (keys d)).
      { unfold wf_dict, keys in W. rewrite map_app in W. simpl in W.
        apply NoDup_remove_2 in W. intros I. apply W. apply in_or_app. auto. }
      replace (dget k d) with (@None C) by (symmetry; apply dget_None; exact N).
      rewrite dset_notin by exact N. rewrite new_id by exact Ec.
      rewrite IH.
      + rewrite <- app_assoc. reflexivity.
      + rewrite <- app_assoc. exact U.
  Qed.
End Unified.

Definition uni_node {C} (abbrev : C -> str) (uniC : C -> Prop) (n : node C) : Prop :=
  unified_dict abbrev uniC (n_sub n).
Definition uni_sym (y : sym) : Prop := y_null y = true.
Definition uni_obj : obj -> Prop := uni_node y_abbrev uni_sym.
Definition uni_arch : arch -> Prop := uni_node n_abbrev uni_obj.
Definition uni_sect : sect -> Prop := uni_node n_abbrev uni_arch.

Record uni_ok {C} (abbrev : C -> str) (new : C -> C) (add : C -> C -> C) (uniC : C -> Prop) : Prop := {
  ui_new_abbrev : forall c, abbrev (new c) = abbrev c;
  ui_add_abbrev : forall u c, abbrev (add u c) = abbrev u;
  ui_new : forall c, uniC (new c);
  ui_add : forall u c, uniC u -> uniC (add u c);
  ui_id : forall c, uniC c -> new c = c }.

Lemma unified_nil {C} (abbrev : C -> str) (uniC : C -> Prop) : unified_dict abbrev uniC [].
Proof. split; constructor. Qed.

Lemma uni_ok_node {C} (abbrev : C -> str) new add uniC :
  uni_ok abbrev new add uniC ->
  let items := unify_items abbrev new add in
  uni_ok n_abbrev (unify_new_node items) (unify_add_node items) (uni_node abbrev uniC).
Proof.
  intros OK items. constructor; intros; try reflexivity.
  - apply unified_items; try apply OK. apply unified_nil.
  - apply unified_items; try apply OK. assumption.
  - unfold unify_new_node, items. rewrite unify_items_id with (uniC := uniC); try apply OK.
    + destruct c; reflexivity.
    + assumption.
Qed.

Lemma uni_ok_sym : uni_ok y_abbrev unify_new_sym unify_add_sym uni_sym.
Proof.
  constructor; try reflexivity.
  - intros u c U. exact U.
  - intros [a s d b] U. unfold uni_sym in U. simpl in U. subst. reflexivity.
Qed.
Lemma uni_ok_obj : uni_ok n_abbrev (unify_new_node unify_syms) (unify_add_node unify_syms) uni_obj.
Proof. exact (uni_ok_node _ _ _ _ uni_ok_sym). Qed.
Lemma uni_ok_arch : uni_ok n_abbrev (unify_new_node unify_objs) (unify_add_node unify_objs) uni_arch.
Proof. exact (uni_ok_node _ _ _ _ uni_ok_obj). Qed.
Lemma uni_ok_sect : uni_ok n_abbrev (unify_new_node unify_archs) (unify_add_node unify_archs) uni_sect.
Proof. exact (uni_ok_node _ _ _ _ uni_ok_arch). Qed.

Lemma unify_sects_idem d : unify_sects (unify_sects d []) [] = unify_sects d [].
Proof.
  unfold unify_sects at 1.
  rewrite unify_items_id with (uniC := uni_sect); try apply uni_ok_sect; [reflexivity|].
  apply unified_items; try apply uni_ok_sect. apply unified_nil.
Qed.

Lemma unify_idem m : unify (unify m) = unify m.
Proof.
  unfold unify. simpl. unfold with_types. simpl. f_equal.
  unfold dmap. rewrite map_map. apply map_ext. intros [k t]. simpl. f_equal.
  unfold unify_type. simpl. f_equal. apply unify_sects_idem.
Qed.

(** every dictionary of a unified map is keyed by the abbreviated names *)
Lemma unify_unified m t T :
  dget t (m_types (unify m)) = Some T -> unified_dict n_abbrev uni_sect (t_sections T).
Proof.
  simpl. rewrite dget_dmap. destruct (dget t (m_types m)); simpl; intros E; [|discriminate].
  injection E as <-. simpl.
  apply unified_items; try apply uni_ok_sect. apply unified_nil.
Qed.

Lemma unified_wf_node {C} (abbrev : C -> str) (uniC wfC : C -> Prop) :
  (forall c, uniC c -> wfC c) -> forall d, unified_dict abbrev uniC d -> wf_sub wfC d.
Proof.
  intros H d [W F]. split; [assumption|]. eapply Forall_impl; [|exact F]. intros a [_ U]. auto.
Qed.

Lemma uni_sect_wf d : unified_dict n_abbrev uni_sect d -> wf_sub wf_sect d.
Proof.
  apply unified_wf_node. intros s. apply unified_wf_node. intros a. apply unified_wf_node.
  intros o. apply unified_wf_node. intros y _. exact I.
Qed.

Lemma wf_unify m : wf_map m -> wf_map (unify m).
Proof.
  intros [W F]. split.
  - simpl. apply wf_dmap, W.
  - simpl. unfold dmap. apply Forall_map. apply Forall_forall. intros [k t] I. simpl.
    apply uni_sect_wf. apply unified_items; try apply uni_ok_sect. apply unified_nil.
Qed.

Lemma unify_totals m t :
  option_map (fun T => (t_size T, t_size_diff T, (t_used T, t_used_diff T))) (dget t (m_types (unify m))) =
  option_map (fun T => (t_size T, t_size_diff T, (t_used T, t_used_diff T))) (dget t (m_types m)) /\
  keys (m_types (unify m)) = keys (m_types m).
Proof.
  unfold unify. cbn [m_types with_types]. rewrite dget_dmap, keys_dmap. split; [|reflexivity].
  destruct (dget t (m_types m)); reflexivity.
Qed.

Lemma unify_null : exists m,
  Forall (fun w => match w_sym w with Some y => y_null (snd y) = false | None => True end) (walk m DAll) /\
  ~ Forall (fun w => match w_sym w with Some y => y_null (snd y) = false | None => True end) (walk (unify m) DAll).
Proof.
  exists (MemMap [] [] 0 0 [] []
    [([], MType 1 0 1 0 [([], Node [] 1 0 [([], Node [] 1 0 [([], Node [] 1 0 [([], Sym [] 1 0 false)])])])])]).
  split.
  - vm_compute. repeat constructor.
  - intros F. vm_compute in F. inversion F; subst. discriminate.
Qed.
