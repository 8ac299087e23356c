(** Key uniqueness is preserved by [diff]; order of keys. *)
From Verif Require Import Base MemMap SpecTree ProofDiff.
From Coq Require Import Ascii String List ZArith Lia Bool.
Import ListNotations.
Open Scope list_scope.
Open Scope Z_scope.

Lemma Forall_vals_dset {C} (P : C -> Prop) k v (d : dict str C) :
  P v -> Forall (fun kv => P (snd kv)) d -> Forall (fun kv => P (snd kv)) (dset k v d).
Proof.
  induction d as [|[k' v'] d IH]; simpl; intros Hv F.
  - constructor; auto.
  - inversion F; subst. destruct (k =?= k'); constructor; auto.
Qed.

Lemma Forall_dget {C} (P : C -> Prop) k v (d : dict str C) :
  Forall (fun kv => P (snd kv)) d -> dget k d = Some v -> P v.
Proof. intros F E. rewrite Forall_forall in F. exact (F _ (dget_In _ _ _ E)). Qed.

Lemma wf_sub_merge {C} (f : C -> C -> C) (wfC : C -> Prop) :
  (forall c r, wfC c -> wfC r -> wfC (f c r)) ->
  forall ref dst, wf_sub wfC dst -> wf_sub wfC ref -> wf_sub wfC (merge_level f dst ref).
Proof.
  intros Hf ref. unfold merge_level. induction ref as [|[k v] ref IH]; simpl; intros dst Wd Wr; [assumption|].
  destruct Wr as [Wr Fr]. unfold wf_dict in Wr. simpl in Wr. inversion Wr; inversion Fr; subst.
  destruct Wd as [Wd Fd].
  apply IH; [|split; assumption]. cbn [fst snd] in *.
  destruct (dget k dst) eqn:E; (split; [apply wf_dset; assumption|]); apply Forall_vals_dset; auto.
  apply Hf; [|assumption]. exact (Forall_dget _ _ _ _ Fd E).
Qed.

Lemma wf_merge_node {C} (f : C -> C -> C) (wfC : C -> Prop) :
  (forall c r, wfC c -> wfC r -> wfC (f c r)) ->
  forall c r, wf_node wfC c -> wf_node wfC r -> wf_node wfC (merge_node f c r).
Proof. intros Hf c r Wc Wr. apply wf_sub_merge; assumption. Qed.

Lemma wf_merge_sect c r : wf_sect c -> wf_sect r -> wf_sect (merge_sect c r).
Proof.
  apply wf_merge_node. apply wf_merge_node. apply wf_merge_node. auto.
Qed.

Lemma wf_sub_fix {C} (g : str -> C -> C) (wfC : C -> Prop) d :
  (forall k c, wfC c -> wfC (g k c)) -> wf_sub wfC d ->
  wf_sub wfC (map (fun kv => (fst kv, g (fst kv) (snd kv))) d).
Proof.
  intros Hg [W F]. split.
  - unfold wf_dict, keys. rewrite map_map. exact W.
  - apply Forall_forall. intros kv I. apply in_map_iff in I. destruct I as (kv' & <- & I). simpl.
    apply Hg. rewrite Forall_forall in F. apply (F _ I).
Qed.

Lemma wf_fix_node {C} (f : option C -> option C -> C -> C) (wfC : C -> Prop) :
  (forall c r d, wfC d -> wfC (f c r d)) ->
  forall c r d, wf_node wfC d -> wf_node wfC (fix_node f c r d).
Proof.
  intros Hf c r d W. unfold wf_node, fix_node.
  assert (H : wf_sub wfC (map (fun kv => (fst kv, f (sub_get (fst kv) c) (sub_get (fst kv) r) (snd kv))) (n_sub d))).
  { apply (wf_sub_fix (fun k x => f (sub_get k c) (sub_get k r) x)); auto. }
  destruct c, r; exact H.
Qed.

Lemma wf_fix_sect c r d : wf_sect d -> wf_sect (fix_sect c r d).
Proof.
  apply wf_fix_node. apply wf_fix_node. apply wf_fix_node. auto.
Qed.

Lemma wf_diff a b : wf_map a -> wf_map b -> wf_map (diff a b).
Proof.
  intros Wa Wb. unfold wf_map, diff. cbn [m_types].
  apply (wf_sub_fix (fun k x => fix_type (dget k (m_types a)) (dget k (m_types b)) x)).
  - intros k c W. unfold wf_type, fix_type.
    assert (H : wf_sub wf_sect (map (fun kv => (fst kv, fix_sect (type_get (fst kv) (dget k (m_types a)))
        (type_get (fst kv) (dget k (m_types b))) (snd kv))) (t_sections c))).
    { apply (wf_sub_fix (fun k' x => fix_sect (type_get k' (dget k (m_types a))) (type_get k' (dget k (m_types b))) x)).
      - intros. apply wf_fix_sect. assumption.
      - exact W. }
    destruct (dget k (m_types a)), (dget k (m_types b)); exact H.
  - apply wf_sub_merge; [|assumption|assumption].
    intros c r Wc Wr. unfold wf_type, merge_type. cbn [t_sections].
    apply wf_sub_merge; [|assumption|assumption]. intros; apply wf_merge_sect; assumption.
Qed.

(** values that determine the difference fields *)
Lemma diff_image a b :
  m_image_size (diff a b) = m_image_size a /\
  m_image_size_diff (diff a b) = m_image_size a - m_image_size b /\
  m_target (diff a b) = m_target a /\ m_target_diff (diff a b) = m_target b /\
  m_project_path (diff a b) = m_project_path a /\ m_project_path_diff (diff a b) = m_project_path b.
Proof. repeat split; reflexivity. Qed.

Lemma diff_exact cur ref t p :
  wf_map cur -> wf_map ref ->
  match look (diff cur ref) t p with
  | None => look cur t p = None /\ look ref t p = None
  | Some e =>
      (look cur t p <> None \/ look ref t p <> None) /\
      e_size e = size_at cur t p /\
      e_diff e = size_at cur t p - size_at ref t p /\
      Some (e_abbrev e) = match look cur t p with
                          | Some c => Some (e_abbrev c)
                          | None => option_map e_abbrev (look ref t p)
                          end
  end.
Proof.
  intros Wc Wr. rewrite (diff_look _ _ _ _ Wc Wr). unfold size_at.
  destruct (look cur t p) as [c|], (look ref t p) as [r|]; simpl; repeat split; auto; try lia;
    try (left; discriminate); try (right; discriminate).
Qed.

Lemma diff_type_exact cur ref t :
  wf_map ref ->
  match dget t (m_types (diff cur ref)) with
  | None => dget t (m_types cur) = None /\ dget t (m_types ref) = None
  | Some T =>
      (dget t (m_types cur) <> None \/ dget t (m_types ref) <> None) /\
      t_size T = type_size_at cur t /\
      t_used T = type_used_at cur t /\
      t_size_diff T = type_size_at cur t - type_size_at ref t /\
      t_used_diff T = type_used_at cur t - type_used_at ref t
  end.
Proof.
  intros W. destruct (dget t (m_types (diff cur ref))) as [T|] eqn:E.
  - pose proof (diff_type_sizes _ _ _ _ W E) as H. split; [|exact H].
    rewrite dget_diff in E by assumption.
    destruct (dget t (m_types cur)); [left; discriminate|].
    destruct (dget t (m_types ref)); [right; discriminate|]. discriminate E.
  - rewrite dget_diff in E by assumption.
    destruct (dget t (m_types cur)), (dget t (m_types ref)); try discriminate E. auto.
Qed.

(** differences at a path, 0 where there is no entry *)
Lemma diff_self m t p e :
  wf_map m -> look (diff m m) t p = Some e -> e_diff e = 0 /\ look m t p <> None.
Proof.
  intros W E. pose proof (diff_exact m m t p W W) as H. rewrite E in H.
  destruct H as ([H|H] & _ & D & _); split; auto; lia.
Qed.

Lemma diff_self_types m t T :
  wf_map m -> dget t (m_types (diff m m)) = Some T -> t_size_diff T = 0 /\ t_used_diff T = 0.
Proof.
  intros W E. pose proof (diff_type_sizes m m t T W E). lia.
Qed.
Lemma diff_anti a b t p :
  wf_map a -> wf_map b -> diff_at (diff a b) t p = - diff_at (diff b a) t p.
Proof. intros Wa Wb. rewrite !diff_at_diff by assumption. lia. Qed.
Lemma diff_chain a b c t p :
  wf_map a -> wf_map b -> wf_map c ->
  diff_at (diff a c) t p = diff_at (diff a b) t p + diff_at (diff b c) t p.
Proof. intros Wa Wb Wc. rewrite !diff_at_diff by assumption. lia. Qed.
