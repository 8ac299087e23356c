From Verif Require Import Base MemMap SpecTree.
From Coq Require Import List ZArith Lia Bool.
Import ListNotations.
Open Scope list_scope.
Open Scope Z_scope.

(** merged value of two optional children *)
Definition omerge {C} (f : C -> C -> C) (c r : option C) : option C :=
  match c, r with
  | Some c, Some r => Some (f c r)
  | Some c, None => Some c
  | None, r => r
  end.

Lemma dget_merge_level {C} (f : C -> C -> C) (dst ref : dict str C) k :
  wf_dict ref ->
  dget k (merge_level f dst ref) = omerge f (dget k dst) (dget k ref).
Proof.
  unfold merge_level, wf_dict. revert dst.
  induction ref as [|[k' r] ref IH]; intros dst W; simpl.
  - destruct (dget k dst); reflexivity.
  - inversion W as [|? ? N W']; subst. rewrite IH by assumption.
    destruct (keqP k k') as [->|Ne].
    + assert (E : dget k' ref = None) by (apply dget_None; exact N).
      rewrite E. destruct (dget k' dst) eqn:D; rewrite dget_dset_eq; reflexivity.
    + destruct (dget k' dst); rewrite dget_dset_neq by assumption; reflexivity.
Qed.

Lemma keys_merge_level {C} (f : C -> C -> C) (dst ref : dict str C) k :
  In k (keys (merge_level f dst ref)) <-> In k (keys dst) \/ In k (keys ref).
Proof.
  unfold merge_level. revert dst.
  induction ref as [|[k' r] ref IH]; intros dst; simpl.
  - tauto.
  - rewrite IH. destruct (dget k' dst); rewrite In_keys_dset; intuition.
Qed.

Lemma wf_merge_level {C} (f : C -> C -> C) (dst ref : dict str C) :
  wf_dict dst -> wf_dict (merge_level f dst ref).
Proof.
  unfold merge_level. revert dst.
  induction ref as [|[k' r] ref IH]; intros dst W; simpl; [assumption|].
  apply IH. destruct (dget k' dst); apply wf_dset, W.
Qed.

(** the merge order: entries of the current map first, then those only in ref *)
Lemma keys_merge_level_order {C} (f : C -> C -> C) (dst ref : dict str C) :
  wf_dict ref ->
  keys (merge_level f dst ref) = keys dst ++ filter (fun k => negb (mem k (keys dst))) (keys ref).
Proof.
  unfold merge_level, wf_dict. revert dst.
  induction ref as [|[k' r] ref IH]; intros dst W; simpl.
  - rewrite app_nil_r. reflexivity.
  - inversion W as [|? ? N W']; subst. rewrite IH by assumption.
    destruct (dget k' dst) eqn:D.
    + rewrite keys_dset_in by (eapply dget_Some_key; eauto).
      replace (mem k' (keys dst)) with true; [reflexivity|].
      symmetry. apply mem_In. eapply dget_Some_key; eauto.
    + apply dget_None in D.
      replace (mem k' (keys dst)) with false by (symmetry; apply mem_not_In; exact D).
      simpl. rewrite dset_notin by exact D. unfold keys at 1 2. rewrite map_app. simpl.
      rewrite <- app_assoc. simpl. f_equal. f_equal.
      apply filter_ext_in'. intros x I. f_equal.
      fold (keys dst). fold (keys ref) in *.
      destruct (mem x (keys dst)) eqn:M.
      * apply mem_In in M. apply mem_In. apply in_or_app. auto.
      * apply mem_not_In in M. apply mem_not_In. intros F. apply in_app_or in F.
        destruct F as [F|[<-|[]]]; [contradiction|]. contradiction.
Qed.

Definition olook {C} (lookC : list str -> C -> option entry) (p : list str) (o : option C) : option entry :=
  match o with Some c => lookC p c | None => None end.

(** the specification of one entry of the difference *)
Definition diff_entry (c r : option entry) : option entry :=
  match c, r with
  | Some c, Some r => Some (Entry (e_abbrev c) (e_size c) (e_size c - e_size r))
  | Some c, None => Some (Entry (e_abbrev c) (e_size c) (e_size c))
  | None, Some r => Some (Entry (e_abbrev r) 0 (0 - e_size r))
  | None, None => None
  end.

Section Level.
  Context {C : Type}
          (mergeC : C -> C -> C) (fixC : option C -> option C -> C -> C)
          (lookC : list str -> C -> option entry) (wfC : C -> Prop).

  (** the invariant of a level *)
  Definition level_ok :=
    forall p c r m,
      (forall x, c = Some x -> wfC x) -> (forall x, r = Some x -> wfC x) ->
      omerge mergeC c r = Some m ->
      lookC p (fixC c r m) = diff_entry (olook lookC p c) (olook lookC p r).

  Hypothesis OK : level_ok.

  Lemma dget_wf (d : dict str C) k x : wf_sub wfC d -> dget k d = Some x -> wfC x.
  Proof.
    intros [_ F] E. apply dget_In in E. rewrite Forall_forall in F.
    apply (F (k, x) E).
  Qed.

  Lemma level_dict (cur ref : option (dict str C)) (m : dict str C) p :
    (forall d, cur = Some d -> wf_sub wfC d) -> (forall d, ref = Some d -> wf_sub wfC d) ->
    omerge (merge_level mergeC) cur ref = Some m ->
    let g k (o : option (dict str C)) := match o with Some d => dget k d | None => None end in
    look_dict lookC p
      (map (fun kv => (fst kv, fixC (g (fst kv) cur) (g (fst kv) ref) (snd kv))) m)
    = diff_entry (olook (look_dict lookC) p cur) (olook (look_dict lookC) p ref).
  Proof.
    intros Wc Wr M g. destruct p as [|k p].
    - simpl. destruct cur, ref; reflexivity.
    - simpl.
      change (map (fun kv => (fst kv, fixC (g (fst kv) cur) (g (fst kv) ref) (snd kv))) m)
        with (dmapk (fun k c => fixC (g k cur) (g k ref) c) m).
      rewrite dget_dmapk.
      assert (G : dget k m = omerge mergeC (g k cur) (g k ref)).
      { destruct cur as [dc|], ref as [dr|]; simpl in M; try discriminate M; injection M as <-; simpl.
        - apply dget_merge_level. apply (Wr dr eq_refl).
        - destruct (dget k dc); reflexivity.
        - destruct (dget k dr); reflexivity. }
      assert (OC : olook (look_dict lookC) (k :: p) cur = olook lookC p (g k cur)).
      { destruct cur as [dc|]; simpl; [|reflexivity]. destruct (dget k dc); reflexivity. }
      assert (OR : olook (look_dict lookC) (k :: p) ref = olook lookC p (g k ref)).
      { destruct ref as [dr|]; simpl; [|reflexivity]. destruct (dget k dr); reflexivity. }
      rewrite OC, OR.
      destruct (dget k m) as [x|] eqn:X; simpl.
      + apply OK; [| |congruence].
        * intros y Y. destruct cur as [dc|]; [|discriminate].
          eapply dget_wf; [apply (Wc dc eq_refl)|exact Y].
        * intros y Y. destruct ref as [dr|]; [|discriminate].
          eapply dget_wf; [apply (Wr dr eq_refl)|exact Y].
      + destruct (g k cur), (g k ref); simpl in G; try discriminate. reflexivity.
  Qed.
End Level.

Lemma level_node {C} (mergeC : C -> C -> C) fixC lookC wfC :
  level_ok mergeC fixC lookC wfC ->
  level_ok (merge_node mergeC) (fix_node fixC) (look_node lookC) (wf_node wfC).
Proof.
  intros OK p c r m Wc Wr M.
  pose proof (level_dict mergeC fixC lookC wfC OK
                (option_map n_sub c) (option_map n_sub r) (n_sub m) p) as L.
  assert (Hc : forall d, option_map n_sub c = Some d -> wf_sub wfC d).
  { intros d E. destruct c as [n|]; [|discriminate]. injection E as <-. apply (Wc n eq_refl). }
  assert (Hr : forall d, option_map n_sub r = Some d -> wf_sub wfC d).
  { intros d E. destruct r as [n|]; [|discriminate]. injection E as <-. apply (Wr n eq_refl). }
  specialize (L Hc Hr).
  assert (HM : omerge (merge_level mergeC) (option_map n_sub c) (option_map n_sub r) = Some (n_sub m)).
  { destruct c as [n|], r as [n'|]; simpl in *; try discriminate M; injection M as <-; reflexivity. }
  specialize (L HM). cbv zeta in L.
  destruct p as [|k p].
  - destruct c as [n|], r as [n'|]; simpl in M; try discriminate M; injection M as <-; reflexivity.
  - destruct c as [n|], r as [n'|]; simpl in M; try discriminate M; injection M as <-; exact L.
Qed.

Lemma level_sym : level_ok merge_sym fix_sym look_sym wf_sym.
Proof.
  intros p c r m _ _ M. unfold merge_sym in M.
  destruct p; destruct c, r; simpl in M; try discriminate M; injection M as <-; reflexivity.
Qed.

Lemma level_obj : level_ok merge_obj fix_obj look_obj wf_obj.
Proof. apply level_node, level_sym. Qed.
Lemma level_arch : level_ok merge_arch fix_arch look_arch wf_arch.
Proof. apply level_node, level_obj. Qed.
Lemma level_sect : level_ok merge_sect fix_sect look_sect wf_sect.
Proof. apply level_node, level_arch. Qed.

Lemma wf_map_type m t T : wf_map m -> dget t (m_types m) = Some T -> wf_type T.
Proof.
  intros [_ F] E. apply dget_In in E. rewrite Forall_forall in F. apply (F (t, T) E).
Qed.

Lemma dget_diff cur ref t :
  wf_map ref ->
  dget t (m_types (diff cur ref)) =
  option_map (fix_type (dget t (m_types cur)) (dget t (m_types ref)))
             (omerge merge_type (dget t (m_types cur)) (dget t (m_types ref))).
Proof.
  intros W. simpl.
  change (map _ _) with
    (dmapk (fun k T => fix_type (dget k (m_types cur)) (dget k (m_types ref)) T)
           (merge_level merge_type (m_types cur) (m_types ref))).
  rewrite dget_dmapk, dget_merge_level by apply W. reflexivity.
Qed.

Lemma diff_look cur ref t p :
  wf_map cur -> wf_map ref ->
  look (diff cur ref) t p = diff_entry (look cur t p) (look ref t p).
Proof.
  intros Wc Wr. unfold look. rewrite dget_diff by assumption.
  set (c := dget t (m_types cur)). set (r := dget t (m_types ref)).
  assert (Hc : forall d, option_map t_sections c = Some d -> wf_sub wf_sect d).
  { intros d E. destruct c as [T|] eqn:X; [|discriminate]. injection E as <-.
    apply (wf_map_type cur t T Wc X). }
  assert (Hr : forall d, option_map t_sections r = Some d -> wf_sub wf_sect d).
  { intros d E. destruct r as [T|] eqn:X; [|discriminate]. injection E as <-.
    apply (wf_map_type ref t T Wr X). }
  destruct (omerge merge_type c r) as [M|] eqn:E.
  - pose proof (level_dict merge_sect fix_sect look_sect wf_sect level_sect
                  (option_map t_sections c) (option_map t_sections r) (t_sections M) p Hc Hr) as L.
    assert (HM : omerge (merge_level merge_sect) (option_map t_sections c) (option_map t_sections r)
                 = Some (t_sections M)).
    { destruct c as [n|], r as [n'|]; simpl in *; try discriminate E; injection E as <-; reflexivity. }
    specialize (L HM). cbv zeta in L.
    destruct c as [n|], r as [n'|]; simpl in E; try discriminate E; injection E as <-; exact L.
  - destruct c, r; simpl in E; try discriminate. reflexivity.
Qed.

Lemma diff_types cur ref t :
  wf_map ref ->
  In t (keys (m_types (diff cur ref))) <-> In t (keys (m_types cur)) \/ In t (keys (m_types ref)).
Proof.
  intros W. simpl.
  change (map _ _) with
    (dmapk (fun k T => fix_type (dget k (m_types cur)) (dget k (m_types ref)) T)
           (merge_level merge_type (m_types cur) (m_types ref))).
  rewrite keys_dmapk. apply keys_merge_level.
Qed.

Lemma diff_type_sizes cur ref t T :
  wf_map ref ->
  dget t (m_types (diff cur ref)) = Some T ->
  t_size T = type_size_at cur t /\
  t_used T = type_used_at cur t /\
  t_size_diff T = type_size_at cur t - type_size_at ref t /\
  t_used_diff T = type_used_at cur t - type_used_at ref t.
Proof.
  intros W. rewrite dget_diff by assumption. unfold type_size_at, type_used_at.
  destruct (dget t (m_types cur)) as [c|], (dget t (m_types ref)) as [r|];
    simpl; intros E; try discriminate; injection E as <-; simpl; lia.
Qed.

(** every entry of the diff comes from one of the maps: the [KeyError] branch of
    [fix_*] is unreachable *)
Lemma diff_union cur ref t p :
  wf_map cur -> wf_map ref ->
  look (diff cur ref) t p <> None <-> look cur t p <> None \/ look ref t p <> None.
Proof.
  intros Wc Wr. rewrite diff_look by assumption.
  destruct (look cur t p), (look ref t p); simpl; intuition congruence.
Qed.

(** ** Algebra *)

Definition diff_at (m : memmap) (t : str) (p : list str) : Z :=
  match look m t p with Some e => e_diff e | None => 0 end.

Lemma diff_at_diff a b t p :
  wf_map a -> wf_map b -> diff_at (diff a b) t p = size_at a t p - size_at b t p.
Proof.
  intros Wa Wb. unfold diff_at, size_at. rewrite diff_look by assumption.
  destruct (look a t p), (look b t p); simpl; lia.
Qed.

Lemma size_at_diff a b t p :
  wf_map a -> wf_map b -> size_at (diff a b) t p = size_at a t p.
Proof.
  intros Wa Wb. unfold size_at. rewrite diff_look by assumption.
  destruct (look a t p), (look b t p); simpl; reflexivity.
Qed.

(** ** Totals *)

Section Coherent.
  Context {C : Type} (mergeC : C -> C -> C) (fixC : option C -> option C -> C -> C)
          (szC dfC : C -> Z).
  Hypothesis fix_diff : forall c r m, dfC (fixC c r m) = oval szC c - oval szC r.

  Definition og {V} (k : str) (o : option (dict str V)) : option V :=
    match o with Some d => dget k d | None => None end.

  Lemma sum_diff (cur ref : option (dict str C)) m :
    (forall d, cur = Some d -> wf_dict d) -> (forall d, ref = Some d -> wf_dict d) ->
    omerge (merge_level mergeC) cur ref = Some m ->
    zsumf (fun kv => dfC (snd kv))
      (map (fun kv => (fst kv, fixC (og (fst kv) cur) (og (fst kv) ref) (snd kv))) m)
    = oval (zsumf (fun kv => szC (snd kv))) cur - oval (zsumf (fun kv => szC (snd kv))) ref.
  Proof.
    intros Wc Wr M. rewrite zsumf_map. simpl.
    rewrite (zsumf_ext _ (fun kv => oval szC (og (fst kv) cur) - oval szC (og (fst kv) ref)))
      by (intros; apply fix_diff).
    rewrite zsumf_minus.
    assert (E : forall o (W : forall d, o = Some d -> wf_dict d),
      (forall d, o = Some d -> forall k, In k (keys d) -> In k (keys m)) ->
      wf_dict m ->
      zsumf (fun kv : str * C => oval szC (og (fst kv) o)) m = oval (zsumf (fun kv => szC (snd kv))) o).
    { intros o W I Wm.
      replace (zsumf (fun kv : str * C => oval szC (og (fst kv) o)) m)
        with (zsumf (fun k => oval szC (og k o)) (keys m))
        by (unfold keys; rewrite zsumf_map; reflexivity).
      destruct o as [d|]; simpl.
      - apply zsumf_keys; [apply (W d eq_refl)|exact Wm|apply (I d eq_refl)].
      - apply zsumf_zero. reflexivity. }
    assert (Wm : wf_dict m).
    { destruct cur as [dc|]; simpl in M.
      + destruct ref as [dr|]; injection M as <-; [apply wf_merge_level|]; apply (Wc dc eq_refl).
      + apply Wr. exact M. }
    rewrite !E; try assumption; [reflexivity| |].
    - intros d -> k I. destruct cur as [dc|]; simpl in M; injection M as <-; [|assumption].
      apply keys_merge_level. auto.
    - intros d -> k I. destruct ref as [dr|]; simpl in M; injection M as <-; [|assumption].
      apply keys_merge_level. auto.
  Qed.
End Coherent.

Lemma fix_node_diff {C} (f : option C -> option C -> C -> C) c r m :
  n_diff (fix_node f c r m) = oval n_size c - oval n_size r.
Proof. destruct c, r; simpl; lia. Qed.

Lemma diff_used_coherent a b t T :
  wf_map a -> wf_map b ->
  (forall n U, In (n, U) (m_types a) -> t_used U = zsumf (fun kv => n_size (snd kv)) (t_sections U)) ->
  (forall n U, In (n, U) (m_types b) -> t_used U = zsumf (fun kv => n_size (snd kv)) (t_sections U)) ->
  dget t (m_types (diff a b)) = Some T ->
  t_used_diff T = zsumf (fun kv => n_diff (snd kv)) (t_sections T).
Proof.
  intros Wa Wb Ha Hb E.
  destruct (diff_type_sizes a b t T Wb E) as (_ & _ & _ & ->).
  rewrite dget_diff in E by assumption.
  unfold type_used_at.
  destruct (dget t (m_types a)) as [ca|] eqn:Ea, (dget t (m_types b)) as [cb|] eqn:Eb;
    simpl in E; try discriminate E; injection E as <-; simpl.
  - pose proof (sum_diff merge_sect fix_sect n_size n_diff
      (fix_node_diff fix_arch)
      (Some (t_sections ca)) (Some (t_sections cb)) _
      ltac:(intros d X; injection X as <-; apply (wf_map_type a t ca Wa Ea))
      ltac:(intros d X; injection X as <-; apply (wf_map_type b t cb Wb Eb))
      eq_refl) as S.
    etransitivity; [|symmetry; exact S]. simpl.
    rewrite (Ha t ca) by (apply dget_In; assumption).
    rewrite (Hb t cb) by (apply dget_In; assumption). reflexivity.
  - pose proof (sum_diff merge_sect fix_sect n_size n_diff
      (fix_node_diff fix_arch)
      (Some (t_sections ca)) None _
      ltac:(intros d X; injection X as <-; apply (wf_map_type a t ca Wa Ea))
      ltac:(intros d X; discriminate X)
      eq_refl) as S.
    etransitivity; [|symmetry; exact S]. simpl.
    rewrite (Ha t ca) by (apply dget_In; assumption). reflexivity.
  - pose proof (sum_diff merge_sect fix_sect n_size n_diff
      (fix_node_diff fix_arch)
      None (Some (t_sections cb)) _
      ltac:(intros d X; discriminate X)
      ltac:(intros d X; injection X as <-; apply (wf_map_type b t cb Wb Eb))
      eq_refl) as S.
    etransitivity; [|symmetry; exact S]. simpl.
    rewrite (Hb t cb) by (apply dget_In; assumption). reflexivity.
Qed.
