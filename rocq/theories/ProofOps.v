From Verif Require Import Base MemMap SpecLetters ProofLetters SpecTree SpecOps ProofDiff.
From Coq Require Import Ascii String List ZArith Lia Bool Sorted Permutation.
Import ListNotations.
Open Scope list_scope.
Open Scope Z_scope.

(** ** walk *)

Lemma flat_map_map {A B C} (f : A -> B) (g : B -> list C) l :
  flat_map g (map f l) = flat_map (fun a => g (f a)) l.
Proof. induction l; simpl; [reflexivity|]. f_equal; assumption. Qed.

Lemma map_flat_map {A B C} (g : A -> list B) (f : B -> C) l :
  map f (flat_map g l) = flat_map (fun a => map f (g a)) l.
Proof. induction l; simpl; [reflexivity|]. rewrite map_app. f_equal. assumption. Qed.

Lemma filter_flat_map {A B} (g : A -> list B) p l :
  filter p (flat_map g l) = flat_map (fun a => filter p (g a)) l.
Proof. induction l; simpl; [reflexivity|]. rewrite filter_app. f_equal. assumption. Qed.

Lemma filter_map {A B} (f : A -> B) p l : filter p (map f l) = map f (filter (fun a => p (f a)) l).
Proof. induction l as [|a l IH]; simpl; [reflexivity|]. destruct (p (f a)); simpl; rewrite IH; reflexivity. Qed.

Lemma flat_map_ext_in {A B} (f g : A -> list B) l :
  (forall a, In a l -> f a = g a) -> flat_map f l = flat_map g l.
Proof.
  induction l as [|a l IH]; simpl; intros E; [reflexivity|].
  rewrite (E a) by auto. f_equal. apply IH. auto.
Qed.

Lemma flat_map_single {A B} (f : A -> B) l : flat_map (fun a => [f a]) l = map f l.
Proof. induction l; simpl; [reflexivity|]. f_equal; assumption. Qed.

Definition at_len (n : nat) (l : list (list str * entry)) := filter (fun pe => length (fst pe) =?= n) l.

Lemma at_len_dict {C} (ents : C -> list (list str * entry)) n (d : dict str C) :
  at_len (S n) (ents_dict ents d) =
  flat_map (fun kc => map (fun pe => (fst kc :: fst pe, snd pe)) (at_len n (ents (snd kc)))) d.
Proof.
  unfold at_len, ents_dict. rewrite filter_flat_map. apply flat_map_ext_in. intros kc _.
  rewrite filter_map. reflexivity.
Qed.

Lemma at_len_node_0 {C} (ents : C -> list (list str * entry)) (n : node C) :
  at_len 0 (ents_node ents n) = [([], entry_of_node n)].
Proof.
  unfold at_len, ents_node. simpl. f_equal. apply filter_false.
  intros pe I. unfold ents_dict in I. apply in_flat_map in I. destruct I as (kc & _ & I).
  apply in_map_iff in I. destruct I as (pe' & <- & _). reflexivity.
Qed.

Lemma at_len_node_S {C} (ents : C -> list (list str * entry)) k (n : node C) :
  at_len (S k) (ents_node ents n) = at_len (S k) (ents_dict ents (n_sub n)).
Proof. reflexivity. Qed.

Lemma walk_items m d :
  map (fun w => (fst (w_type w), (w_path w, w_entry w))) (walk m d) =
  flat_map (fun t => map (fun pe => (fst t, pe)) (items_at (depth_len d) (snd t))) (m_types m).
Proof.
  unfold walk. rewrite map_flat_map. apply flat_map_ext_in. intros [t T] _. cbn [fst snd].
  destruct d; unfold items_at, depth_len; cbv iota.
  - reflexivity.
  - change (filter _ (ents_type T)) with (at_len 1 (ents_dict ents_sect (t_sections T))).
    rewrite at_len_dict, !map_flat_map. apply flat_map_ext_in. intros [s S] _. cbn [fst snd].
    unfold ents_sect. rewrite at_len_node_0. reflexivity.
  - change (filter _ (ents_type T)) with (at_len 2 (ents_dict ents_sect (t_sections T))).
    rewrite at_len_dict, !map_flat_map. apply flat_map_ext_in. intros [s S] _. cbn [fst snd].
    unfold ents_sect at 1. rewrite at_len_node_S, at_len_dict, !map_flat_map.
    apply flat_map_ext_in. intros [x X] _. cbn [fst snd].
    unfold ents_arch at 1. rewrite at_len_node_0. reflexivity.
  - change (filter _ (ents_type T)) with (at_len 3 (ents_dict ents_sect (t_sections T))).
    rewrite at_len_dict, !map_flat_map. apply flat_map_ext_in. intros [s S] _. cbn [fst snd].
    unfold ents_sect at 1. rewrite at_len_node_S, at_len_dict, !map_flat_map.
    apply flat_map_ext_in. intros [x X] _. cbn [fst snd].
    unfold ents_arch at 1. rewrite at_len_node_S, at_len_dict, !map_flat_map.
    apply flat_map_ext_in. intros [o O] _. cbn [fst snd].
    unfold ents_obj at 1. rewrite at_len_node_0. reflexivity.
  - change (filter _ (ents_type T)) with (at_len 4 (ents_dict ents_sect (t_sections T))).
    rewrite at_len_dict, !map_flat_map. apply flat_map_ext_in. intros [s S] _. cbn [fst snd].
    unfold ents_sect at 1. rewrite at_len_node_S, at_len_dict, !map_flat_map.
    apply flat_map_ext_in. intros [x X] _. cbn [fst snd].
    unfold ents_arch at 1. rewrite at_len_node_S, at_len_dict, !map_flat_map.
    apply flat_map_ext_in. intros [o O] _. cbn [fst snd].
    unfold ents_obj at 1. rewrite at_len_node_S, at_len_dict, !map_flat_map, map_map, <- flat_map_single.
    apply flat_map_ext_in. intros [y Y] _. reflexivity.
Qed.

Lemma walk_chain m d w : In w (walk m d) -> w_chain m w.
Proof.
  unfold walk, w_chain. intros I. apply in_flat_map in I. destruct I as (t & It & I).
  assert (D : forall (A : Type) (x y : A), Some x = Some y -> x = y) by (intros; congruence).
  destruct d.
  - destruct I as [<-|[]]. simpl. repeat split; auto; intros; discriminate.
  - apply in_flat_map in I. destruct I as (s & Is & [<-|[]]). simpl.
    repeat split; auto; intros; try discriminate. apply D in H. subst. assumption.
  - apply in_flat_map in I. destruct I as (s & Is & I).
    apply in_flat_map in I. destruct I as (x & Ix & [<-|[]]). simpl.
    repeat split; auto; intros; try discriminate; apply D in H; subst; eauto.
  - apply in_flat_map in I. destruct I as (s & Is & I).
    apply in_flat_map in I. destruct I as (x & Ix & I).
    apply in_flat_map in I. destruct I as (o & Io & [<-|[]]). simpl.
    repeat split; auto; intros; try discriminate; apply D in H; subst; eauto.
  - apply in_flat_map in I. destruct I as (s & Is & I).
    apply in_flat_map in I. destruct I as (x & Ix & I).
    apply in_flat_map in I. destruct I as (o & Io & I).
    apply in_map_iff in I. destruct I as (y & <- & Iy). simpl.
    repeat split; auto; intros; try discriminate; apply D in H; subst; eauto.
Qed.

(** no path occurs twice *)
Definition nodup_ents {C} (ents : C -> list (list str * entry)) (wfC : C -> Prop) : Prop :=
  forall c, wfC c -> NoDup (map fst (ents c)).

Lemma NoDup_app_intro {A} (l m : list A) :
  NoDup l -> NoDup m -> (forall x, In x l -> In x m -> False) -> NoDup (l ++ m).
Proof.
  induction l as [|a l IH]; simpl; intros Nl Nm D; [assumption|].
  inversion Nl; subst. constructor.
  - intros I. apply in_app_or in I. destruct I; [contradiction|]. eapply D; eauto.
  - apply IH; auto. intros x I1 I2. eapply D; eauto.
Qed.

Lemma nodup_ents_dict {C} (ents : C -> list (list str * entry)) wfC d :
  nodup_ents ents wfC -> wf_sub wfC d -> NoDup (map fst (ents_dict ents d)).
Proof.
  intros H [W F]. unfold ents_dict. rewrite map_flat_map.
  induction d as [|[k c] d IH]; simpl; [constructor|].
  unfold wf_dict in W. simpl in W. inversion W; subst. inversion F; subst.
  rewrite map_map. simpl. apply NoDup_app_intro.
  - rewrite <- (map_map fst (fun p => k :: p)). apply FinFun.Injective_map_NoDup.
    + intros x y E. congruence.
    + apply H. assumption.
  - apply IH; assumption.
  - intros p I1 I2. apply in_map_iff in I1. destruct I1 as (pe & <- & _).
    apply in_flat_map in I2. destruct I2 as ([k' c'] & I2 & I3).
    rewrite map_map in I3. apply in_map_iff in I3. destruct I3 as (pe' & E & _). simpl in E.
    injection E as <- _. apply H2. apply (in_map fst) in I2. exact I2.
Qed.

Lemma nodup_ents_node {C} (ents : C -> list (list str * entry)) wfC :
  nodup_ents ents wfC -> nodup_ents (ents_node ents) (wf_node wfC).
Proof.
  intros H n W. unfold ents_node. simpl. constructor.
  - unfold ents_dict. intros I. apply in_map_iff in I. destruct I as (pe & E & I).
    apply in_flat_map in I. destruct I as (kc & _ & I).
    apply in_map_iff in I. destruct I as (pe' & <- & _). discriminate E.
  - apply nodup_ents_dict with (wfC := wfC); assumption.
Qed.

Lemma nodup_ents_sym : nodup_ents ents_sym wf_sym.
Proof. intros y _. simpl. repeat constructor. intros []. Qed.

Lemma nodup_ents_type T : wf_type T -> NoDup (map fst (ents_type T)).
Proof.
  apply nodup_ents_dict. apply nodup_ents_node, nodup_ents_node, nodup_ents_node, nodup_ents_sym.
Qed.

Lemma NoDup_map_filter {A B} (f : A -> B) p l : NoDup (map f l) -> NoDup (map f (filter p l)).
Proof.
  induction l as [|a l IH]; simpl; intros N; [constructor|]. inversion N; subst.
  destruct (p a); simpl; [|auto]. constructor; [|auto].
  intros I. apply H1. apply in_map_iff in I. destruct I as (b & E & I).
  apply filter_In in I. rewrite <- E. apply in_map. tauto.
Qed.

Lemma walk_nodup m d :
  wf_map m -> NoDup (map (fun w => (fst (w_type w), w_path w)) (walk m d)).
Proof.
  intros [W F].
  replace (map (fun w => (fst (w_type w), w_path w)) (walk m d))
    with (map (fun x => (fst x, fst (snd x))) (map (fun w => (fst (w_type w), (w_path w, w_entry w))) (walk m d)))
    by (rewrite map_map; reflexivity).
  rewrite walk_items, map_flat_map.
  induction (m_types m) as [|[t T] l IH]; simpl; [constructor|].
  unfold wf_dict in W. simpl in W. inversion W; subst. inversion F; subst.
  apply NoDup_app_intro.
  - rewrite map_map. simpl.
    rewrite <- (map_map fst (fun p => (t, p))). apply FinFun.Injective_map_NoDup; [intros ? ? E; congruence|].
    unfold items_at. destruct (depth_len d).
    + simpl. repeat constructor. intros [].
    + rewrite map_map. simpl. apply NoDup_map_filter, nodup_ents_type. assumption.
  - apply IH; assumption.
  - intros x I1 I2. rewrite map_map in I1. apply in_map_iff in I1. destruct I1 as (pe & <- & _).
    apply in_flat_map in I2. destruct I2 as ([t' T'] & I2 & I3).
    rewrite map_map in I3. apply in_map_iff in I3. destruct I3 as (pe' & E & _). simpl in E.
    injection E as <- _. apply H1. apply (in_map fst) in I2. exact I2.
Qed.

(** ** remove_unused *)

Lemma fold_sum {A} (f : A -> Z) l u : fold_left (fun u kv => u + f kv) l u = u + zsumf f l.
Proof.
  revert u. induction l as [|a l IH]; intros u; simpl.
  - rewrite zsumf_nil. lia.
  - rewrite IH, zsumf_cons. lia.
Qed.

Definition sections_left (T : mtype) : dict str sect :=
  filter (fun kv => match n_sub (snd kv) with [] => false | _ => true end) (t_sections T).

Lemma remove_unused_types m :
  m_types (remove_unused m) =
  map (fun tT => (fst tT,
    MType (t_size (snd tT)) (t_size_diff (snd tT))
          (zsumf (fun kv => n_size (snd kv)) (sections_left (snd tT)))
          (t_used_diff (snd tT)) (sections_left (snd tT))))
    (filter (fun tT => negb (t_used (snd tT) =? 0)) (m_types m)).
Proof.
  unfold remove_unused. simpl. unfold dmap. apply map_ext. intros [k t]. simpl. f_equal.
  unfold remove_unused_type. rewrite fold_sum. f_equal.
Qed.

Lemma remove_unused_twice m :
  remove_unused (remove_unused m) =
  with_types m (filter (fun tT => negb (t_used (snd tT) =? 0)) (m_types (remove_unused m))).
Proof.
  unfold remove_unused at 1. unfold with_types. f_equal.
  rewrite remove_unused_types. generalize (filter (fun tT => negb (t_used (snd tT) =? 0)) (m_types m)).
  intros l. induction l as [|[k t] l IH]; simpl; [reflexivity|].
  destruct (zsumf (fun kv : str * node arch => n_size (snd kv)) (sections_left t) =? 0) eqn:E; simpl; [exact IH|].
  f_equal; [|exact IH]. f_equal. unfold remove_unused_type. simpl.
  rewrite fold_sum.
  assert (S : filter (fun kv => match n_sub (snd kv) with [] => false | _ => true end) (sections_left t) = sections_left t).
  { unfold sections_left. rewrite filter_filter. apply filter_ext_in'.
    intros a _. destruct (n_sub (snd a)); reflexivity. }
  rewrite S. reflexivity.
Qed.

Lemma remove_unused_thrice m :
  remove_unused (remove_unused (remove_unused m)) = remove_unused (remove_unused m).
Proof.
  rewrite (remove_unused_twice (remove_unused m)).
  assert (E : m_types (remove_unused (remove_unused m)) =
    filter (fun tT => negb (t_used (snd tT) =? 0)) (m_types (remove_unused m)))
    by (rewrite remove_unused_twice; reflexivity).
  rewrite E, filter_filter.
  replace (filter (fun a => negb (t_used (snd a) =? 0) && negb (t_used (snd a) =? 0)) (m_types (remove_unused m)))
    with (filter (fun tT => negb (t_used (snd tT) =? 0)) (m_types (remove_unused m)))
    by (apply filter_ext_in'; intros a _; destruct (t_used (snd a) =? 0); reflexivity).
  rewrite remove_unused_twice. reflexivity.
Qed.

(** ** ignore_flash_size *)

Lemma ignore_flash_types m t :
  dget t (m_types (ignore_flash_size m)) =
  option_map (fun T => MType (if is_flash t then 0 else t_size T) (t_size_diff T) (t_used T) (t_used_diff T) (t_sections T))
             (dget t (m_types m)).
Proof.
  unfold ignore_flash_size. simpl. rewrite dget_dmapk.
  destruct (dget t (m_types m)) as [[s sd u ud d]|]; simpl; [|reflexivity].
  destruct (is_flash t); reflexivity.
Qed.

Lemma ignore_flash_idem m : ignore_flash_size (ignore_flash_size m) = ignore_flash_size m.
Proof.
  unfold ignore_flash_size, with_types. simpl. f_equal.
  unfold dmapk. rewrite map_map. apply map_ext. intros [k t]. simpl. destruct (is_flash k); reflexivity.
Qed.

Lemma ignore_flash_look m t p : look (ignore_flash_size m) t p = look m t p.
Proof.
  unfold look. rewrite ignore_flash_types. destruct (dget t (m_types m)); reflexivity.
Qed.

Lemma startswith_ok p s : startswith p s = true <-> exists post, s = p ++ post.
Proof.
  revert s. induction p as [|c p IH]; intros s; simpl.
  - split; [eauto|reflexivity].
  - destruct s as [|d s].
    + split; [discriminate|]. intros (post & E). discriminate E.
    + rewrite Bool.andb_true_iff, keq_eq, IH. split.
      * intros [-> (post & ->)]. eauto.
      * intros (post & E). injection E as -> ->. eauto.
Qed.

Lemma contains_ok sub s : contains sub s = true <-> exists pre post, s = pre ++ sub ++ post.
Proof.
  induction s as [|c s IH]; cbn [contains]; rewrite Bool.orb_true_iff, startswith_ok.
  - split.
    + intros [(post & E)|E]; [exists [], post; exact E|discriminate].
    + intros (pre & post & E). left. symmetry in E. apply app_eq_nil in E. destruct E as [-> E]. exists post. auto.
  - rewrite IH. split.
    + intros [(post & E)|(pre & post & ->)]; [exists [], post; exact E|]. exists (c :: pre), post. reflexivity.
    + intros (pre & post & E). destruct pre as [|d pre].
      * left. exists post. exact E.
      * injection E as -> ->. right. eauto.
Qed.
Lemma ignore_flash_sizes m t T : dget t (m_types m) = Some T ->
  exists n, dget t (m_types (ignore_flash_size m)) = Some (MType n (t_size_diff T) (t_used T) (t_used_diff T) (t_sections T)) /\
    (flash_name t -> n = 0) /\ (~ flash_name t -> n = t_size T).
Proof.
  intros E. rewrite ignore_flash_types, E. cbn [option_map]. eexists. split; [reflexivity|].
  assert (F : is_flash t = true <-> flash_name t) by (unfold is_flash; rewrite contains_ok; symmetry; apply flash_lower).
  destruct (is_flash t); split; intros H; auto; [destruct H; now apply F|apply F in H; discriminate].
Qed.
