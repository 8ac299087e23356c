From Coq Require Import Ascii String List ZArith Lia Bool Permutation.
From Verif Require Import Base MemMap SpecTree Pipeline SpecPipe.
Import ListNotations.
Open Scope list_scope.
Open Scope Z_scope.

(** ** insert with a default, then modify *)
Section Put.
  Context {V : Type}.
  Definition dput (k : str) (v0 : V) (f : V -> V) (d : dict str V) : dict str V :=
    dupd k f (if dmem k d then d else dset k v0 d).

  Lemma dget_dput k v0 f (d : dict str V) k' :
    dget k' (dput k v0 f d) =
    if k' =?= k then Some (f (match dget k d with Some v => v | None => v0 end)) else dget k' d.
  Proof.
    unfold dput, dmem. destruct (keqP k' k) as [->|N].
    - rewrite dget_dupd_eq. destruct (dget k d) as [v|] eqn:E; [rewrite E|rewrite dget_dset_eq]; reflexivity.
    - rewrite dget_dupd_neq by exact N. destruct (dget k d); [|rewrite dget_dset_neq by exact N]; reflexivity.
  Qed.

  Lemma wf_dput k v0 f (d : dict str V) : wf_dict d -> wf_dict (dput k v0 f d).
  Proof. intros W. unfold dput. apply wf_dupd. destruct (dmem k d); [exact W|apply wf_dset, W]. Qed.

  Lemma zsumf_dupd (g : V -> Z) k f (d : dict str V) :
    zsumf (fun kv => g (snd kv)) (dupd k f d) =
    zsumf (fun kv => g (snd kv)) d + match dget k d with Some v => g (f v) - g v | None => 0 end.
  Proof.
    induction d as [|[k' v] d IH]; simpl; [reflexivity|].
    destruct (k =?= k'); rewrite !zsumf_cons; cbn [snd]; [|rewrite IH]; lia.
  Qed.

  Lemma zsumf_dput (g : V -> Z) k v0 f (d : dict str V) : g v0 = 0 ->
    zsumf (fun kv => g (snd kv)) (dput k v0 f d) =
    zsumf (fun kv => g (snd kv)) d +
      let v := match dget k d with Some v => v | None => v0 end in g (f v) - g v.
  Proof.
    intros Z. unfold dput, dmem. rewrite zsumf_dupd. destruct (dget k d) as [v|] eqn:E.
    - rewrite E. reflexivity.
    - rewrite dget_dset_eq, dset_notin by (apply dget_None, E). rewrite zsumf_app, zsumf_cons, zsumf_nil. cbn [snd]. lia.
  Qed.
End Put.

Lemma add_object_put objs i : add_object objs i =
  dput (i_object i) (Node (basename (i_object i)) 0 0 [])
    (fun o => Node (n_abbrev o) (n_size o + i_size i) (n_diff o) (add_object_symbols (n_sub o) (i_symbols i))) objs.
Proof. reflexivity. Qed.
Lemma add_archive_put archs i : add_archive archs i =
  dput (i_archive i) (Node (basename (i_archive i)) 0 0 [])
    (fun x => Node (n_abbrev x) (n_size x + i_size i) (n_diff x) (add_object (n_sub x) i)) archs.
Proof. reflexivity. Qed.

(** the objects of one archive *)
Definition obj_inv (a : str) (l : list isection) (o : str) (c : option obj) : Prop :=
  match c with
  | None => isecs_of_object a o l = []
  | Some b => isecs_of_object a o l <> [] /\ n_abbrev b = basename o /\ n_diff b = 0 /\
              n_size b = object_bytes a o l /\ n_sub b = add_object_symbols [] (symbols_of_object a o l)
  end.
Definition arch_inv (l : list isection) (a : str) (c : option arch) : Prop :=
  match c with
  | None => isecs_of_archive a l = []
  | Some x => isecs_of_archive a l <> [] /\ n_abbrev x = basename a /\ n_diff x = 0 /\
              n_size x = archive_bytes a l /\ wf_dict (n_sub x) /\
              zsumf (fun kv => n_size (snd kv)) (n_sub x) = n_size x /\
              (forall o, obj_inv a l o (dget o (n_sub x)))
  end.
Definition archs_inv (l : list isection) (d : dict str arch) : Prop :=
  wf_dict d /\ zsumf (fun kv => n_size (snd kv)) d = zsumf i_size l /\ forall a, arch_inv l a (dget a d).

Lemma add_object_symbols_app d l m : add_object_symbols d (l ++ m) = add_object_symbols (add_object_symbols d l) m.
Proof. unfold add_object_symbols. apply fold_left_app. Qed.

Lemma object_bytes_snoc a o l i : object_bytes a o (l ++ [i]) =
  object_bytes a o l + if (i_archive i =?= a) && (i_object i =?= o) then i_size i else 0.
Proof.
  unfold object_bytes. rewrite filter_app, zsumf_app. simpl. destruct (_ && _); rewrite ?zsumf_cons, ?zsumf_nil; lia.
Qed.
Lemma archive_bytes_snoc a l i : archive_bytes a (l ++ [i]) =
  archive_bytes a l + if i_archive i =?= a then i_size i else 0.
Proof.
  unfold archive_bytes. rewrite filter_app, zsumf_app. simpl. destruct (_ =?= _); rewrite ?zsumf_cons, ?zsumf_nil; lia.
Qed.

Lemma archs_inv_fold l : archs_inv l (fold_left add_archive l []).
Proof.
  induction l as [|i l IH] using rev_ind.
  - split; [constructor|]. split; [reflexivity|]. intros a. reflexivity.
  - rewrite fold_left_app. cbn [fold_left]. set (d := fold_left add_archive l []) in *. destruct IH as (W & Z & H).
    rewrite add_archive_put. split; [apply wf_dput, W|]. split.
    + rewrite zsumf_dput by reflexivity. cbn [n_size]. rewrite zsumf_app, zsumf_cons, zsumf_nil, Z. lia.
    + intros a. rewrite dget_dput. destruct (keqP a (i_archive i)) as [->|N].
      * specialize (H (i_archive i)). set (a := i_archive i) in *.
        assert (B : isecs_of_archive a (l ++ [i]) <> []).
        { unfold isecs_of_archive. rewrite filter_app. simpl. unfold a. rewrite keq_refl.
          intros E. apply app_eq_nil in E. destruct E as [_ E]. discriminate E. }
        assert (O : forall x, (forall o, obj_inv a l o (dget o x)) -> forall o, obj_inv a (l ++ [i]) o (dget o (add_object x i))).
        { intros x Hx o. rewrite add_object_put, dget_dput. specialize (Hx o). unfold obj_inv in *.
          unfold symbols_of_object, isecs_of_object in *. rewrite filter_app. cbn [filter].
          fold a. rewrite object_bytes_snoc. fold a. rewrite keq_refl. cbn [andb].
          rewrite (keq_sym (i_object i) o). destruct (keqP o (i_object i)) as [->|No].
          - split; [intros E; apply app_eq_nil in E; destruct E as [_ E]; discriminate E|].
            destruct (dget (i_object i) x) as [b|] eqn:E; cbn [n_abbrev n_diff n_size n_sub] in *.
            + destruct Hx as (_ & H1 & H2 & H3 & H4). rewrite H3, H4. split; [exact H1|]. split; [exact H2|]. split; [reflexivity|].
              rewrite flat_map_app, add_object_symbols_app. simpl. rewrite app_nil_r. reflexivity.
            + unfold object_bytes. rewrite Hx. split; [reflexivity|]. split; [reflexivity|]. split; [reflexivity|].
              simpl. rewrite app_nil_r. reflexivity.
          - rewrite app_nil_r, Z.add_0_r. exact Hx. }
        destruct (dget a d) as [x|] eqn:E; unfold arch_inv in *; cbn [n_abbrev n_diff n_size n_sub].
        -- destruct H as (H1 & H2 & H3 & H4 & H5 & H6 & H7). split; [exact B|]. split; [exact H2|]. split; [exact H3|].
           split; [rewrite archive_bytes_snoc; fold a; rewrite keq_refl; lia|].
           split; [rewrite add_object_put; apply wf_dput, H5|].
           split; [|apply O, H7]. rewrite add_object_put, zsumf_dput by reflexivity. cbn [n_size]. lia.
        -- split; [exact B|]. split; [reflexivity|]. split; [reflexivity|].
           split; [rewrite archive_bytes_snoc; fold a; rewrite keq_refl; unfold archive_bytes;
                   unfold isecs_of_archive in H; rewrite H; reflexivity|].
           split; [rewrite add_object_put; apply wf_dput; constructor|].
           split; [rewrite add_object_put, zsumf_dput by reflexivity; cbn [n_size]; rewrite zsumf_nil; cbn; lia|].
           apply O. intros o. simpl. unfold isecs_of_object. unfold isecs_of_archive in H.
           assert (X : forall l0, filter (fun i0 => i_archive i0 =?= a) l0 = [] ->
                       filter (fun i0 => (i_archive i0 =?= a) && (i_object i0 =?= o)) l0 = []).
           { induction l0 as [|j l0 IH]; simpl; [reflexivity|]. destruct (i_archive j =?= a); simpl; [discriminate|exact IH]. }
           apply X, H.
      * specialize (H a). unfold arch_inv in *.
        assert (N' : (i_archive i =?= a) = false) by (apply keq_neq; congruence).
        assert (E1 : isecs_of_archive a (l ++ [i]) = isecs_of_archive a l).
        { unfold isecs_of_archive. rewrite filter_app. simpl. rewrite N'. apply app_nil_r. }
        assert (E2 : forall o, isecs_of_object a o (l ++ [i]) = isecs_of_object a o l).
        { intros o. unfold isecs_of_object. rewrite filter_app. simpl. rewrite N'. apply app_nil_r. }
        rewrite E1, archive_bytes_snoc, N', Z.add_0_r. destruct (dget a d) as [x|]; [|exact H].
        destruct H as (H1 & H2 & H3 & H4 & H5 & H6 & H7). do 6 (split; [assumption|]).
        intros o. specialize (H7 o). unfold obj_inv, symbols_of_object in *. rewrite E2, object_bytes_snoc, N'. cbn [andb].
        rewrite Z.add_0_r. exact H7.
Qed.

(** C17 *)
Lemma archives_totals s a x :
  dget a (as_archives (add_archives s)) = Some x ->
  n_abbrev x = basename a /\ n_size x = archive_bytes a (o_isecs s) /\
  n_size x = zsumf (fun kv => n_size (snd kv)) (n_sub x) /\
  forall o b, dget o (n_sub x) = Some b -> n_abbrev b = basename o /\ n_size b = object_bytes a o (o_isecs s).
Proof.
  cbn [add_archives as_archives]. destruct (archs_inv_fold (o_isecs s)) as (W & Z & H). intros E. specialize (H a).
  rewrite E in H. destruct H as (_ & H2 & _ & H4 & _ & H6 & H7). split; [exact H2|]. split; [exact H4|]. split; [lia|].
  intros o b Eb. specialize (H7 o). rewrite Eb in H7. destruct H7 as (_ & G1 & _ & G2 & _). auto.
Qed.

Lemma archives_listed s i : In i (o_isecs s) ->
  exists x b, dget (i_archive i) (as_archives (add_archives s)) = Some x /\ dget (i_object i) (n_sub x) = Some b.
Proof.
  intros I. cbn [add_archives as_archives]. destruct (archs_inv_fold (o_isecs s)) as (_ & _ & H). specialize (H (i_archive i)).
  destruct (dget _ _) as [x|]; unfold arch_inv in H.
  - destruct H as (_ & _ & _ & _ & _ & _ & H). specialize (H (i_object i)). exists x.
    destruct (dget (i_object i) (n_sub x)) as [b|]; [eauto|]. exfalso. unfold obj_inv in H.
    assert (In i (isecs_of_object (i_archive i) (i_object i) (o_isecs s))).
    { apply filter_In. rewrite !keq_refl. auto. } rewrite H in H0. contradiction.
  - exfalso. assert (In i (isecs_of_archive (i_archive i) (o_isecs s))).
    { apply filter_In. rewrite keq_refl. auto. } rewrite H in H0. contradiction.
Qed.

Lemma archives_no_more s a x : dget a (as_archives (add_archives s)) = Some x ->
  (exists i, In i (o_isecs s) /\ i_archive i = a) /\
  forall o b, dget o (n_sub x) = Some b -> exists i, In i (o_isecs s) /\ i_archive i = a /\ i_object i = o.
Proof.
  cbn [add_archives as_archives]. destruct (archs_inv_fold (o_isecs s)) as (_ & _ & H). specialize (H a). intros E.
  rewrite E in H. destruct H as (H1 & _ & _ & _ & _ & _ & H7). split.
  - destruct (isecs_of_archive a (o_isecs s)) as [|i l] eqn:F; [congruence|]. exists i.
    assert (I : In i (isecs_of_archive a (o_isecs s))) by (rewrite F; simpl; auto). apply filter_In in I.
    destruct I as [I1 I2]. apply keq_eq in I2. auto.
  - intros o b Eb. specialize (H7 o). rewrite Eb in H7. destruct H7 as (G & _).
    destruct (isecs_of_object a o (o_isecs s)) as [|i l] eqn:F; [congruence|]. exists i.
    assert (I : In i (isecs_of_object a o (o_isecs s))) by (rewrite F; simpl; auto). apply filter_In in I.
    destruct I as [I1 I2]. apply andb_true_iff in I2. destruct I2 as [I2 I3]. apply keq_eq in I2, I3. auto.
Qed.

Lemma archives_sum s :
  zsumf (fun kv => n_size (snd kv)) (as_archives (add_archives s)) = zsumf i_size (o_isecs s).
Proof. destruct (archs_inv_fold (o_isecs s)) as (_ & Z & _). exact Z. Qed.

Lemma add_symbols_wf d l : wf_dict d -> wf_dict (add_object_symbols d l).
Proof. revert d. induction l as [|y l IH]; simpl; intros d W; [exact W|]. apply IH, wf_dset, W. Qed.

Lemma archives_wf s : wf_sub wf_arch (as_archives (add_archives s)).
Proof.
  cbn [add_archives as_archives]. destruct (archs_inv_fold (o_isecs s)) as (W & _ & H). split; [exact W|].
  apply Forall_forall. intros [a x] I. apply In_dget in I; [|exact W]. specialize (H a). rewrite I in H. cbn [snd].
  destruct H as (_ & _ & _ & _ & Wo & _ & H). split; [exact Wo|]. apply Forall_forall. intros [o b] Io.
  apply In_dget in Io; [|exact Wo]. specialize (H o). rewrite Io in H. destruct H as (_ & _ & _ & _ & Hs).
  cbn [snd]. unfold wf_obj, wf_node, wf_sub. rewrite Hs. split; [apply add_symbols_wf; constructor|].
  apply Forall_forall. intros. exact Logic.I.
Qed.

(** C18 *)
Lemma dget_add_symbols l y :
  dget y (add_object_symbols [] l) = option_map (fun z => Sym y z 0 false) (last_symbol y l).
Proof.
  unfold last_symbol. induction l as [|s l IH] using rev_ind; [reflexivity|].
  rewrite add_object_symbols_app, rev_app_distr. cbn [rev app find]. unfold add_object_symbols at 1. cbn [fold_left].
  destruct (keqP (sy_name s) y) as [<-|N].
  - rewrite dget_dset_eq. reflexivity.
  - rewrite dget_dset_neq by congruence. exact IH.
Qed.

Lemma object_symbols_last s a o x b y :
  dget a (as_archives (add_archives s)) = Some x -> dget o (n_sub x) = Some b ->
  option_map y_size (dget y (n_sub b)) = last_symbol y (symbols_of_object a o (o_isecs s)).
Proof.
  cbn [add_archives as_archives]. destruct (archs_inv_fold (o_isecs s)) as (_ & _ & H). specialize (H a). intros E Eb.
  rewrite E in H. destruct H as (_ & _ & _ & _ & _ & _ & H). specialize (H o). rewrite Eb in H.
  destruct H as (_ & _ & _ & _ & ->). rewrite dget_add_symbols. destruct (last_symbol _ _); reflexivity.
Qed.

Lemma add_symbols_distinct l : NoDup (map sy_name l) ->
  add_object_symbols [] l = map (fun y => (sy_name y, Sym (sy_name y) (sy_size y) 0 false)) l.
Proof.
  induction l as [|s l IH] using rev_ind; intros N; [reflexivity|].
  rewrite map_app in N. pose proof (NoDup_remove_1 _ _ _ N) as N1. pose proof (NoDup_remove_2 _ _ _ N) as N2.
  rewrite app_nil_r in N1, N2. rewrite add_object_symbols_app, IH by exact N1.
  unfold add_object_symbols. cbn [fold_left]. rewrite dset_notin, map_app; [reflexivity|].
  unfold keys. rewrite map_map. exact N2.
Qed.

Lemma object_symbols_sum s a o x b :
  dget a (as_archives (add_archives s)) = Some x -> dget o (n_sub x) = Some b ->
  NoDup (map sy_name (symbols_of_object a o (o_isecs s))) ->
  zsumf (fun kv => y_size (snd kv)) (n_sub b) = zsumf sy_size (symbols_of_object a o (o_isecs s)).
Proof.
  cbn [add_archives as_archives]. destruct (archs_inv_fold (o_isecs s)) as (_ & _ & H). specialize (H a). intros E Eb N.
  rewrite E in H. destruct H as (_ & _ & _ & _ & _ & _ & H). specialize (H o). rewrite Eb in H.
  destruct H as (_ & _ & _ & _ & ->). rewrite add_symbols_distinct by exact N. rewrite zsumf_map. reflexivity.
Qed.
