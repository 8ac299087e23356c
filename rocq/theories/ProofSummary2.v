From Coq Require Import Ascii String List ZArith Lia Bool Permutation.
From Verif Require Import Base MemMap SpecTree SpecOps ProofDiff ProofOps ProofTrim Fixtures ProofSummary.
Import ListNotations.
Open Scope list_scope.
Open Scope Z_scope.

Definition g_arch (w : wtuple) : list contrib :=
  match w_sect w, w_arch w with
  | Some s, Some x => [Contrib (fst x) (n_abbrev (snd x)) (fst (w_type w)) (fst s) (n_size (snd x)) (n_diff (snd x))]
  | _, _ => []
  end.
Definition g_obj (u : bool) (w : wtuple) : list contrib :=
  match w_sect w, w_arch w, w_obj w with
  | Some s, Some x, Some o =>
    [Contrib (if u then n_abbrev (snd o) else colon [fst x; fst o]) (basename (fst o)) (fst (w_type w)) (fst s)
             (n_size (snd o)) (n_diff (snd o))]
  | _, _, _ => []
  end.
Definition g_sym (u : bool) (w : wtuple) : list contrib :=
  match w_sect w, w_arch w, w_obj w, w_sym w with
  | Some s, Some x, Some o, Some y =>
    [Contrib (if u then y_abbrev (snd y) else colon [fst x; fst o; fst y]) (fst y) (fst (w_type w)) (fst s)
             (y_size (snd y)) (y_diff (snd y))]
  | _, _, _, _ => []
  end.

Lemma fold_contribs {A} (f : dict str sentry -> A -> dict str sentry) mts (g : A -> list contrib) l acc :
  (forall acc w, f acc w = fold_left (add_c mts) (g w) acc) ->
  fold_left f l acc = fold_left (add_c mts) (flat_map g l) acc.
Proof.
  intros H. revert acc. induction l as [|w l IH]; intros acc; simpl; [reflexivity|].
  rewrite fold_left_app, H. apply IH.
Qed.

Lemma archives_collect m :
  archives_summary_raw m = collect (get_summary_memory_types m) (flat_map g_arch (walk m DArchives)).
Proof.
  apply fold_contribs. intros acc w. unfold g_arch. destruct (w_sect w), (w_arch w); reflexivity.
Qed.
Lemma objects_collect m a :
  object_files_summary_raw m a = collect (get_summary_memory_types m) (flat_map (g_obj (a_unify a)) (walk m DObjects)).
Proof.
  apply fold_contribs. intros acc w. unfold g_obj. destruct (w_sect w), (w_arch w), (w_obj w); reflexivity.
Qed.
Lemma symbols_collect m a d :
  symbols_summary_raw m a d = collect (get_summary_memory_types m) (flat_map (g_sym (a_unify a)) (symbols_walk m d)).
Proof.
  apply fold_contribs. intros acc w. unfold g_sym. destruct (w_sect w), (w_arch w), (w_obj w), (w_sym w); reflexivity.
Qed.

(** *** tuples of [walk] in terms of [look] *)

Definition wkey (w : wtuple) := (fst (w_type w), w_path w).

Lemma chain_look_sect m w s : wf_map m -> w_chain m w -> w_sect w = Some s ->
  exists T, w_type w = (fst (w_type w), T) /\ dget (fst (w_type w)) (m_types m) = Some T /\
    In (fst s, snd s) (t_sections T) /\ dget (fst s) (t_sections T) = Some (snd s).
Proof.
  intros W (C1 & C2 & _) E. destruct (w_type w) as [t T] eqn:ET. exists T. simpl in *.
  assert (D : dget t (m_types m) = Some T) by (apply In_dget; [apply W|assumption]).
  specialize (C2 _ E). destruct s as [s S']. simpl.
  repeat split; auto. apply In_dget; [|assumption]. apply (wf_map_type _ _ _ W D).
Qed.

Lemma chain_look_arch m w s x : wf_map m -> w_chain m w -> w_sect w = Some s -> w_arch w = Some x ->
  look m (fst (w_type w)) [fst s; fst x] = Some (entry_of_node (snd x)) /\
  look m (fst (w_type w)) [fst s] = Some (entry_of_node (snd s)).
Proof.
  intros W C Es Ex. destruct (chain_look_sect m w s W C Es) as (T & E1 & E2 & E3 & E4).
  destruct C as (_ & _ & C3 & _). destruct (C3 _ Ex) as (s' & Es' & I). rewrite Es in Es'. injection Es' as <-.
  assert (WT : wf_type T) by (eapply wf_map_type; eauto).
  assert (WS : wf_sect (snd s)) by (eapply wf_sub_get; eauto).
  assert (D : dget (fst x) (n_sub (snd s)) = Some (snd x)).
  { apply In_dget; [apply WS|]. destruct x; exact I. }
  unfold look. rewrite E2. simpl. rewrite E4. simpl. rewrite D. split; reflexivity.
Qed.

Lemma chain_look_obj m w s x o : wf_map m -> w_chain m w ->
  w_sect w = Some s -> w_arch w = Some x -> w_obj w = Some o ->
  look m (fst (w_type w)) [fst s; fst x; fst o] = Some (entry_of_node (snd o)).
Proof.
  intros W C Es Ex Eo. destruct (chain_look_sect m w s W C Es) as (T & E1 & E2 & E3 & E4).
  destruct C as (_ & _ & C3 & C4 & _).
  destruct (C3 _ Ex) as (s' & Es' & I). rewrite Es in Es'. injection Es' as <-.
  destruct (C4 _ Eo) as (x' & Ex' & J). rewrite Ex in Ex'. injection Ex' as <-.
  assert (WT : wf_type T) by (eapply wf_map_type; eauto).
  assert (WS : wf_sect (snd s)) by (eapply wf_sub_get; eauto).
  assert (D : dget (fst x) (n_sub (snd s)) = Some (snd x)).
  { apply In_dget; [apply WS|]. destruct x; exact I. }
  assert (WX : wf_arch (snd x)) by (eapply wf_sub_get; eauto).
  assert (D2 : dget (fst o) (n_sub (snd x)) = Some (snd o)).
  { apply In_dget; [apply WX|]. destruct o; exact J. }
  unfold look. rewrite E2. simpl. rewrite E4. simpl. rewrite D. simpl. rewrite D2. reflexivity.
Qed.

Lemma chain_look_sym m w s x o y : wf_map m -> w_chain m w ->
  w_sect w = Some s -> w_arch w = Some x -> w_obj w = Some o -> w_sym w = Some y ->
  look m (fst (w_type w)) [fst s; fst x; fst o; fst y] = Some (entry_of_sym (snd y)).
Proof.
  intros W C Es Ex Eo Ey. destruct (chain_look_sect m w s W C Es) as (T & E1 & E2 & E3 & E4).
  destruct C as (_ & _ & C3 & C4 & C5).
  destruct (C3 _ Ex) as (s' & Es' & I). rewrite Es in Es'. injection Es' as <-.
  destruct (C4 _ Eo) as (x' & Ex' & J). rewrite Ex in Ex'. injection Ex' as <-.
  destruct (C5 _ Ey) as (o' & Eo' & K). rewrite Eo in Eo'. injection Eo' as <-.
  assert (WT : wf_type T) by (eapply wf_map_type; eauto).
  assert (WS : wf_sect (snd s)) by (eapply wf_sub_get; eauto).
  assert (D : dget (fst x) (n_sub (snd s)) = Some (snd x)).
  { apply In_dget; [apply WS|]. destruct x; exact I. }
  assert (WX : wf_arch (snd x)) by (eapply wf_sub_get; eauto).
  assert (D2 : dget (fst o) (n_sub (snd x)) = Some (snd o)).
  { apply In_dget; [apply WX|]. destruct o; exact J. }
  assert (WO : wf_obj (snd o)) by (eapply wf_sub_get; eauto).
  assert (D3 : dget (fst y) (n_sub (snd o)) = Some (snd y)).
  { apply In_dget; [apply WO|]. destruct y; exact K. }
  unfold look. rewrite E2. simpl. rewrite E4. simpl. rewrite D. simpl. rewrite D2. simpl. rewrite D3. reflexivity.
Qed.

(** every entry at the right depth is visited *)
Lemma look_walk m d t p x : depth_len d <> 0%nat ->
  look m t p = Some x -> length p = depth_len d ->
  exists w, In w (walk m d) /\ wkey w = (t, p) /\ w_entry w = Some x.
Proof.
  intros N E L. apply look_ents in E. destruct E as (T & I1 & I2).
  assert (I : In (t, (p, Some x)) (map (fun w => (fst (w_type w), (w_path w, w_entry w))) (walk m d))).
  { rewrite walk_items. apply in_flat_map. exists (t, T). split; [assumption|]. simpl.
    apply in_map_iff. exists (p, Some x). split; [reflexivity|].
    unfold items_at. destruct (depth_len d) as [|n] eqn:Ed; [contradiction|].
    apply in_map_iff. exists (p, x). split; [reflexivity|]. apply filter_In. split; [assumption|].
    simpl. rewrite L. apply keq_refl. }
  apply in_map_iff in I. destruct I as (w & E & I). injection E as E1 E2 E3.
  exists w. unfold wkey. rewrite E1, E2. auto.
Qed.

Lemma NoDup_flat_keys {A K K'} (g : A -> list contrib) (ck : contrib -> K) (ak : A -> K') l :
  (forall a, (length (g a) <= 1)%nat) ->
  (forall a b c c', In a l -> In b l -> In c (g a) -> In c' (g b) -> ck c = ck c' -> ak a = ak b) ->
  NoDup (map ak l) -> NoDup (map ck (flat_map g l)).
Proof.
  intros L H. induction l as [|a l IH]; simpl; intros N; [constructor|].
  inversion N; subst. rewrite map_app. apply NoDup_app_intro.
  - specialize (L a). destruct (g a) as [|c [|c' r]]; simpl in *; try lia; repeat constructor. intros [].
  - apply IH; [|assumption]. intros; eapply H; eauto; right; assumption.
  - intros k I1 I2. apply in_map_iff in I1. destruct I1 as (c & <- & I1).
    apply in_map_iff in I2. destruct I2 as (c' & E & I2). apply in_flat_map in I2. destruct I2 as (b & I3 & I4).
    apply H2. assert (ak a = ak b) as ->; [|apply in_map; assumption].
    eapply H; [left; reflexivity|right; exact I3|exact I1|exact I4|symmetry; exact E].
Qed.

(** the shape of tuples *)
Lemma walk_shape m d w : In w (walk m d) ->
  (match w_sect w with Some _ => 1 | None => 0 end <= depth_len d)%nat /\
  length (w_path w) = depth_len d /\
  (d = DArchives -> exists s x, w_sect w = Some s /\ w_arch w = Some x /\ w_obj w = None /\ w_sym w = None) /\
  (d = DObjects -> exists s x o, w_sect w = Some s /\ w_arch w = Some x /\ w_obj w = Some o /\ w_sym w = None) /\
  (d = DAll -> exists s x o y, w_sect w = Some s /\ w_arch w = Some x /\ w_obj w = Some o /\ w_sym w = Some y).
Proof.
  unfold walk. intros I. apply in_flat_map in I. destruct I as (t & It & I).
  destruct d.
  - destruct I as [<-|[]]. simpl. repeat split; auto; discriminate.
  - apply in_flat_map in I. destruct I as (s & Is & [<-|[]]). simpl. repeat split; auto; discriminate.
  - apply in_flat_map in I. destruct I as (s & Is & I).
    apply in_flat_map in I. destruct I as (x & Ix & [<-|[]]). simpl.
    repeat split; auto; try discriminate. intros _. exists s, x. auto.
  - apply in_flat_map in I. destruct I as (s & Is & I).
    apply in_flat_map in I. destruct I as (x & Ix & I).
    apply in_flat_map in I. destruct I as (o & Io & [<-|[]]). simpl.
    repeat split; auto; try discriminate. intros _. exists s, x, o. auto.
  - apply in_flat_map in I. destruct I as (s & Is & I).
    apply in_flat_map in I. destruct I as (x & Ix & I).
    apply in_flat_map in I. destruct I as (o & Io & I).
    apply in_map_iff in I. destruct I as (y & <- & Iy). simpl.
    repeat split; auto; try discriminate. intros _. exists s, x, o, y. auto.
Qed.

(** *** the generic row theorem *)
Lemma row_generic m l n e (val : str -> str -> option entry) :
  wf_map m -> Forall (known (get_summary_memory_types m)) l -> NoDup (map ckey l) ->
  (forall c t s, In c l -> ckey c = (n, (t, s)) -> exists x, val t s = Some x /\ e_size x = c_size c /\ e_diff x = c_diff c) ->
  (forall t s x, val t s = Some x -> exists c, In c l /\ ckey c = (n, (t, s))) ->
  dget n (collect (get_summary_memory_types m) l) = Some e ->
  row_ok m val e.
Proof.
  intros W K N V1 V2 E.
  pose proof (summary_mts_zero m W) as Z.
  pose proof (collect_total _ _ _ _ Z K E) as [T1 T2].
  destruct (collect_ok (get_summary_memory_types m) l) as [_ H]. specialize (H n). rewrite E in H.
  destruct H as (_ & _ & _ & D & F).
  unfold row_ok. repeat split; auto.
  - rewrite D, summary_mts by assumption. apply keys_dmap.
  - specialize (F t). rewrite H in F.
    destruct (dget t (get_summary_memory_types m)) as [T0|] eqn:ET0; [|contradiction].
    destruct F as (F0 & _). rewrite F0. rewrite summary_mts, dget_dmap in ET0 by assumption.
    destruct (dget t (m_types m)) as [U|]; [|discriminate]. injection ET0 as <-. simpl. rewrite keys_dmap. reflexivity.
  - apply (collect_sections _ _ _ _ _ _ Z K N E H).
  - apply (collect_sections _ _ _ _ _ _ Z K N E H).
  - destruct (collect_value _ _ _ _ _ _ _ _ Z N E H H0) as [(A & B & C)|(c & I & Ec & A & B)].
    + rewrite A. destruct (val t s) as [x|] eqn:EV; [|reflexivity].
      destruct (V2 t s x EV) as (c & I & Ec). exfalso. exact (C c I Ec).
    + destruct (V1 c t s I Ec) as (x & EV & Es & Ed). rewrite EV. simpl. congruence.
  - destruct (collect_value _ _ _ _ _ _ _ _ Z N E H H0) as [(A & B & C)|(c & I & Ec & A & B)].
    + rewrite B. destruct (val t s) as [x|] eqn:EV; [|reflexivity].
      destruct (V2 t s x EV) as (c & I & Ec). exfalso. exact (C c I Ec).
    + destruct (V1 c t s I Ec) as (x & EV & Es & Ed). rewrite EV. simpl. congruence.
  - specialize (F t). rewrite H, summary_mts, dget_dmap in F by assumption. unfold look.
    destruct (dget t (m_types m)) as [U|]; [|contradiction]. cbn [option_map] in F. destruct F as (_ & _ & _ & G). specialize (G s).
    cbn [st_sections] in G. rewrite dget_dmap, H0 in G. cbn [look_dict].
    destruct (dget s (t_sections U)) as [S0|]; [|contradiction]. cbn [option_map] in G. destruct G as (-> & _). reflexivity.
Qed.

Lemma known_walk m d w s c : wf_map m -> In w (walk m d) -> w_sect w = Some s ->
  c_t c = fst (w_type w) -> c_s c = fst s -> known (get_summary_memory_types m) c.
Proof.
  intros W I Es E1 E2. pose proof (walk_chain _ _ _ I) as C.
  destruct (chain_look_sect m w s W C Es) as (T & F1 & F2 & F3 & F4).
  eapply known_in; [assumption| |].
  - rewrite E1. apply dget_In. exact F2.
  - rewrite E2. exact F3.
Qed.

(** ** archives *)

Definition larch m := flat_map g_arch (walk m DArchives).

Lemma In_larch m c : wf_map m -> In c (larch m) ->
  exists x, look m (c_t c) [c_s c; c_name c] = Some x /\ e_size x = c_size c /\ e_diff x = c_diff c /\
            e_abbrev x = c_abbrev c.
Proof.
  intros W I. apply in_flat_map in I. destruct I as (w & Iw & Ic).
  destruct (walk_shape _ _ _ Iw) as (_ & _ & Sh & _ & _). destruct (Sh eq_refl) as (s & x & Es & Ex & _).
  pose proof (chain_look_arch m w s x W (walk_chain _ _ _ Iw) Es Ex) as [L _].
  unfold g_arch in Ic. rewrite Es, Ex in Ic. destruct Ic as [<-|[]]. simpl.
  exists (entry_of_node (snd x)). rewrite L. auto.
Qed.

Lemma larch_complete m t s x e : look m t [s; x] = Some e -> exists c, In c (larch m) /\ ckey c = (x, (t, s)).
Proof.
  intros E. destruct (look_walk m DArchives t [s; x] e) as (w & Iw & Ek & Ee); try assumption; try reflexivity; try discriminate.
  destruct (walk_shape _ _ _ Iw) as (_ & _ & Sh & _ & _). destruct (Sh eq_refl) as (s' & x' & Es & Ex & Eo & _).
  unfold wkey, w_path in Ek. rewrite Es, Ex, Eo in Ek. injection Ek as K1 K2 K3.
  exists (Contrib (fst x') (n_abbrev (snd x')) (fst (w_type w)) (fst s') (n_size (snd x')) (n_diff (snd x'))).
  split.
  - apply in_flat_map. exists w. split; [assumption|]. unfold g_arch. rewrite Es, Ex. left. reflexivity.
  - unfold ckey. simpl. congruence.
Qed.

Lemma larch_known m : wf_map m -> Forall (known (get_summary_memory_types m)) (larch m).
Proof.
  intros W. apply Forall_forall. intros c I. apply in_flat_map in I. destruct I as (w & Iw & Ic).
  unfold g_arch in Ic. destruct (w_sect w) as [s|] eqn:Es; [|destruct Ic]. destruct (w_arch w); [|destruct Ic].
  destruct Ic as [<-|[]]. eapply known_walk; eauto.
Qed.

Lemma larch_nodup m : wf_map m -> NoDup (map ckey (larch m)).
Proof.
  intros W. apply (NoDup_flat_keys g_arch ckey wkey).
  - intros w. unfold g_arch. destruct (w_sect w), (w_arch w); simpl; lia.
  - intros w v c c' Iw Iv Ic Ic' E.
    destruct (walk_shape _ _ _ Iw) as (_ & _ & Sh & _ & _). destruct (Sh eq_refl) as (s & x & Es & Ex & Eo & _).
    destruct (walk_shape _ _ _ Iv) as (_ & _ & Sh' & _ & _). destruct (Sh' eq_refl) as (s' & x' & Es' & Ex' & Eo' & _).
    unfold g_arch in Ic, Ic'. rewrite Es, Ex in Ic. rewrite Es', Ex' in Ic'.
    destruct Ic as [<-|[]], Ic' as [<-|[]]. unfold ckey in E. simpl in E. injection E as E1 E2 E3.
    unfold wkey, w_path. rewrite Es, Ex, Eo, Es', Ex', Eo'. congruence.
  - apply walk_nodup. assumption.
Qed.

Lemma archives_raw m x e : wf_map m -> dget x (archives_summary_raw m) = Some e ->
  row_ok m (fun t s => look m t [s; x]) e /\
  exists t s y, look m t [s; x] = Some y /\ se_abbrev e = e_abbrev y.
Proof.
  intros W E. rewrite archives_collect in E. fold (larch m) in E. split.
  - apply (row_generic m (larch m) x e); auto using larch_known, larch_nodup.
    + intros c t s I Ec. destruct (In_larch m c W I) as (y & L & A & B & _).
      unfold ckey in Ec. injection Ec as E1 E2 E3. subst. eauto.
    + intros t s y. apply larch_complete.
  - destruct (collect_ok (get_summary_memory_types m) (larch m)) as [_ H]. specialize (H x). rewrite E in H.
    destruct H as (A & _). destruct (filter (of_name x) (larch m)) as [|c r] eqn:F; [discriminate A|].
    assert (I : In c (filter (of_name x) (larch m))) by (rewrite F; left; reflexivity).
    apply filter_In in I. destruct I as [I I2]. apply keq_true in I2.
    destruct (In_larch m c W I) as (y & L & _ & _ & B). subst x.
    exists (c_t c), (c_s c), y. split; [assumption|]. simpl in A. congruence.
Qed.

Lemma archives_raw_complete m t s x : look m t [s; x] <> None -> dget x (archives_summary_raw m) <> None.
Proof.
  intros E. rewrite archives_collect. apply collect_keys. destruct (look m t [s; x]) as [e|] eqn:L; [|contradiction].
  destruct (larch_complete m t s x e L) as (c & I & Ec). exists c. split; [exact I|].
  unfold ckey in Ec. congruence.
Qed.

Lemma rem_unchanged_get a d n : wf_dict d ->
  dget n (rem_summary_unchanged a d) =
  match dget n d with Some e => if changed a (se_diff e) then Some e else None | None => None end.
Proof.
  intros W. unfold rem_summary_unchanged, changed. destruct (negb (given (a_diff a)) || a_show_unchanged a).
  - destruct (dget n d); reflexivity.
  - apply (dget_filter_key (fun _ e => negb (se_diff e =? 0)) n d W).
Qed.

Lemma wf_collect mts l : wf_dict (collect mts l).
Proof. apply collect_ok. Qed.

Lemma wf_rem_unchanged a d : wf_dict d -> wf_dict (rem_summary_unchanged a d).
Proof.
  intros W. unfold rem_summary_unchanged. destruct (_ || _); [assumption|]. apply wf_filter. assumption.
Qed.

(** a shown row is right, a row that is not shown is missing for a reason *)
Lemma archives_report m a x : wf_map m ->
  match dget x (get_archives_summary m a) with
  | Some e =>
      row_ok m (fun t s => look m t [s; x]) e /\ counts a (se_diff e) /\
      exists t s y, look m t [s; x] = Some y /\ se_abbrev e = e_abbrev y
  | None =>
      (forall t s, look m t [s; x] = None) \/
      exists e, row_ok m (fun t s => look m t [s; x]) e /\ ~ counts a (se_diff e)
  end.
Proof.
  intros W. unfold get_archives_summary. rewrite rem_unchanged_get by (rewrite archives_collect; apply wf_collect).
  destruct (dget x (archives_summary_raw m)) as [e|] eqn:E.
  - destruct (archives_raw m x e W E) as [R A]. destruct (changed a (se_diff e)) eqn:C.
    + rewrite changed_counts in C. auto.
    + right. exists e. split; [assumption|]. rewrite <- changed_counts. congruence.
  - left. intros t s. destruct (look m t [s; x]) eqn:L; [|reflexivity]. exfalso.
    apply (archives_raw_complete m t s x); [congruence|assumption].
Qed.

Lemma archives_report_wf m a : wf_dict (get_archives_summary m a).
Proof. unfold get_archives_summary. apply wf_rem_unchanged. rewrite archives_collect. apply wf_collect. Qed.

(** ** object files without --unify *)

Definition lobj m := flat_map (g_obj false) (walk m DObjects).

Lemma In_lobj m c : wf_map m -> In c (lobj m) ->
  exists x o e, c_name c = colon [x; o] /\ c_abbrev c = basename o /\
    look m (c_t c) [c_s c; x; o] = Some e /\ e_size e = c_size c /\ e_diff e = c_diff c.
Proof.
  intros W I. apply in_flat_map in I. destruct I as (w & Iw & Ic).
  destruct (walk_shape _ _ _ Iw) as (_ & _ & _ & Sh & _). destruct (Sh eq_refl) as (s & x & o & Es & Ex & Eo & _).
  pose proof (chain_look_obj m w s x o W (walk_chain _ _ _ Iw) Es Ex Eo) as L.
  unfold g_obj in Ic. rewrite Es, Ex, Eo in Ic. destruct Ic as [<-|[]]. simpl.
  exists (fst x), (fst o), (entry_of_node (snd o)). rewrite L. auto.
Qed.

Lemma lobj_complete m t s x o e : look m t [s; x; o] = Some e ->
  exists c, In c (lobj m) /\ ckey c = (colon [x; o], (t, s)).
Proof.
  intros E. destruct (look_walk m DObjects t [s; x; o] e) as (w & Iw & Ek & Ee); try assumption; try reflexivity; try discriminate.
  destruct (walk_shape _ _ _ Iw) as (_ & _ & _ & Sh & _). destruct (Sh eq_refl) as (s' & x' & o' & Es & Ex & Eo & Ey).
  unfold wkey, w_path in Ek. rewrite Es, Ex, Eo, Ey in Ek. injection Ek as K1 K2 K3 K4.
  exists (Contrib (colon [fst x'; fst o']) (basename (fst o')) (fst (w_type w)) (fst s') (n_size (snd o')) (n_diff (snd o'))).
  split.
  - apply in_flat_map. exists w. split; [assumption|]. unfold g_obj. rewrite Es, Ex, Eo. left. reflexivity.
  - unfold ckey. cbn [c_name c_t c_s]. rewrite K1, K2, K3, K4. reflexivity.
Qed.

Lemma lobj_known m u : wf_map m -> Forall (known (get_summary_memory_types m)) (flat_map (g_obj u) (walk m DObjects)).
Proof.
  intros W. apply Forall_forall. intros c I. apply in_flat_map in I. destruct I as (w & Iw & Ic).
  unfold g_obj in Ic. destruct (w_sect w) as [s|] eqn:Es; [|destruct Ic]. destruct (w_arch w); [|destruct Ic].
  destruct (w_obj w); [|destruct Ic].
  destruct Ic as [<-|[]]. eapply known_walk; eauto.
Qed.

Lemma lobj_nodup m : wf_map m -> inj_objects m -> NoDup (map ckey (lobj m)).
Proof.
  intros W J. apply (NoDup_flat_keys (g_obj false) ckey wkey).
  - intros w. unfold g_obj. destruct (w_sect w), (w_arch w), (w_obj w); simpl; lia.
  - intros w v c c' Iw Iv Ic Ic' E.
    destruct (walk_shape _ _ _ Iw) as (_ & _ & _ & Sh & _). destruct (Sh eq_refl) as (s & x & o & Es & Ex & Eo & Ey).
    destruct (walk_shape _ _ _ Iv) as (_ & _ & _ & Sh' & _). destruct (Sh' eq_refl) as (s' & x' & o' & Es' & Ex' & Eo' & Ey').
    pose proof (chain_look_obj m w s x o W (walk_chain _ _ _ Iw) Es Ex Eo) as L.
    pose proof (chain_look_obj m v s' x' o' W (walk_chain _ _ _ Iv) Es' Ex' Eo') as L'.
    unfold g_obj in Ic, Ic'. rewrite Es, Ex, Eo in Ic. rewrite Es', Ex', Eo' in Ic'.
    destruct Ic as [<-|[]], Ic' as [<-|[]]. unfold ckey in E. cbn [c_name c_t c_s] in E.
    injection E as E1 E2 E3.
    destruct (J (fst (w_type w)) (fst s) (fst x) (fst o) (fst (w_type v)) (fst s') (fst x') (fst o')) as [X1 X2];
      [congruence|congruence|exact E1|].
    unfold wkey, w_path. rewrite Es, Ex, Eo, Ey, Es', Ex', Eo', Ey'. congruence.
  - apply walk_nodup. assumption.
Qed.

Lemma objects_report m a n : wf_map m -> inj_objects m -> a_unify a = false ->
  match dget n (get_object_files_summary m a) with
  | Some e => exists x o,
      n = colon [x; o] /\ se_abbrev e = basename o /\
      (exists t s, look m t [s; x; o] <> None) /\
      row_ok m (fun t s => look m t [s; x; o]) e /\ counts a (se_diff e)
  | None => forall x o t s, n = colon [x; o] -> look m t [s; x; o] <> None ->
      exists e, row_ok m (fun t s => look m t [s; x; o]) e /\ ~ counts a (se_diff e)
  end.
Proof.
  intros W J U. unfold get_object_files_summary.
  rewrite rem_unchanged_get by (rewrite objects_collect; apply wf_collect).
  assert (R : forall e x o, dget n (object_files_summary_raw m a) = Some e -> n = colon [x; o] ->
     (exists t s, look m t [s; x; o] <> None) -> row_ok m (fun t s => look m t [s; x; o]) e).
  { intros e x o E En (t0 & s0 & P0). rewrite objects_collect, U in E. fold (lobj m) in E.
    apply (row_generic m (lobj m) n e); auto using lobj_nodup.
    - apply (lobj_known m false W).
    - intros c t s I Ec. destruct (In_lobj m c W I) as (x' & o' & y & N1 & _ & L & A & B).
      unfold ckey in Ec. injection Ec as E1 E2 E3. subst t s.
      destruct (J (c_t c) (c_s c) x' o' t0 s0 x o) as [-> ->]; [rewrite L; discriminate|assumption|congruence|]. eauto.
    - intros t s y L. rewrite En. eapply lobj_complete; eauto. }
  destruct (dget n (object_files_summary_raw m a)) as [e|] eqn:E.
  - destruct (changed a (se_diff e)) eqn:C.
    + assert (X : exists x o, n = colon [x; o] /\ se_abbrev e = basename o /\ exists t s, look m t [s; x; o] <> None).
      { pose proof E as E'. rewrite objects_collect, U in E'. fold (lobj m) in E'.
        destruct (collect_ok (get_summary_memory_types m) (lobj m)) as [_ H]. specialize (H n). rewrite E' in H.
        destruct H as (A & _). destruct (filter (of_name n) (lobj m)) as [|c r] eqn:F; [discriminate A|].
        assert (I : In c (filter (of_name n) (lobj m))) by (rewrite F; left; reflexivity).
        apply filter_In in I. destruct I as [I I2]. apply keq_true in I2.
        destruct (In_lobj m c W I) as (x & o & y & N1 & N2 & L & _).
        exists x, o. split; [congruence|]. split; [cbn [map hd_error] in A; congruence|]. exists (c_t c), (c_s c). congruence. }
      destruct X as (x & o & En & Ea & P). exists x, o. rewrite changed_counts in C.
      split; [exact En|]. split; [exact Ea|]. split; [exact P|]. split; [|exact C]. apply R; auto.
    + intros x o t s En P. exists e. split; [|rewrite <- changed_counts; congruence].
      apply R; eauto.
  - intros x o t s En P. exfalso. destruct (look m t [s; x; o]) as [y|] eqn:L; [|contradiction].
    destruct (lobj_complete m t s x o y L) as (c & I & Ec).
    apply (proj2 (collect_keys (get_summary_memory_types m) (lobj m) n)).
    + exists c. split; [assumption|]. unfold ckey in Ec. congruence.
    + rewrite objects_collect, U in E. exact E.
Qed.

(** ** symbols without --unify *)

Definition lsym m d := flat_map (g_sym false) (symbols_walk m d).

Lemma In_symbols_walk m d w : In w (symbols_walk m d) ->
  In w (walk m DAll) /\ exists x, w_arch w = Some x /\ n_abbrev (snd x) = d.
Proof.
  intros I. apply filter_In in I. destruct I as [I1 I2]. split; [assumption|].
  destruct (w_arch w) as [x|]; [|discriminate]. exists x. split; [reflexivity|]. apply keq_true. assumption.
Qed.

Lemma In_lsym m d c : wf_map m -> In c (lsym m d) ->
  exists x o y e, c_name c = colon [x; o; y] /\ c_abbrev c = y /\
    sym_val m d (c_t c) (c_s c) x o y = Some e /\ e_size e = c_size c /\ e_diff e = c_diff c.
Proof.
  intros W I. apply in_flat_map in I. destruct I as (w & Iw & Ic).
  apply In_symbols_walk in Iw. destruct Iw as [Iw (x0 & Ex0 & Ed)].
  destruct (walk_shape _ _ _ Iw) as (_ & _ & _ & _ & Sh). destruct (Sh eq_refl) as (s & x & o & y & Es & Ex & Eo & Ey).
  rewrite Ex in Ex0. injection Ex0 as <-.
  pose proof (chain_look_sym m w s x o y W (walk_chain _ _ _ Iw) Es Ex Eo Ey) as L.
  pose proof (chain_look_arch m w s x W (walk_chain _ _ _ Iw) Es Ex) as [La _].
  unfold g_sym in Ic. rewrite Es, Ex, Eo, Ey in Ic. destruct Ic as [<-|[]]. cbn [c_name c_abbrev c_t c_s c_size c_diff].
  exists (fst x), (fst o), (fst y), (entry_of_sym (snd y)). unfold sym_val. rewrite La, L. simpl e_abbrev.
  rewrite Ed, keq_refl. auto.
Qed.

Lemma lsym_complete m d t s x o y e : wf_map m -> sym_val m d t s x o y = Some e ->
  exists c, In c (lsym m d) /\ ckey c = (colon [x; o; y], (t, s)).
Proof.
  intros W E. unfold sym_val in E. destruct (look m t [s; x]) as [ea|] eqn:La; [|discriminate].
  destruct (keqP (e_abbrev ea) d) as [Ed|]; [|discriminate].
  destruct (look_walk m DAll t [s; x; o; y] e) as (w & Iw & Ek & Ee); try assumption; try reflexivity; try discriminate.
  destruct (walk_shape _ _ _ Iw) as (_ & _ & _ & _ & Sh). destruct (Sh eq_refl) as (s' & x' & o' & y' & Es & Ex & Eo & Ey).
  pose proof (chain_look_arch m w s' x' W (walk_chain _ _ _ Iw) Es Ex) as [La' _].
  unfold wkey, w_path in Ek. rewrite Es, Ex, Eo, Ey in Ek. injection Ek as K1 K2 K3 K4 K5.
  rewrite K1, K2, K3, La in La'. injection La' as ->. simpl in Ed.
  exists (Contrib (colon [fst x'; fst o'; fst y']) (fst y') (fst (w_type w)) (fst s') (y_size (snd y')) (y_diff (snd y'))).
  split.
  - apply in_flat_map. exists w. split.
    + apply filter_In. split; [assumption|]. rewrite Ex. apply keq_eq. assumption.
    + unfold g_sym. rewrite Es, Ex, Eo, Ey. left. reflexivity.
  - unfold ckey. cbn [c_name c_t c_s]. rewrite K1, K2, K3, K4, K5. reflexivity.
Qed.

Lemma lsym_known m u d : wf_map m -> Forall (known (get_summary_memory_types m)) (flat_map (g_sym u) (symbols_walk m d)).
Proof.
  intros W. apply Forall_forall. intros c I. apply in_flat_map in I. destruct I as (w & Iw & Ic).
  apply In_symbols_walk in Iw. destruct Iw as [Iw _].
  unfold g_sym in Ic. destruct (w_sect w) as [s|] eqn:Es; [|destruct Ic]. destruct (w_arch w); [|destruct Ic].
  destruct (w_obj w); [|destruct Ic]. destruct (w_sym w); [|destruct Ic].
  destruct Ic as [<-|[]]. eapply known_walk; eauto.
Qed.

Lemma lsym_nodup m d : wf_map m -> inj_symbols m -> NoDup (map ckey (lsym m d)).
Proof.
  intros W J. apply (NoDup_flat_keys (g_sym false) ckey wkey).
  - intros w. unfold g_sym. destruct (w_sect w), (w_arch w), (w_obj w), (w_sym w); simpl; lia.
  - intros w v c c' Iw Iv Ic Ic' E.
    apply In_symbols_walk in Iw. destruct Iw as [Iw _]. apply In_symbols_walk in Iv. destruct Iv as [Iv _].
    destruct (walk_shape _ _ _ Iw) as (_ & _ & _ & _ & Sh). destruct (Sh eq_refl) as (s & x & o & y & Es & Ex & Eo & Ey).
    destruct (walk_shape _ _ _ Iv) as (_ & _ & _ & _ & Sh'). destruct (Sh' eq_refl) as (s' & x' & o' & y' & Es' & Ex' & Eo' & Ey').
    pose proof (chain_look_sym m w s x o y W (walk_chain _ _ _ Iw) Es Ex Eo Ey) as L.
    pose proof (chain_look_sym m v s' x' o' y' W (walk_chain _ _ _ Iv) Es' Ex' Eo' Ey') as L'.
    unfold g_sym in Ic, Ic'. rewrite Es, Ex, Eo, Ey in Ic. rewrite Es', Ex', Eo', Ey' in Ic'.
    destruct Ic as [<-|[]], Ic' as [<-|[]]. unfold ckey in E. cbn [c_name c_t c_s] in E.
    injection E as E1 E2 E3.
    destruct (J (fst (w_type w)) (fst s) (fst x) (fst o) (fst y) (fst (w_type v)) (fst s') (fst x') (fst o') (fst y'))
      as (X1 & X2 & X3); [congruence|congruence|exact E1|].
    unfold wkey, w_path. rewrite Es, Ex, Eo, Ey, Es', Ex', Eo', Ey'. congruence.
  - unfold symbols_walk. apply NoDup_map_filter. apply walk_nodup. assumption.
Qed.

Lemma sym_val_look m d t s x o y : sym_val m d t s x o y <> None -> look m t [s; x; o; y] <> None.
Proof.
  unfold sym_val. destruct (look m t [s; x]); [|congruence]. destruct (_ =?= _); congruence.
Qed.

Lemma symbols_report m a d S0 n : wf_map m -> inj_symbols m -> a_unify a = false ->
  a_archive_details a = Some d -> get_symbols_summary m a = Ok S0 ->
  match dget n S0 with
  | Some e => exists x o y,
      n = colon [x; o; y] /\ se_abbrev e = y /\
      (exists t s, sym_val m d t s x o y <> None) /\
      row_ok m (fun t s => sym_val m d t s x o y) e /\ counts a (se_diff e)
  | None => forall x o y t s, n = colon [x; o; y] -> sym_val m d t s x o y <> None ->
      exists e, row_ok m (fun t s => sym_val m d t s x o y) e /\ ~ counts a (se_diff e)
  end.
Proof.
  intros W J U Ad G. unfold get_symbols_summary in G. rewrite Ad in G.
  destruct (symbols_walk m d) as [|w0 r0] eqn:SW; [discriminate|]. injection G as <-. clear SW w0 r0.
  rewrite rem_unchanged_get by (rewrite symbols_collect; apply wf_collect).
  assert (R : forall e x o y, dget n (symbols_summary_raw m a d) = Some e -> n = colon [x; o; y] ->
     (exists t s, sym_val m d t s x o y <> None) -> row_ok m (fun t s => sym_val m d t s x o y) e).
  { intros e x o y E En (t0 & s0 & P0). apply sym_val_look in P0. rewrite symbols_collect, U in E. fold (lsym m d) in E.
    apply (row_generic m (lsym m d) n e); auto using lsym_nodup.
    - apply (lsym_known m false d W).
    - intros c t s I Ec. destruct (In_lsym m d c W I) as (x' & o' & y' & ee & N1 & _ & L & A & B).
      unfold ckey in Ec. injection Ec as E1 E2 E3. subst t s.
      assert (L' : look m (c_t c) [c_s c; x'; o'; y'] <> None) by (apply (sym_val_look m d); congruence).
      destruct (J (c_t c) (c_s c) x' o' y' t0 s0 x o y) as (-> & -> & ->); [assumption|assumption|congruence|]. eauto.
    - intros t s ee L. rewrite En. eapply lsym_complete; eauto. }
  destruct (dget n (symbols_summary_raw m a d)) as [e|] eqn:E.
  - destruct (changed a (se_diff e)) eqn:C.
    + assert (X : exists x o y, n = colon [x; o; y] /\ se_abbrev e = y /\ exists t s, sym_val m d t s x o y <> None).
      { pose proof E as E'. rewrite symbols_collect, U in E'. fold (lsym m d) in E'.
        destruct (collect_ok (get_summary_memory_types m) (lsym m d)) as [_ H]. specialize (H n). rewrite E' in H.
        destruct H as (A & _). destruct (filter (of_name n) (lsym m d)) as [|c r] eqn:F; [discriminate A|].
        assert (I : In c (filter (of_name n) (lsym m d))) by (rewrite F; left; reflexivity).
        apply filter_In in I. destruct I as [I I2]. apply keq_true in I2.
        destruct (In_lsym m d c W I) as (x & o & y & ee & N1 & N2 & L & _).
        exists x, o, y. split; [congruence|]. split; [cbn [map hd_error] in A; congruence|]. exists (c_t c), (c_s c). congruence. }
      destruct X as (x & o & y & En & Ea & P). exists x, o, y. rewrite changed_counts in C.
      split; [exact En|]. split; [exact Ea|]. split; [exact P|]. split; [|exact C]. apply R; auto.
    + intros x o y t s En P. exists e. split; [|rewrite <- changed_counts; congruence].
      apply R; eauto.
  - intros x o y t s En P. exfalso. destruct (sym_val m d t s x o y) as [ee|] eqn:L; [|contradiction].
    destruct (lsym_complete m d t s x o y ee W L) as (c & I & Ec).
    apply (proj2 (collect_keys (get_summary_memory_types m) (lsym m d) n)).
    + exists c. split; [assumption|]. unfold ckey in Ec. congruence.
    + rewrite symbols_collect, U in E. exact E.
Qed.

Lemma symbols_not_found m a d : wf_map m -> a_archive_details a = Some d ->
  get_symbols_summary m a = Err SystemExit <->
  forall t s x o y, sym_val m d t s x o y = None.
Proof.
  intros W Ad. unfold get_symbols_summary. rewrite Ad. split.
  - destruct (symbols_walk m d) eqn:SW; [|discriminate]. intros _ t s x o y.
    destruct (sym_val m d t s x o y) as [e|] eqn:E; [|reflexivity].
    destruct (lsym_complete m d t s x o y e W E) as (c & I & _). unfold lsym in I. rewrite SW in I. destruct I.
  - intros H. destruct (symbols_walk m d) as [|w r] eqn:SW; [reflexivity|]. exfalso.
    assert (Iw : In w (symbols_walk m d)) by (rewrite SW; left; reflexivity).
    apply In_symbols_walk in Iw. destruct Iw as [Iw (x & Ex & Ed)].
    destruct (walk_shape _ _ _ Iw) as (_ & _ & _ & _ & Sh). destruct (Sh eq_refl) as (s & x' & o & y & Es & Ex' & Eo & Ey).
    rewrite Ex in Ex'. injection Ex' as <-.
    pose proof (chain_look_sym m w s x o y W (walk_chain _ _ _ Iw) Es Ex Eo Ey) as L.
    pose proof (chain_look_arch m w s x W (walk_chain _ _ _ Iw) Es Ex) as [La _].
    specialize (H (fst (w_type w)) (fst s) (fst x) (fst o) (fst y)). unfold sym_val in H.
    rewrite La in H. cbn [e_abbrev entry_of_node] in H. rewrite Ed, keq_refl, L in H. discriminate.
Qed.
Lemma symbols_found m a d base : wf_map m -> a_archive_details a = Some d -> get_symbols_summary m a = Ok base ->
  exists t s x o y, sym_val m d t s x o y <> None.
Proof.
  intros W Ad. unfold get_symbols_summary. rewrite Ad. destruct (symbols_walk m d) as [|w r] eqn:SW; [discriminate|]. intros _.
  assert (Iw : In w (symbols_walk m d)) by (rewrite SW; left; reflexivity).
  apply In_symbols_walk in Iw. destruct Iw as [Iw (x & Ex & Ed)].
  destruct (walk_shape _ _ _ Iw) as (_ & _ & _ & _ & Sh). destruct (Sh eq_refl) as (s & x' & o & y & Es & Ex' & Eo & Ey).
  rewrite Ex in Ex'. injection Ex' as <-.
  pose proof (chain_look_sym m w s x o y W (walk_chain _ _ _ Iw) Es Ex Eo Ey) as L.
  pose proof (chain_look_arch m w s x W (walk_chain _ _ _ Iw) Es Ex) as [La _].
  exists (fst (w_type w)), (fst s), (fst x), (fst o), (fst y). unfold sym_val.
  rewrite La. cbn [e_abbrev entry_of_node]. rewrite Ed, keq_refl, L. discriminate.
Qed.
