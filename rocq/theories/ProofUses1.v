(** * The order of the dependency report *)
From Coq Require Import Ascii String List ZArith Lia Bool Sorted.
From Verif Require Import Base MemMap SpecTree SpecOps Filter Pipeline PyStr MapFile SpecMap Deps SpecDeps ProofArch ProofSummary2 ProofDeps ProofDeps2 SpecUses.
Import ListNotations.
Open Scope list_scope.
Open Scope Z_scope.

(** ** sublists *)
Lemma sublist_refl {A} (l : list A) : sublist l l.
Proof. induction l; [constructor|now apply sub_keep]. Qed.
Lemma sublist_nil {A} (l : list A) : sublist [] l.
Proof. induction l; now constructor. Qed.
Lemma sublist_trans {A} (l1 l2 l3 : list A) : sublist l1 l2 -> sublist l2 l3 -> sublist l1 l3.
Proof.
  intros H1 H2. revert l1 H1. induction H2 as [|x l l' _ IH|x l l' _ IH]; intros l1 H1; [exact H1|constructor; auto|].
  inversion H1; subst; [apply sub_skip|apply sub_keep]; auto.
Qed.
Lemma sublist_filter {A} p (l : list A) : sublist (filter p l) l.
Proof. induction l as [|x l IH]; cbn [filter]; [constructor|]. destruct (p x); [now apply sub_keep|now apply sub_skip]. Qed.
Lemma sublist_map {A B} (f : A -> B) l l' : sublist l l' -> sublist (map f l) (map f l').
Proof. induction 1; cbn [map]; [constructor|now apply sub_skip|now apply sub_keep]. Qed.
Lemma sublist_In {A} (l l' : list A) x : sublist l l' -> In x l -> In x l'.
Proof. induction 1; intros I; [exact I|right; auto|]. destruct I as [->|I]; [now left|right; auto]. Qed.
Lemma sublist_app {A} (l1 l2 m1 m2 : list A) : sublist l1 m1 -> sublist l2 m2 -> sublist (l1 ++ l2) (m1 ++ m2).
Proof. induction 1; intros H2; cbn [app]; [exact H2|apply sub_skip; auto|apply sub_keep; auto]. Qed.

Lemma not_after_cons c l x y : not_after l x y -> not_after (c :: l) x y.
Proof. intros (l1 & l2 & -> & I). exists (c :: l1), l2. now split. Qed.
Lemma not_after_refl l x : In x l -> not_after l x x.
Proof. intros I. apply in_split in I. destruct I as (l1 & l2 & ->). exists l1, l2. split; [reflexivity|now left]. Qed.
Lemma sublist_sorted l l' : sublist l l' -> StronglySorted (not_after l') l.
Proof.
  assert (W : forall c (q : list str) m, StronglySorted (not_after m) q -> StronglySorted (not_after (c :: m)) q).
  { intros c q m S. induction S as [|x q S IH F]; constructor; [exact IH|]. eapply Forall_impl; [|exact F]. intros y. apply not_after_cons. }
  induction 1 as [|x l l' H IH|x l l' H IH]; [constructor|now apply W|]. constructor; [now apply W|].
  apply Forall_forall. intros y I. exists [], l'. split; [reflexivity|]. right. eapply sublist_In; eassumption.
Qed.

(** ** keys in the order in which they first appear *)
Lemma distinct_In l x : In x (distinct l) <-> In x l.
Proof.
  induction l as [|y l IH]; cbn [distinct]; [reflexivity|]. cbn [In]. rewrite filter_In, IH, negb_true_iff. split; [tauto|].
  intros [->|I]; [now left|]. destruct (keqP x y) as [->|N]; [now left|]. right. now split.
Qed.
Lemma distinct_filter p l : distinct (filter p l) = filter p (distinct l).
Proof.
  assert (C : forall (f g : str -> bool) q, filter f (filter g q) = filter g (filter f q)).
  { intros f g q. induction q as [|x q IH]; [reflexivity|]. cbn [filter]. destruct (f x) eqn:F, (g x) eqn:G; cbn [filter]; rewrite ?F, ?G; now rewrite IH. }
  induction l as [|x l IH]; [reflexivity|]. cbn [filter distinct]. destruct (p x) eqn:P; cbn [distinct]; rewrite IH, C; [reflexivity|].
  rewrite C.
  assert (G : forall q : list str, filter p q = filter (fun z => negb (z =?= x)) (filter p q)).
  { induction q as [|y q IHq]; [reflexivity|]. cbn [filter]. destruct (p y) eqn:Py; [|exact IHq]. cbn [filter].
    destruct (keqP y x) as [->|N]; [congruence|]. cbn [negb]. now rewrite <- IHq. }
  rewrite C. apply G.
Qed.
Lemma sorted_filter {A} (R : A -> A -> Prop) p l : StronglySorted R l -> StronglySorted R (filter p l).
Proof.
  induction 1 as [|x l S IH F]; [constructor|]. cbn [filter]. destruct (p x); [|exact IH]. constructor; [exact IH|].
  rewrite Forall_forall in *. intros y I. apply filter_In in I. now apply F.
Qed.
Lemma sorted_impl {A} (R R' : A -> A -> Prop) l : (forall x y, In x l -> In y l -> R x y -> R' x y) -> StronglySorted R l -> StronglySorted R' l.
Proof.
  intros H S. induction S as [|x l S IH F]; constructor.
  - apply IH. intros; apply H; [now right|now right|assumption].
  - rewrite Forall_forall in *. intros y I. apply H; [now left|now right|now apply F].
Qed.
Lemma sorted_map {A B} (f : A -> B) (R : B -> B -> Prop) l : StronglySorted (fun x y => R (f x) (f y)) l -> StronglySorted R (map f l).
Proof.
  induction 1 as [|x l S IH F]; cbn [map]; constructor; [exact IH|]. rewrite Forall_forall in *. intros y I. apply List.in_map_iff in I.
  destruct I as (z & <- & I). now apply F.
Qed.
Lemma sorted_map_inv {A B} (f : A -> B) (R : B -> B -> Prop) l : StronglySorted R (map f l) -> StronglySorted (fun x y => R (f x) (f y)) l.
Proof.
  induction l as [|x l IH]; cbn [map]; intros S; [constructor|]. inversion S as [|? ? S' F]; subst. constructor; [auto|].
  rewrite Forall_forall in *. intros y I. apply F. now apply List.in_map.
Qed.

Lemma distinct_sorted {E} (key : E -> str) (R : E -> E -> Prop) l : StronglySorted R l ->
  StronglySorted (fun k k' => forall e', In e' l -> key e' = k' -> exists e, In e l /\ key e = k /\ R e e') (distinct (map key l)).
Proof.
  induction 1 as [|e l S IH F]; cbn [map distinct]; [constructor|]. constructor.
  - eapply sorted_impl; [|apply sorted_filter, IH]. intros k k' I I' H e' [<-|Ie'] Ek.
    + apply filter_In in I'. destruct I' as (_ & N). rewrite <- Ek, keq_refl in N. discriminate N.
    + destruct (H e' Ie' Ek) as (e0 & Ie0 & Ek0 & R0). exists e0. split; [now right|]. now split.
  - apply Forall_forall. intros k' I'. apply filter_In in I'. destruct I' as (_ & N). intros e' [<-|Ie'] Ek.
    + rewrite <- Ek, keq_refl in N. discriminate N.
    + exists e. split; [now left|]. split; [reflexivity|]. rewrite Forall_forall in F. now apply F.
Qed.

Lemma keys_dput {V} k (v : V) f (d : dict str V) : keys (dput k v f d) = if dmem k d then keys d else keys d ++ [k].
Proof. unfold dput. rewrite keys_dupd. destruct (dmem k d) eqn:M; [reflexivity|]. rewrite keys_dset, M. reflexivity. Qed.
Lemma keys_puts {V} (v0 : str -> V) evs : forall acc, keys (puts v0 evs acc) = keys acc ++ filter (fun x => negb (mem x (keys acc))) (distinct (map fst evs)).
Proof.
  induction evs as [|[k f] evs IH]; intros acc.
  - cbn. now rewrite app_nil_r.
  - cbn [puts fold_left map fst snd distinct]. fold (puts v0 evs (dput k (v0 k) f acc)). rewrite IH, keys_dput. cbn [filter].
    assert (M : mem k (keys acc) = dmem k acc).
    { destruct (dmem k acc) eqn:D; [apply mem_In; now apply dmem_In|]. apply mem_not_In. intros I. apply dmem_In in I. congruence. }
    rewrite M. destruct (dmem k acc) eqn:D; cbn [negb].
    + f_equal. assert (G : forall q : list str, filter (fun x => negb (mem x (keys acc))) q = filter (fun x => negb (mem x (keys acc))) (filter (fun z => negb (z =?= k)) q)).
      { induction q as [|x q IHq]; [reflexivity|]. cbn [filter]. destruct (keqP x k) as [->|N]; cbn [negb filter].
        - rewrite M. cbn [negb]. exact IHq.
        - destruct (negb (mem x (keys acc))); now rewrite IHq. }
      apply G.
    + rewrite <- app_assoc. cbn [app]. do 2 f_equal.
      clear IH. induction (distinct (map fst evs)) as [|x q IHq]; [reflexivity|]. cbn [filter].
      assert (Mx : mem x (keys acc ++ [k]) = mem x (keys acc) || (x =?= k)).
      { unfold mem. rewrite existsb_app. cbn [existsb]. now rewrite orb_false_r. }
      rewrite Mx. destruct (x =?= k) eqn:Ex; cbn [negb filter]; rewrite ?orb_true_r, ?orb_false_r; cbn [negb].
      * exact IHq.
      * destruct (mem x (keys acc)); cbn [negb]; now rewrite IHq.
Qed.
Lemma keys_puts_nil {V} (v0 : str -> V) evs : keys (puts v0 evs []) = distinct (map fst evs).
Proof. rewrite keys_puts. cbn. induction (distinct (map fst evs)) as [|x q IH]; [reflexivity|]. cbn. now rewrite IH. Qed.

(** ** events that all add a symbol: outer archive, inner archive, symbol *)
Definition full : Type := (str * (str * str))%type.
Definition event_of (e : full) : str * option (str * str) := (fst e, Some (snd e)).
Definition full_events (ord : set_order) (rev : bool) (kv : str * list (str * str)) : list full :=
  match snd kv with
  | [] => []
  | def :: refs => map (fun r => if rev then (fst def, (r, fst kv)) else (r, (fst def, fst kv))) (ord (fst kv) (map fst refs))
  end.
Lemma dep_full ord F : flat_map (dep_events ord) F = map event_of (flat_map (full_events ord false) F).
Proof.
  induction F as [|kv F IH]; [reflexivity|]. cbn [flat_map]. rewrite map_app, IH. f_equal. unfold dep_events, full_events. destruct (snd kv) as [|def refs]; [reflexivity|].
  now rewrite map_map.
Qed.
Lemma rev_full sizes ord F acc : set_iteration ord -> Forall (fun kv => exists def r q, snd kv = def :: r :: q) F ->
  run_events sizes (flat_map (rev_events ord) F) acc = run_events sizes (map event_of (flat_map (full_events ord true) F)) acc.
Proof.
  intros SI. revert acc. induction F as [|kv F IH]; intros acc K; [reflexivity|]. inversion K as [|? ? K1 K2]; subst. cbn [flat_map].
  rewrite map_app, !run_events_app, IH by assumption. f_equal. destruct K1 as (def & r & q & E). unfold rev_events, full_events. rewrite E.
  assert (N : ord (fst kv) (map fst (r :: q)) <> []).
  { intros N. assert (I : In (fst r) (ord (fst kv) (map fst (r :: q)))) by (apply SI; now left). now rewrite N in I. }
  destruct (ord (fst kv) (map fst (r :: q))) as [|x l]; [contradiction|]. cbn [map]. rewrite map_map. cbn [event_of fst snd].
  change ((fst def, None) :: (fst def, Some (x, fst kv)) :: map (fun r0 => (fst def, Some (r0, fst kv))) l) with ([(fst def, None); (fst def, Some (x, fst kv))] ++ map (fun r0 => (fst def, Some (r0, fst kv))) l).
  rewrite run_events_app, run_ensure, <- run_events_app. reflexivity.
Qed.

Section Report.
  Context (sizes : dict str sentry) (fs : list full).
  Notation r := (run_events sizes (map event_of fs) []).

  Lemma full_keys : keys r = distinct (map fst fs).
  Proof. unfold run_events. rewrite keys_puts_nil, !map_map. reflexivity. Qed.

  Lemma apply_full l : forall d, da_archives (apply_all (map (fun e : full => apply_event sizes (Some (snd e))) l) d) =
    puts (ent0 sizes) (map (fun e : full => (fst (snd e), add_de_symbol (snd (snd e)))) l) (da_archives d).
  Proof.
    induction l as [|[a [b s]] l IH]; intros d; [reflexivity|]. cbn [map apply_all fold_left snd fst puts]. unfold apply_all in IH. rewrite IH. reflexivity.
  Qed.
  Lemma full_get a d : dget a r = Some d -> let l := filter (fun e : full => fst e =?= a) fs in
    l <> [] /\ keys (da_archives d) = distinct (map (fun e : full => fst (snd e)) l) /\
    forall b, dget b (da_archives d) = match map (fun e : full => snd (snd e)) (filter (fun e : full => fst (snd e) =?= b) l) with
      | [] => None | ss => Some (DEnt (basename b) (size_of sizes b) ss) end.
  Proof.
    intros G l. pose proof (look_events sizes (map event_of fs) a) as L. rewrite G in L. destruct L as ((ev & I & E) & _ & _ & C).
    assert (N : l <> []).
    { apply List.in_map_iff in I. destruct I as (e & <- & I). intros X. assert (J : In e l) by (apply filter_In; split; [exact I|]; apply keq_eq; exact E). rewrite X in J. contradiction. }
    split; [exact N|].
    assert (Fe : filter (fun ev : str * option (str * str) => fst ev =?= a) (map event_of fs) = map event_of l).
    { subst l. clear. induction fs as [|e q IH]; [reflexivity|]. cbn [map filter event_of fst]. destruct (fst e =?= a); cbn [map]; now rewrite IH. }
    split.
    - unfold run_events in G. rewrite dget_puts in G. cbn [dget] in G.
      assert (Em : map snd (filter (fun ev => fst ev =?= a) (map (fun ev : str * option (str * str) => (fst ev, apply_event sizes (snd ev))) (map event_of fs))) =
        map (fun e : full => apply_event sizes (Some (snd e))) l).
      { subst l. clear. induction fs as [|e q IH]; [reflexivity|]. cbn [map filter event_of fst]. destruct (fst e =?= a); cbn [map snd]; now rewrite IH. }
      rewrite Em in G. destruct l as [|e0 l0] eqn:El; [contradiction|]. rewrite <- El in *. 
      assert (Gd : Some (apply_all (map (fun e : full => apply_event sizes (Some (snd e))) l) (arch0 sizes a)) = Some d).
      { rewrite <- G. destruct (map _ l) eqn:Mx; [|reflexivity]. rewrite El in Mx. discriminate Mx. }
      injection Gd as <-. rewrite apply_full. cbn [arch0 da_archives]. rewrite keys_puts_nil, map_map. reflexivity.
    - intros b. rewrite C, Fe.
      assert (Is : inner_syms b (map event_of l) = map (fun e : full => snd (snd e)) (filter (fun e : full => fst (snd e) =?= b) l)).
      { clear. unfold inner_syms. induction l as [|[x [y s]] q IH]; [reflexivity|]. cbn [map flat_map event_of snd fst filter]. rewrite IH.
        destruct (y =?= b); reflexivity. }
      now rewrite Is.
  Qed.
End Report.

(** ** the events are in the order of the table *)
Lemma sorted_app {A} (R : A -> A -> Prop) l l' : StronglySorted R l -> StronglySorted R l' -> (forall x y, In x l -> In y l' -> R x y) -> StronglySorted R (l ++ l').
Proof.
  intros S S' H. induction S as [|x l S IH F]; [exact S'|]. cbn [app]. constructor; [apply IH; intros; apply H; [now right|assumption]|].
  apply Forall_app. split; [exact F|]. apply Forall_forall. intros y I. apply H; [now left|exact I].
Qed.
Lemma sorted_events L ord rev (F : crt_table) : sublist (map fst F) L ->
  StronglySorted (fun e e' : full => not_after L (snd (snd e)) (snd (snd e'))) (flat_map (full_events ord rev) F).
Proof.
  intros Sb. assert (S : StronglySorted (not_after L) (map fst F)) by now apply sublist_sorted.
  assert (Sy : forall kv e, In e (full_events ord rev kv) -> snd (snd e) = fst kv).
  { intros kv e I. unfold full_events in I. destruct (snd kv); [contradiction|]. apply List.in_map_iff in I. destruct I as (x & <- & _). now destruct rev. }
  assert (In_L : forall kv, In kv F -> In (fst kv) L) by (intros kv I; eapply sublist_In; [exact Sb|now apply List.in_map]).
  clear Sb. induction F as [|kv F IH]; [constructor|]. cbn [flat_map map] in *. inversion S as [|? ? S' Fa]; subst. apply sorted_app.
  - assert (R : not_after L (fst kv) (fst kv)) by (apply not_after_refl, In_L; now left).
    assert (X : forall q, (forall e : full, In e q -> snd (snd e) = fst kv) -> StronglySorted (fun e e' : full => not_after L (snd (snd e)) (snd (snd e'))) q).
    { induction q as [|e q IHq]; intros H; constructor; [apply IHq; intros; apply H; now right|]. apply Forall_forall. intros e' I.
      rewrite (H e) by now left. rewrite (H e') by now right. exact R. }
    apply X, Sy.
  - apply IH; [exact S'|]. intros; apply In_L; now right.
  - intros e e' I I'. rewrite (Sy _ _ I). apply in_flat_map in I'. destruct I' as (kv' & K & I'). rewrite (Sy _ _ I').
    rewrite Forall_forall in Fa. apply Fa. now apply List.in_map.
Qed.
Lemma kept_keys crt ar syms : sublist (map fst (kept crt ar syms)) (map fst crt).
Proof.
  unfold kept. apply (sublist_trans _ (map fst (filter (fun kv => mem (fst kv) (sym_names syms)) crt))); [|apply sublist_map, sublist_filter]. induction (filter (fun kv => mem (fst kv) (sym_names syms)) crt) as [|kv q IH]; [constructor|].
  cbn [flat_map map]. rewrite map_app. change (fst kv :: map fst q) with ([fst kv] ++ map fst q). apply sublist_app; [|exact IH].
  unfold keep_entry. destruct (snd kv) as [|def refs]; [apply sublist_nil|]. destruct (negb _); [apply sublist_nil|]. destruct (filter _ refs); [apply sublist_nil|apply sublist_refl].
Qed.

(** ** the content of a report *)
Definition content (r : dict str darch) : depreport :=
  map (fun kv => (fst kv, map (fun q : str * dent => (fst q, de_symbols (snd q))) (da_archives (snd kv)))) r.
Lemma content_keys r : map fst (content r) = keys r.
Proof. unfold content, keys. now rewrite map_map. Qed.

Lemma report_events ord crt m syms a r : set_iteration ord -> proper_crt crt ->
  get_archives_dependencies ord (Some crt) m (Some syms) a = Ok r ->
  let ar := get_archives_summary m a in
  r = run_events ar (map event_of (flat_map (full_events ord (a_dep_reverse a)) (kept crt ar syms))) [].
Proof.
  intros SI P E ar. unfold get_archives_dependencies in E. rewrite filter_crt_ok in E by exact P. cbn [bind] in E.
  fold ar in E. fold (kept crt ar syms) in E. assert (Kn : Forall (known ar) (kept crt ar syms)) by apply keep_known.
  destruct (a_dep_reverse a).
  - rewrite (revdeps_events ar ord _ SI Kn) in E. injection E as <-. apply rev_full; [exact SI|]. apply Forall_forall. intros kv. apply kept_entry.
  - rewrite (deps_events ar ord _ SI Kn) in E. injection E as <-. now rewrite dep_full.
Qed.

Lemma NoDup_distinct l : NoDup (distinct l).
Proof.
  induction l as [|x l IH]; cbn [distinct]; constructor.
  - rewrite filter_In, keq_refl. intros (_ & X). discriminate X.
  - now apply NoDup_filter.
Qed.

Lemma report_order ord crt m syms a r : set_iteration ord -> proper_crt crt ->
  get_archives_dependencies ord (Some crt) m (Some syms) a = Ok r ->
  StronglySorted (fun d d' => starts_first (map fst crt) (all_symbols (snd d)) (all_symbols (snd d'))) (content r) /\
  Forall (fun d => StronglySorted (fun e e' => starts_first (map fst crt) (snd e) (snd e')) (snd d)) (content r) /\
  Forall (fun d => Forall (fun e => sublist (snd e) (map fst crt)) (snd d)) (content r) /\
  NoDup (keys r) /\ Forall (fun kv => NoDup (keys (da_archives (snd kv)))) r.
Proof.
  intros SI P E. rewrite (report_events _ _ _ _ _ _ SI P E). cbv zeta. set (ar := get_archives_summary m a). set (F := kept crt ar syms).
  set (fs := flat_map (full_events ord (a_dep_reverse a)) F). set (q := run_events ar (map event_of fs) []).
  pose proof (sorted_events (map fst crt) ord (a_dep_reverse a) F (kept_keys crt ar syms)) as So. fold fs in So.
  assert (Nd : NoDup (keys q)) by (unfold q; rewrite full_keys; apply NoDup_distinct).
  assert (Get : forall kv, In kv q -> dget (fst kv) q = Some (snd kv)) by (intros [x d] I; now apply In_dget).
  (* symbols of an archive, and of an archive below another *)
  assert (Inner : forall kv e, In kv q -> In e (da_archives (snd kv)) ->
    de_symbols (snd e) = map (fun g : full => snd (snd g)) (filter (fun g : full => fst (snd g) =?= fst e) (filter (fun g : full => fst g =?= fst kv) fs))).
  { intros kv e I Ie. destruct (full_get ar fs _ _ (Get kv I)) as (_ & Ks & C). assert (W : wf_dict (da_archives (snd kv))) by (unfold wf_dict; rewrite Ks; apply NoDup_distinct).
    destruct e as [y e]. apply In_dget in Ie; [|exact W]. rewrite C in Ie. cbn [fst snd] in *.
    match type of Ie with match ?x with _ => _ end = _ => destruct x eqn:X end; [discriminate|]. injection Ie as <-. reflexivity. }
  assert (Kin : forall kv, In kv q -> keys (da_archives (snd kv)) = distinct (map (fun e : full => fst (snd e)) (filter (fun e : full => fst e =?= fst kv) fs))).
  { intros kv I. apply (full_get ar fs _ _ (Get kv I)). }
  assert (All : forall kv s, In kv q -> In s (flat_map (fun e : str * dent => de_symbols (snd e)) (da_archives (snd kv))) <-> exists g, In g fs /\ fst g = fst kv /\ snd (snd g) = s).
  { intros kv s I. rewrite in_flat_map. split.
    - intros (e & Ie & Is). rewrite (Inner kv e I Ie) in Is. apply List.in_map_iff in Is. destruct Is as (g & Es & Ig). apply filter_In in Ig. destruct Ig as (Ig & _).
      apply filter_In in Ig. destruct Ig as (Ig & Eg). apply keq_eq in Eg. now exists g.
    - intros (g & Ig & Eg & Es). assert (Jg : In g (filter (fun g : full => fst g =?= fst kv) fs)) by (apply filter_In; split; [exact Ig|now apply keq_eq]).
      assert (K : In (fst (snd g)) (keys (da_archives (snd kv)))) by (rewrite (Kin kv I); apply distinct_In, (List.in_map (fun e : full => fst (snd e))); exact Jg).
      apply List.in_map_iff in K. destruct K as (e & Ee & Ie). exists e. split; [exact Ie|]. rewrite (Inner kv e I Ie). apply List.in_map_iff. exists g. split; [exact Es|].
      apply filter_In. split; [exact Jg|]. now apply keq_eq. }
  assert (Flat : forall l : dict str dent, all_symbols (map (fun q : str * dent => (fst q, de_symbols (snd q))) l) = flat_map (fun e => de_symbols (snd e)) l).
  { intros l. unfold all_symbols. induction l as [|e l IH]; [reflexivity|]. cbn [map flat_map snd]. now rewrite IH. }
  split; [|split; [|split; [|split; [exact Nd|]]]].
  - apply sorted_map. cbn [snd]. pose proof (distinct_sorted (fun g : full => fst g) _ _ So) as D.
    change (distinct (map (fun g : full => fst g) fs)) with (distinct (map fst fs)) in D. rewrite <- (full_keys ar fs) in D. fold q in D. unfold keys in D. apply sorted_map_inv in D. eapply sorted_impl; [|exact D]. intros kv kv' I I' H s'. rewrite !Flat. intros Is.
    apply (All kv' s' I') in Is. destruct Is as (g & Ig & Eg & <-). destruct (H g Ig Eg) as (g0 & Ig0 & Eg0 & R0). exists (snd (snd g0)). split; [|exact R0].
    apply (All kv _ I). now exists g0.
  - apply Forall_forall. intros d I. apply List.in_map_iff in I. destruct I as (kv & <- & I). cbn [snd]. apply sorted_map. cbn [snd].
    set (l := filter (fun g : full => fst g =?= fst kv) fs) in *. assert (Sl : StronglySorted (fun e e' : full => not_after (map fst crt) (snd (snd e)) (snd (snd e'))) l) by now apply sorted_filter.
    pose proof (distinct_sorted (fun g : full => fst (snd g)) _ _ Sl) as D. pose proof (Kin kv I) as Kk. fold l in Kk. rewrite <- Kk in D. apply sorted_map_inv in D.
    eapply sorted_impl; [|exact D]. intros e e' Ie Ie' H s' Is. rewrite (Inner kv e' I Ie') in Is. apply List.in_map_iff in Is. destruct Is as (g & <- & Ig). apply filter_In in Ig. destruct Ig as (Ig & Eg).
    apply keq_eq in Eg. destruct (H g Ig Eg) as (g0 & Ig0 & Eg0 & R0). exists (snd (snd g0)). split; [|exact R0]. rewrite (Inner kv e I Ie). apply List.in_map_iff. exists g0. split; [reflexivity|].
    apply filter_In. split; [exact Ig0|now apply keq_eq].
  - apply Forall_forall. intros d I. apply List.in_map_iff in I. destruct I as (kv & <- & I). cbn [snd]. apply Forall_forall. intros e Ie. apply List.in_map_iff in Ie.
    destruct Ie as (e0 & <- & Ie). cbn [snd]. 
    (* through the description of the report *)
    destruct (report_describes ord crt m syms a SI P) as (r0 & E0 & De). rewrite E in E0. injection E0 as <-.
    rewrite (report_events _ _ _ _ _ _ SI P E) in De. cbv zeta in De. fold ar F fs q in De. specialize (De (fst kv)). rewrite (Get kv I) in De. destruct De as (_ & _ & _ & De).
    destruct e0 as [y e0]. specialize (De y). apply In_dget in Ie; [|unfold wf_dict; rewrite (Kin kv I); apply NoDup_distinct]. rewrite Ie in De.
    destruct (oriented a F (fst kv) y) as [|s ss] eqn:O; [discriminate|]. injection De as ->. cbn [snd de_symbols]. rewrite <- O.
    assert (B : forall x z, sublist (between F x z) (map fst crt)).
    { intros x z. unfold between. eapply sublist_trans; [apply sublist_map, sublist_filter|apply kept_keys]. }
    unfold oriented. destruct (a_dep_reverse a); apply B.
  - apply Forall_forall. intros kv I. rewrite (Kin kv I). apply NoDup_distinct.
Qed.
