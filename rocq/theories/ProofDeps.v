(** * Proofs about the dependency report *)
From Coq Require Import Ascii String List ZArith Bool Lia.
From Verif Require Import Base MemMap SpecTree SpecOps Filter Pipeline PyStr MapFile Deps SpecDeps ProofArch ProofSummary2.
Import ListNotations.
Open Scope list_scope.
Open Scope Z_scope.

(** ** folds of insertions *)

Section Puts.
  Context {V : Type} (v0 : str -> V).
  Definition puts (evs : list (str * (V -> V))) (acc : dict str V) : dict str V :=
    fold_left (fun acc ev => dput (fst ev) (v0 (fst ev)) (snd ev) acc) evs acc.
  Definition apply_all (fs : list (V -> V)) (v : V) : V := fold_left (fun v f => f v) fs v.

  Lemma dget_puts evs : forall acc a, dget a (puts evs acc) =
    match dget a acc, map snd (filter (fun ev => fst ev =?= a) evs) with
    | Some v, fs => Some (apply_all fs v)
    | None, [] => None
    | None, fs => Some (apply_all fs (v0 a))
    end.
  Proof.
    induction evs as [|[k f] evs IH]; intros acc a; cbn [puts fold_left filter map fst snd].
    - destruct (dget a acc); reflexivity.
    - fold (puts evs (dput k (v0 k) f acc)). rewrite IH, dget_dput, (keq_sym k a). destruct (keqP a k) as [->|N].
      + destruct (dget k acc); reflexivity.
      + reflexivity.
  Qed.
End Puts.

Lemma dset_dupd_some {V} (f : V -> V) k v (d : dict str V) : dget k d = Some v -> dset k (f v) d = dupd k f d.
Proof.
  induction d as [|[k' v'] d IH]; cbn [dget dset dupd]; [discriminate|]. destruct (k =?= k').
  - intro H. injection H as ->. reflexivity.
  - intro H. f_equal. auto.
Qed.

(** ** events *)

Notation event := (str * option (str * str))%type (only parsing).

Section Events.
  Context (sizes : dict str sentry).
  Definition size_of (n : str) : Z := match dget n sizes with Some e => se_size e | None => 0 end.
  Definition arch0 (a : str) : darch := DArch (basename a) (size_of a) [].
  Definition ent0 (b : str) : dent := DEnt (basename b) (size_of b) [].
  Definition apply_event (o : option (str * str)) (d : darch) : darch :=
    match o with
    | Some (b, s) => set_da_archives (dput b (ent0 b) (add_de_symbol s) (da_archives d)) d
    | None => d
    end.
  Definition run_events (evs : list event) (acc : dict str darch) : dict str darch :=
    puts arch0 (map (fun ev => (fst ev, apply_event (snd ev))) evs) acc.

  Lemma run_events_app l1 l2 acc : run_events (l1 ++ l2) acc = run_events l2 (run_events l1 acc).
  Proof. unfold run_events, puts. now rewrite map_app, fold_left_app. Qed.

  Lemma dep_archive_ok n acc : dmem n sizes = true -> dep_archive sizes n acc = Ok (run_events [(n, None)] acc).
  Proof.
    unfold dep_archive, run_events, puts, dmem. intro D. cbn [map fold_left fst snd]. unfold dput.
    assert (I : forall d : dict str darch, dupd n (apply_event None) d = d).
    { intro d. induction d as [|[k v] d IH]; cbn; auto. destruct (n =?= k); [reflexivity|]. now rewrite IH. }
    destruct (dget n sizes) as [e|] eqn:E; [|discriminate]. unfold dmem.
    destruct (dget n acc); rewrite I; auto. unfold arch0, size_of. now rewrite E.
  Qed.

  Lemma dep_symbol_ok a b s acc : dmem b sizes = true -> dmem a acc = true ->
    dep_symbol sizes a b s acc = Ok (run_events [(a, Some (b, s))] acc).
  Proof.
    unfold dep_symbol, run_events, puts. intros D M. cbn [map fold_left fst snd]. unfold dput at 1. rewrite M.
    unfold dmem in M. destruct (dget a acc) as [d|] eqn:E; [|discriminate].
    assert (X : (if dmem b (da_archives d) then Ok (da_archives d)
             else match dget b sizes with
                  | Some e => Ok (dset b (DEnt (basename b) (se_size e) []) (da_archives d))
                  | None => Err KeyError
                  end) = Ok (if dmem b (da_archives d) then da_archives d else dset b (ent0 b) (da_archives d))).
    { destruct (dmem b (da_archives d)); auto. unfold ent0, size_of. unfold dmem in D. destruct (dget b sizes); [reflexivity|discriminate]. }
    rewrite X. cbn [bind]. f_equal.
    rewrite <- (dset_dupd_some (apply_event (Some (b, s))) a d acc E). reflexivity.
  Qed.

  Lemma run_event_mem a o acc : dmem a (run_events [(a, o)] acc) = true.
  Proof.
    unfold run_events, puts, dmem. cbn [map fold_left fst snd]. rewrite dget_dput, keq_refl. reflexivity.
  Qed.

  Lemma run_ensure a o acc : run_events [(a, None); (a, o)] acc = run_events [(a, o)] acc.
  Proof.
    unfold run_events, puts. cbn [map fold_left fst snd]. unfold dput.
    assert (I : forall d : dict str darch, dupd a (apply_event None) d = d).
    { intro d. induction d as [|[k v] d IH]; cbn; auto. destruct (a =?= k); [reflexivity|]. now rewrite IH. }
    rewrite I. destruct (dmem a acc) eqn:E.
    - now rewrite E.
    - replace (dmem a (dset a (arch0 a) acc)) with true; [reflexivity|]. unfold dmem. now rewrite dget_dset_eq.
  Qed.

  (** the events of one symbol *)
  Definition dep_events (ord : set_order) (kv : str * list (str * str)) : list event :=
    match snd kv with
    | [] => []
    | def :: refs => map (fun r => (r, Some (fst def, fst kv))) (ord (fst kv) (map fst refs))
    end.
  Definition rev_events (ord : set_order) (kv : str * list (str * str)) : list event :=
    match snd kv with
    | [] => []
    | def :: refs => (fst def, None) :: map (fun r => (fst def, Some (r, fst kv))) (ord (fst kv) (map fst refs))
    end.

  Definition known (kv : str * list (str * str)) : Prop :=
    snd kv <> [] /\ Forall (fun r => dmem (fst r) sizes = true) (snd kv).

  Lemma deps_events ord crt : set_iteration ord -> Forall known crt ->
    get_archives_deps ord crt sizes = Ok (run_events (flat_map (dep_events ord) crt) []).
  Proof.
    intros SI. unfold get_archives_deps.
    match goal with |- _ -> foldM ?f _ _ = _ => set (F := f) end.
    assert (G : forall crt acc, Forall known crt -> foldM F acc crt = Ok (run_events (flat_map (dep_events ord) crt) acc)).
    2:{ intro K. now apply G. }
    clear crt. induction crt as [|[s refs] crt IH]; intros acc K; [reflexivity|]. inversion K as [|? ? [NE AL] K']; subst.
    cbn [foldM flat_map]. rewrite run_events_app.
    assert (X : F acc (s, refs) = Ok (run_events (dep_events ord (s, refs)) acc)).
    2:{ rewrite X. cbn [bind]. now apply IH. }
    unfold F, dep_events. cbn [snd fst] in *. destruct refs as [|def refs]; [contradiction|]. inversion AL as [|? ? D AL']; subst.
    assert (IN : Forall (fun x => dmem x sizes = true) (ord s (map fst refs))).
    { rewrite Forall_forall. intros x I. apply SI in I. apply in_map_iff in I as (r & <- & I). rewrite Forall_forall in AL'. auto. }
    clear -IN D. revert acc. induction IN as [|x l X _ IH]; intro acc; [reflexivity|].
    cbn [foldM map]. rewrite dep_archive_ok by exact X. cbn [bind].
    rewrite dep_symbol_ok; [|exact D|apply run_event_mem]. cbn [bind]. rewrite IH.
    rewrite <- (run_events_app [(x, None)] [(x, Some (fst def, s))]). cbn [app]. rewrite run_ensure.
    change ((x, Some (fst def, s)) :: map (fun r => (r, Some (fst def, s))) l) with ([(x, Some (fst def, s))] ++ map (fun r => (r, Some (fst def, s))) l).
    rewrite run_events_app. reflexivity.
  Qed.

  Lemma revdeps_events ord crt : set_iteration ord -> Forall known crt ->
    get_archives_revdeps ord crt sizes = Ok (run_events (flat_map (rev_events ord) crt) []).
  Proof.
    intros SI. unfold get_archives_revdeps.
    match goal with |- _ -> foldM ?f _ _ = _ => set (F := f) end.
    assert (G : forall crt acc, Forall known crt -> foldM F acc crt = Ok (run_events (flat_map (rev_events ord) crt) acc)).
    2:{ intro K. now apply G. }
    clear crt. induction crt as [|[s refs] crt IH]; intros acc K; [reflexivity|]. inversion K as [|? ? [NE AL] K']; subst.
    cbn [foldM flat_map]. rewrite run_events_app.
    assert (X : F acc (s, refs) = Ok (run_events (rev_events ord (s, refs)) acc)).
    2:{ rewrite X. cbn [bind]. now apply IH. }
    unfold F, rev_events. cbn [snd fst] in *. destruct refs as [|def refs]; [contradiction|]. inversion AL as [|? ? D AL']; subst.
    assert (IN : Forall (fun x => dmem x sizes = true) (ord s (map fst refs))).
    { rewrite Forall_forall. intros x I. apply SI in I. apply in_map_iff in I as (r & <- & I). rewrite Forall_forall in AL'. auto. }
    rewrite dep_archive_ok by exact D. cbn [bind].
    change ((fst def, None) :: map (fun r => (fst def, Some (r, s))) (ord s (map fst refs)))
      with ([(fst def, None)] ++ map (fun r => (fst def, Some (r, s))) (ord s (map fst refs)) : list event).
    rewrite run_events_app.
    assert (M : dmem (fst def) (run_events [(fst def, None)] acc) = true) by apply run_event_mem.
    revert M. generalize (run_events [(fst def, None)] acc) as st. clear -IN.
    induction IN as [|x l X _ IH]; intros st M; [reflexivity|].
    cbn [foldM map]. rewrite dep_symbol_ok by assumption. cbn [bind].
    change ((fst def, Some (x, s)) :: map (fun r => (fst def, Some (r, s))) l)
      with ([(fst def, Some (x, s))] ++ map (fun r => (fst def, Some (r, s))) l).
    rewrite run_events_app. apply IH, run_event_mem.
  Qed.

  (** ** looking up *)

  Definition inner_syms (b : str) (l : list event) : list str :=
    flat_map (fun ev => match snd ev with Some (b', s) => if b' =?= b then [s] else [] | None => [] end) l.

  Lemma apply_inner l : forall d,
    let r := apply_all (map (fun ev : event => apply_event (snd ev)) l) d in
    da_abbrev r = da_abbrev d /\ da_size r = da_size d /\
    forall b, dget b (da_archives r) =
      match dget b (da_archives d), inner_syms b l with
      | Some e, ss => Some (DEnt (de_abbrev e) (de_size e) (de_symbols e ++ ss))
      | None, [] => None
      | None, ss => Some (DEnt (basename b) (size_of b) ss)
      end.
  Proof.
    induction l as [|[a o] l IH]; intro d; cbv zeta.
    - cbn [map apply_all fold_left]. repeat split. intro b. cbn [inner_syms flat_map].
      destruct (dget b (da_archives d)) as [[]|]; cbn; now rewrite ?app_nil_r.
    - cbn [map apply_all fold_left snd].
      match goal with |- context [fold_left _ _ ?d'] => destruct (IH d') as (A & B & C) end.
      unfold apply_all in *. rewrite A, B. destruct o as [[b' s]|].
      + split; [reflexivity|]. split; [reflexivity|]. intro b. rewrite C. cbn [apply_event set_da_archives da_archives].
        rewrite dget_dput.
        change (inner_syms b ((a, Some (b', s)) :: l)) with ((if b' =?= b then [s] else []) ++ inner_syms b l). rewrite (keq_sym b' b).
        destruct (keqP b b') as [->|N]; [|reflexivity].
        destruct (dget b' (da_archives d)) as [e|]; cbn [add_de_symbol de_abbrev de_size de_symbols app].
        * rewrite <- app_assoc. reflexivity.
        * destruct (inner_syms b' l); reflexivity.
      + split; [reflexivity|]. split; [reflexivity|]. intro b. rewrite C. reflexivity.
  Qed.

  Lemma look_events evs a : match dget a (run_events evs []) with
    | Some d => (exists ev, In ev evs /\ fst ev = a) /\ da_abbrev d = basename a /\ da_size d = size_of a /\
        forall b, dget b (da_archives d) = match inner_syms b (filter (fun ev => fst ev =?= a) evs) with
                                          | [] => None
                                          | ss => Some (DEnt (basename b) (size_of b) ss)
                                          end
    | None => forall ev, In ev evs -> fst ev <> a
    end.
  Proof.
    unfold run_events. rewrite dget_puts. cbn [dget].
    assert (E : map snd (filter (fun ev => fst ev =?= a) (map (fun ev : event => (fst ev, apply_event (snd ev))) evs)) =
      map (fun ev => apply_event (snd ev)) (filter (fun ev : event => fst ev =?= a) evs)).
    { induction evs as [|ev evs IH]; cbn [map filter fst]; auto. destruct (fst ev =?= a); cbn [map snd]; congruence. }
    match goal with |- context [map snd ?x] =>
      replace (map snd x) with (map (fun ev : event => apply_event (snd ev)) (filter (fun ev : event => fst ev =?= a) evs)) by (symmetry; exact E) end.
    change (fun ev : str * option (str * str) => fst ev =?= a) with (fun ev : event => fst ev =?= a).
    destruct (filter (fun ev : event => fst ev =?= a) evs) as [|e0 l] eqn:F.
    - intros ev I X. assert (In ev (filter (fun ev : event => fst ev =?= a) evs)) by (apply filter_In; split; [exact I|]; rewrite X; apply keq_refl).
      rewrite F in H. contradiction.
    - destruct (apply_inner (e0 :: l) (arch0 a)) as (A & B & C).
      cbn [map] in *. rewrite A, B. split; [|split; [reflexivity|split; [reflexivity|]]].
      2:{ intro b. rewrite C. cbn [da_archives arch0 dget]. rewrite <- F. reflexivity. }
      exists e0. assert (In e0 (filter (fun ev : event => fst ev =?= a) evs)) by (rewrite F; now left).
      apply filter_In in H as [H1 H2]. split; auto. now apply keq_eq.
  Qed.
End Events.

(** ** the symbols between two archives *)

(** [kv] is defined in [b] and used by [a] *)
Definition used_by (a b : str) (kv : str * list (str * str)) : bool :=
  match snd kv with
  | [] => false
  | def :: refs => (fst def =?= b) && mem a (map fst refs)
  end.
Definition between (F : crt_table) (a b : str) : list str := map fst (filter (used_by a b) F).

Lemma filter_flat_map {A B} (p : B -> bool) (f : A -> list B) l : filter p (flat_map f l) = flat_map (fun x => filter p (f x)) l.
Proof. induction l; cbn; auto. rewrite filter_app. congruence. Qed.

Lemma flat_map_flat_map {A B C} (g : B -> list C) (f : A -> list B) l : flat_map g (flat_map f l) = flat_map (fun x => flat_map g (f x)) l.
Proof. induction l; cbn; auto. rewrite flat_map_app. congruence. Qed.

Lemma pick_one {A} (a : str) (f : str -> A) l : NoDup l ->
  flat_map (fun r => if r =?= a then [f r] else []) l = if mem a l then [f a] else [].
Proof.
  induction 1 as [|x l N ND IH]; [reflexivity|]. cbn [flat_map]. rewrite IH. unfold mem. cbn [existsb].
  rewrite (keq_sym a x). destruct (keqP x a) as [->|NE]; cbn [orb]; [|reflexivity].
  assert (M : existsb (fun y => a =?= y) l = false) by (change (mem a l = false); now apply mem_not_In).
  now rewrite M.
Qed.

Lemma mem_ord ord y a l : set_iteration ord -> mem a (ord y l) = mem a l.
Proof.
  intro SI. destruct (mem a l) eqn:E.
  - apply mem_In. apply SI. now apply mem_In.
  - apply mem_not_In. rewrite (proj2 (SI y l)). now apply mem_not_In.
Qed.

Lemma dep_between ord F a b : set_iteration ord ->
  inner_syms b (filter (fun ev => fst ev =?= a) (flat_map (dep_events ord) F)) = between F a b.
Proof.
  intro SI. rewrite filter_flat_map. unfold inner_syms. rewrite flat_map_flat_map. unfold between.
  induction F as [|[s refs] F IH]; [reflexivity|]. cbn [flat_map filter]. rewrite IH.
  assert (X : flat_map (fun ev : event => match snd ev with Some (b', s) => if b' =?= b then [s] else [] | None => [] end)
     (filter (fun ev => fst ev =?= a) (dep_events ord (s, refs))) = if used_by a b (s, refs) then [s] else []).
  2:{ rewrite X. destruct (used_by a b (s, refs)); reflexivity. }
  unfold dep_events, used_by. cbn [snd fst]. destruct refs as [|def refs]; [reflexivity|].
  rewrite <- (mem_ord ord s a (map fst refs) SI).
  pose proof (pick_one a (fun r => s) _ (proj1 (SI s (map fst refs)))) as P.
  destruct (fst def =?= b) eqn:EB; cbn [andb].
  - rewrite <- P. generalize (ord s (map fst refs)) as l. induction l as [|x l IH']; [reflexivity|].
    cbn [map filter fst flat_map]. destruct (x =?= a); cbn [flat_map snd]; rewrite ?EB, IH'; reflexivity.
  - generalize (ord s (map fst refs)) as l. induction l as [|x l IH']; [reflexivity|].
    cbn [map filter fst flat_map]. destruct (x =?= a); cbn [flat_map snd]; rewrite ?EB, IH'; reflexivity.
Qed.

Lemma rev_between ord F a b : set_iteration ord ->
  inner_syms b (filter (fun ev => fst ev =?= a) (flat_map (rev_events ord) F)) = between F b a.
Proof.
  intro SI. rewrite filter_flat_map. unfold inner_syms. rewrite flat_map_flat_map. unfold between.
  induction F as [|[s refs] F IH]; [reflexivity|]. cbn [flat_map filter]. rewrite IH.
  assert (X : flat_map (fun ev : event => match snd ev with Some (b', s) => if b' =?= b then [s] else [] | None => [] end)
     (filter (fun ev => fst ev =?= a) (rev_events ord (s, refs))) = if used_by b a (s, refs) then [s] else []).
  2:{ rewrite X. destruct (used_by b a (s, refs)); reflexivity. }
  unfold rev_events, used_by. cbn [snd fst]. destruct refs as [|def refs]; [reflexivity|].
  rewrite <- (mem_ord ord s b (map fst refs) SI).
  pose proof (pick_one b (fun r => s) _ (proj1 (SI s (map fst refs)))) as P.
  cbn [filter fst]. destruct (fst def =?= a) eqn:EA; cbn [andb].
  - cbn [flat_map snd app]. rewrite <- P. generalize (ord s (map fst refs)) as l. induction l as [|x l IH']; [reflexivity|].
    cbn [map filter fst]. rewrite EA. cbn [flat_map snd]. rewrite IH'. reflexivity.
  - generalize (ord s (map fst refs)) as l. induction l as [|x l IH']; [reflexivity|].
    cbn [map filter fst]. rewrite EA. exact IH'.
Qed.
