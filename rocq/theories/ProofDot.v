(** * Proofs about the DOT graph, and about the cross reference table that is read *)
From Coq Require Import Ascii String List ZArith Bool Lia.
From Verif Require Import Base MemMap SpecTree SpecOps Filter Pipeline PyStr MapFile Deps SpecDeps ProofArch ProofOps ProofSummary2 ProofDeps ProofDeps2.
Import ListNotations.
Open Scope list_scope.
Open Scope Z_scope.

(** ** keys of a report are distinct *)

Definition wf_report (r : dict str darch) : Prop := wf_dict r /\ forall x d, dget x r = Some d -> wf_dict (da_archives d).

Lemma wf_puts {V} (v0 : str -> V) evs : forall acc, wf_dict acc -> wf_dict (puts v0 evs acc).
Proof.
  unfold puts. induction evs as [|ev evs IH]; intros acc W; cbn [fold_left]; auto. apply IH. now apply wf_dput.
Qed.

Lemma wf_run sizes evs : wf_report (run_events sizes evs []).
Proof.
  split; [apply wf_puts; constructor|]. intros x d. unfold run_events. rewrite dget_puts. cbn [dget].
  assert (G : forall (fs : list (option (str * str))) d0, wf_dict (da_archives d0) -> wf_dict (da_archives (apply_all (map (apply_event sizes) fs) d0))).
  { unfold apply_all. induction fs as [|o fs IH]; intros d0 W; cbn [map fold_left]; auto. apply IH.
    destruct o as [[b s]|]; cbn [apply_event set_da_archives da_archives]; auto. now apply wf_dput. }
  assert (E : map snd (filter (fun ev : str * (darch -> darch) => fst ev =?= x) (map (fun ev : str * option (str * str) => (fst ev, apply_event sizes (snd ev))) evs))
    = map (apply_event sizes) (map snd (filter (fun ev => fst ev =?= x) evs))).
  { induction evs as [|ev evs IH]; cbn [map filter fst]; auto. destruct (fst ev =?= x); cbn [map snd]; now rewrite IH. }
  rewrite E. destruct (map snd (filter (fun ev => fst ev =?= x) evs)) as [|f fs]; cbn [map]; [discriminate|]. intro H. injection H as <-.
  apply (G (f :: fs)). constructor.
Qed.

Lemma report_wf ord crt m syms a r : set_iteration ord -> proper_crt crt ->
  get_archives_dependencies ord (Some crt) m (Some syms) a = Ok r -> wf_report r.
Proof.
  intros SI P. unfold get_archives_dependencies. rewrite filter_crt_ok by exact P. cbn [bind]. destruct (a_dep_reverse a).
  - rewrite revdeps_events by (auto; apply keep_known). intro H. injection H as <-. apply wf_run.
  - rewrite deps_events by (auto; apply keep_known). intro H. injection H as <-. apply wf_run.
Qed.

Lemma filtered_wf a (r : dict str darch) : wf_report r -> wf_report (summary_filtered da_abbrev r a).
Proof.
  intros [W I]. unfold summary_filtered. destruct (a_filter a); [|split; auto]. split; [now apply wf_filter|].
  intros x d G. apply (I x). apply dget_In in G. apply filter_In in G as [G _]. now apply In_dget.
Qed.

(** ** the lines *)

Definition names (st : list dot_line * list str) := flat_map node_name (fst st).

(** an invariant: [seen] is the list of declared names *)
Definition good (st : list dot_line * list str) : Prop := names st = snd st /\ NoDup (snd st).

Definition is_edge (l : dot_line) : bool := match l with DotEdge _ _ _ => true | DotNode _ _ _ _ => false end.

Section Dot.
  Context (a : args) (deps : dict str darch).

  Definition edge_line (outer : str) (kv : str * dent) : dot_line :=
    let syms := if a_dep_symbols a then Some (de_symbols (snd kv)) else None in
    if a_dep_reverse a then DotEdge (fst kv) outer syms else DotEdge outer (fst kv) syms.

  (** all nodes declared come from a list of declarations *)
  Definition from_decls (decls : list (str * str * Z)) (st : list dot_line * list str) : Prop :=
    (forall x, In x (snd st) <-> In x (map (fun q => fst (fst q)) decls)) /\
    (forall n l z o, In (DotNode n l z o) (fst st) -> o = dmem n deps /\ In (n, l, z) decls).

  Lemma add_node_ok st n l z decls : good st -> from_decls decls st -> let st' := add_node deps st n l z in
    good st' /\ from_decls (decls ++ [(n, l, z)]) st' /\ filter is_edge (fst st') = filter is_edge (fst st).
  Proof.
    intros [E N] [D1 D2]. unfold add_node. destruct (mem n (snd st)) eqn:M; cbv zeta.
    - apply mem_In in M. split; [split; auto|]. split; [|reflexivity]. split.
      + intro x. rewrite map_app, in_app_iff, D1. cbn. split; [tauto|]. intros [I|[<-|[]]]; auto. now apply D1.
      + intros n' l' z' o I. destruct (D2 _ _ _ _ I) as [A B]. split; auto. apply in_or_app. now left.
    - apply mem_not_In in M. split; [|split].
      + split; cbn [fst snd].
        * unfold names in *. cbn [fst]. rewrite flat_map_app. cbn [flat_map node_name]. now rewrite E.
        * now apply NoDup_app_singleton.
      + split; cbn [fst snd].
        * intro x. rewrite map_app, !in_app_iff, D1. reflexivity.
        * intros n' l' z' o I. apply in_app_iff in I as [I|[I|[]]].
          -- destruct (D2 _ _ _ _ I) as [A B]. split; auto. apply in_or_app. now left.
          -- injection I as <- <- <- <-. split; auto. apply in_or_app. right. now left.
      + cbn [fst]. rewrite filter_app. cbn. now rewrite app_nil_r.
  Qed.

  Lemma add_edge_ok st decls e : good st -> from_decls decls st -> is_edge e = true ->
    let st' := (fst st ++ [e], snd st) in good st' /\ from_decls decls st' /\ filter is_edge (fst st') = filter is_edge (fst st) ++ [e].
  Proof.
    intros [E N] [D1 D2] IE. cbv zeta. destruct e as [|x y ss]; [discriminate|]. split; [|split].
    - split; cbn [fst snd]; auto. unfold names in *. cbn [fst]. rewrite flat_map_app. cbn. now rewrite app_nil_r.
    - split; cbn [fst snd]; auto. intros n l z o I. apply in_app_iff in I as [I|[I|[]]]; [eauto|discriminate].
    - cbn [fst]. rewrite filter_app. reflexivity.
  Qed.

  Definition dep_decl (kv : str * dent) : str * str * Z := (fst kv, if a_abbrev a then de_abbrev (snd kv) else fst kv, de_size (snd kv)).
  Definition arch_decl (kv : str * darch) : str * str * Z := (fst kv, if a_abbrev a then da_abbrev (snd kv) else fst kv, da_size (snd kv)).
  Definition arch_decls (kv : str * darch) : list (str * str * Z) := arch_decl kv :: map dep_decl (da_archives (snd kv)).

  Lemma dot_dep_ok outer l : forall st decls, good st -> from_decls decls st ->
    let st' := fold_left (dot_dep a deps outer) l st in
    good st' /\ from_decls (decls ++ map dep_decl l) st' /\ filter is_edge (fst st') = filter is_edge (fst st) ++ map (edge_line outer) l.
  Proof.
    induction l as [|kv l IH]; intros st decls G D; cbv zeta; cbn [fold_left map].
    - rewrite !app_nil_r. auto.
    - unfold dot_dep at 2 4 6. cbv zeta.
      destruct (add_node_ok st (fst kv) (if a_abbrev a then de_abbrev (snd kv) else fst kv) (de_size (snd kv)) decls G D) as (G1 & D1 & E1).
      set (st1 := add_node deps st (fst kv) (if a_abbrev a then de_abbrev (snd kv) else fst kv) (de_size (snd kv))) in *.
      destruct (add_edge_ok st1 _ (edge_line (outer) kv) G1 D1) as (G2 & D2 & E2).
      { unfold edge_line. now destruct (a_dep_reverse a). }
      change (if a_dep_reverse a then DotEdge (fst kv) outer (if a_dep_symbols a then Some (de_symbols (snd kv)) else None)
              else DotEdge outer (fst kv) (if a_dep_symbols a then Some (de_symbols (snd kv)) else None)) with (edge_line outer kv).
      destruct (IH _ _ G2 D2) as (G3 & D3 & E3). split; [exact G3|]. split.
      + rewrite <- app_assoc in D3. exact D3.
      + rewrite E3, E2, E1, <- app_assoc. reflexivity.
  Qed.

  Lemma dot_arch_ok l : forall st decls, good st -> from_decls decls st ->
    let st' := fold_left (dot_arch a deps) l st in
    good st' /\ from_decls (decls ++ flat_map arch_decls l) st' /\
    filter is_edge (fst st') = filter is_edge (fst st) ++ flat_map (fun kv => map (edge_line (fst kv)) (da_archives (snd kv))) l.
  Proof.
    induction l as [|kv l IH]; intros st decls G D; cbv zeta; cbn [fold_left flat_map].
    - rewrite !app_nil_r. auto.
    - unfold dot_arch at 2 4 6. cbv zeta.
      destruct (add_node_ok st (fst kv) (if a_abbrev a then da_abbrev (snd kv) else fst kv) (da_size (snd kv)) decls G D) as (G1 & D1 & E1).
      set (st1 := add_node deps st (fst kv) (if a_abbrev a then da_abbrev (snd kv) else fst kv) (da_size (snd kv))) in *.
      destruct (dot_dep_ok (fst kv) (da_archives (snd kv)) st1 _ G1 D1) as (G2 & D2 & E2).
      destruct (IH _ _ G2 D2) as (G3 & D3 & E3). split; [exact G3|]. split.
      + unfold arch_decls. rewrite <- !app_assoc in D3. cbn [app] in D3. exact D3.
      + rewrite E3, E2, E1, <- app_assoc. reflexivity.
  Qed.

  Lemma dot_lines_ok : let lines := dot_lines a deps in
    NoDup (flat_map node_name lines) /\
    (forall x, In x (flat_map node_name lines) <-> In x (map (fun q => fst (fst q)) (flat_map arch_decls deps))) /\
    (forall n l z o, In (DotNode n l z o) lines -> o = dmem n deps /\ In (n, l, z) (flat_map arch_decls deps)) /\
    filter is_edge lines = flat_map (fun kv => map (edge_line (fst kv)) (da_archives (snd kv))) deps.
  Proof.
    cbv zeta. unfold dot_lines.
    destruct (dot_arch_ok deps ([], []) []) as ([G1 G2] & [D1 D2] & E).
    - split; [reflexivity|constructor].
    - split; cbn; [reflexivity|contradiction].
    - cbn [app] in *. unfold names in G1. rewrite G1. split; [exact G2|]. split; [exact D1|]. split; [exact D2|exact E].
  Qed.

  Hypothesis W : wf_report deps.

  Lemma inner_decl x d e y : dget x deps = Some d -> dget y (da_archives d) = Some e -> In (dep_decl (y, e)) (flat_map arch_decls deps).
  Proof.
    intros X Y. apply in_flat_map. exists (x, d). split; [now apply dget_In|]. right. apply (List.in_map dep_decl _ (y, e)). now apply dget_In.
  Qed.

  Lemma decl_iff n l z : In (n, l, z) (flat_map arch_decls deps) <->
    (exists d, dget n deps = Some d /\ l = (if a_abbrev a then da_abbrev d else n) /\ z = da_size d) \/
    (exists x d e, dget x deps = Some d /\ dget n (da_archives d) = Some e /\ l = (if a_abbrev a then de_abbrev e else n) /\ z = de_size e).
  Proof.
    rewrite in_flat_map. split.
    - intros ([x d] & I & [H|H]).
      + left. unfold arch_decl in H. cbn [fst snd] in H. injection H as <- <- <-. exists d. split; auto. apply In_dget; auto. apply W.
      + right. apply in_map_iff in H as ([y e] & H & J). unfold dep_decl in H. cbn [fst snd] in *. injection H as <- <- <-.
        assert (X : dget x deps = Some d) by (apply In_dget; auto; apply W).
        exists x, d, e. split; [exact X|]. split; auto. apply In_dget; auto. now apply (proj2 W x).
    - intros [(d & X & -> & ->)|(x & d & e & X & Y & -> & ->)].
      + exists (n, d). split; [now apply dget_In|]. now left.
      + exists (x, d). split; [now apply dget_In|]. right. apply in_map_iff. exists (n, e). split; [reflexivity|now apply dget_In].
  Qed.

  Lemma edge_iff p q ss : In (DotEdge p q ss) (dot_lines a deps) <->
    exists d e, dget (if a_dep_reverse a then q else p) deps = Some d /\ dget (if a_dep_reverse a then p else q) (da_archives d) = Some e /\
      ss = if a_dep_symbols a then Some (de_symbols e) else None.
  Proof.
    assert (F : In (DotEdge p q ss) (dot_lines a deps) <-> In (DotEdge p q ss) (filter is_edge (dot_lines a deps))).
    { rewrite filter_In. cbn. tauto. }
    rewrite F. destruct dot_lines_ok as (_ & _ & _ & ->). rewrite in_flat_map. split.
    - intros ([x d] & I & J). cbn [fst snd] in J. apply in_map_iff in J as ([y e] & E & J). unfold edge_line in E. cbn [fst snd] in E.
      assert (X : dget x deps = Some d) by (apply In_dget; auto; apply W).
      assert (Y : dget y (da_archives d) = Some e) by (apply In_dget; auto; now apply (proj2 W x)).
      destruct (a_dep_reverse a); injection E as <- <- <-; exists d, e; auto.
    - intros (d & e & X & Y & ->). eexists (_, d). split; [apply dget_In; exact X|]. cbn [fst snd]. apply in_map_iff. eexists (_, e). split; [|apply dget_In; exact Y].
      unfold edge_line. cbn [fst snd]. destruct (a_dep_reverse a); reflexivity.
  Qed.

  Lemma edges_nodup : NoDup (flat_map edge_of (dot_lines a deps)).
  Proof.
    assert (F : forall l, flat_map edge_of l = flat_map edge_of (filter is_edge l)).
    { induction l as [|x l IH]; cbn [flat_map filter]; auto. destruct x; cbn [is_edge edge_of flat_map app]; now rewrite IH. }
    rewrite F. destruct dot_lines_ok as (_ & _ & _ & ->). destruct W as [WD WI].
    assert (WI' : forall x d, In (x, d) deps -> wf_dict (da_archives d)).
    { intros x d I. apply (WI x). now apply In_dget. }
    clear F W WI. revert WD WI'. induction deps as [|[x d] l IH]; intros WD WI; cbn [flat_map]; [constructor|].
    unfold wf_dict, keys in WD. cbn [map fst] in WD. inversion WD as [|? ? N WD']; subst. cbn [fst snd] in *.
    rewrite flat_map_app.
    assert (S : forall x d, flat_map edge_of (map (edge_line x) (da_archives d)) = map (fun y => if a_dep_reverse a then (y, x) else (x, y)) (keys (da_archives d))).
    { intros x0 d0. unfold keys. rewrite flat_map_concat_map, !map_map, <- flat_map_concat_map.
      induction (da_archives d0) as [|[y e] q IHq]; cbn [flat_map map]; auto. rewrite IHq. unfold edge_line. cbn [fst snd].
      destruct (a_dep_reverse a); reflexivity. }
    apply NoDup_app_intro.
    - rewrite S. apply FinFun.Injective_map_NoDup; [|exact (WI x d (or_introl eq_refl))].
      intros y y'. destruct (a_dep_reverse a); intro H; now injection H.
    - apply IH; auto. intros x' d' I. apply (WI x'). now right.
    - intros [p q] I J. rewrite S in I. apply in_map_iff in I as (y & E & _).
      apply in_flat_map in J as (z & J & K). apply in_flat_map in J as ([x' d'] & J & J'). cbn [fst snd] in J'.
      apply in_map_iff in J' as ([y' e'] & <- & _). unfold edge_line in K. cbn [fst snd] in K.
      apply N. apply in_map_iff. exists (x', d'). split; auto. cbn [fst].
      destruct (a_dep_reverse a); cbn in K; destruct K as [K|[]]; congruence.
  Qed.
End Dot.

(** ** the cross reference table that is read *)

Lemma crt_loop_proper lines : forall f h y t t', proper_crt t -> crt_loop lines f h y t = Ok t' -> proper_crt t'.
Proof.
  assert (PS : forall k v t, proper_crt t -> v <> [] -> proper_crt (dset k v t)).
  { intros k v t [W NE] N. split; [now apply wf_dset|]. intros s refs I.
    apply (In_dget _ _ _ (wf_dset _ _ _ W)) in I. destruct (keqP s k) as [->|D].
    - rewrite dget_dset_eq in I. injection I as <-. exact N.
    - rewrite dget_dset_neq in I by exact D. apply dget_In in I. eauto. }
  induction lines as [|l lines IH]; intros f h y t t' P; cbn [crt_loop].
  - intro H. injection H as <-. exact P.
  - destruct (negb f && sw "Cross Reference Table" l); [now apply IH|]. destruct (negb h); [now apply IH|].
    destruct l as [|c l]; [intro H; injection H as <-; exact P|]. destruct ((c =?= " "%char) || (c =?= tab)).
    + unfold crt_reference. destruct y as [y|]; cbn [bind]; [|now apply IH].
      destruct (dget y t) as [l0|] eqn:G; cbn [bind]; [|discriminate]. apply IH. apply PS; auto. now destruct l0.
    + unfold crt_entry. destruct (split_max 1 (c :: l)) as [|p [|q [|? ?]]]; cbn [bind]; try discriminate.
      match goal with |- context [dset ?k ?v t] => apply (IH _ _ _ (dset k v t)) end. apply PS; auto. discriminate.
Qed.

Lemma map_crt_proper lines m crt : map_file lines = Ok m -> pm_crt m = Some crt -> proper_crt crt.
Proof.
  unfold map_file. destruct (get_memory_regions lines) as [[rs rest]|]; cbn [bind]; [|discriminate].
  destruct (get_sections rest) as [[secs rest1]|]; cbn [bind]; [|discriminate]. unfold get_cross_reference_table.
  destruct (crt_loop rest1 false false None []) as [t|] eqn:C; cbn [bind]; [|discriminate].
  intro H. injection H as <-. cbn [pm_crt]. intro E.
  assert (P : proper_crt t). { eapply crt_loop_proper; [|exact C]. split; [constructor|contradiction]. }
  destruct t; [discriminate|]. injection E as <-. exact P.
Qed.

(** ** the graph *)

Lemma dot_graph_ok ord crt m syms a r lines : set_iteration ord -> proper_crt crt ->
  get_archives_dependencies ord (Some crt) m (Some syms) a = Ok r ->
  dot_show ord (Some crt) m (Some syms) a = Ok lines ->
  let shown := summary_filtered da_abbrev r a in
  NoDup (flat_map node_name lines) /\ NoDup (flat_map edge_of lines) /\
  (forall x y ss, In (DotEdge x y ss) lines <->
     exists d e, dget (if a_dep_reverse a then y else x) shown = Some d /\ dget (if a_dep_reverse a then x else y) (da_archives d) = Some e /\
       ss = if a_dep_symbols a then Some (de_symbols e) else None) /\
  (forall x y, In (x, y) (flat_map edge_of lines) -> In x (flat_map node_name lines) /\ In y (flat_map node_name lines)) /\
  (forall n l z o, In (DotNode n l z o) lines ->
     (o = true <-> dget n shown <> None) /\
     ((exists d, dget n shown = Some d /\ l = (if a_abbrev a then da_abbrev d else n) /\ z = da_size d) \/
      (exists x d e, dget x shown = Some d /\ dget n (da_archives d) = Some e /\ l = (if a_abbrev a then de_abbrev e else n) /\ z = de_size e))) /\
  (forall n, dget n shown <> None -> In n (flat_map node_name lines)).
Proof.
  intros SI P E. unfold dot_show. destruct (negb (a_archive_dependencies a)); [discriminate|]. rewrite E. cbn [bind]. intro H. injection H as <-.
  cbv zeta. pose proof (filtered_wf a r (report_wf _ _ _ _ _ _ SI P E)) as W. set (shown := summary_filtered da_abbrev r a) in *. clearbody shown.
  destruct (dot_lines_ok a shown) as (N & D1 & D2 & _). split; [exact N|]. split; [now apply edges_nodup|]. split; [intros; now apply edge_iff|].
  assert (IN : forall n l z, In (n, l, z) (flat_map (arch_decls a) shown) -> In n (flat_map node_name (dot_lines a shown))).
  { intros n l z I. apply D1. apply in_map_iff. exists (n, l, z). split; auto. }
  split; [|split].
  - intros x y I. apply in_flat_map in I as (e & I & K). destruct e as [|x' y' ss]; cbn in K; [contradiction|]. destruct K as [K|[]]. injection K as -> ->.
    apply (edge_iff a shown W) in I as (d & e & X & Y & _).
    assert (A : In (if a_dep_reverse a then y else x) (flat_map node_name (dot_lines a shown))).
    { eapply IN. apply (decl_iff a shown W). left. eexists. split; [exact X|]. split; reflexivity. }
    assert (B : In (if a_dep_reverse a then x else y) (flat_map node_name (dot_lines a shown))).
    { eapply IN. apply (decl_iff a shown W). right. eexists _, _, _. split; [exact X|]. split; [exact Y|]. split; reflexivity. }
    destruct (a_dep_reverse a); auto.
  - intros n l z o I. apply D2 in I as [-> I]. split; [|now apply decl_iff].
    unfold dmem. destruct (dget n shown); split; intro; congruence.
  - intros n G. destruct (dget n shown) as [d|] eqn:X; [|contradiction]. eapply IN. apply (decl_iff a shown W). left. eexists. split; [exact X|]. split; reflexivity.
Qed.
