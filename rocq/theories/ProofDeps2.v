(** * Proofs about the dependency report: filtering, the whole report, DOT *)
From Coq Require Import Ascii String List ZArith Bool Lia.
From Verif Require Import Base MemMap SpecTree SpecOps Filter Pipeline PyStr MapFile Deps SpecDeps ProofArch ProofSummary2 ProofDeps.
Import ListNotations.
Open Scope list_scope.
Open Scope Z_scope.

(** ** filtering *)

Definition keep_entry (archives : dict str sentry) (kv : str * list (str * str)) : list (str * list (str * str)) :=
  match snd kv with
  | [] => []
  | def :: refs =>
    if negb (dmem (fst def) archives) then []
    else match filter (fun r => dmem (fst r) archives && negb (fst r =?= fst def)) refs with
         | [] => []
         | l => [(fst kv, def :: l)]
         end
  end.

Lemma keep_key ar kv x : In x (keep_entry ar kv) -> fst x = fst kv.
Proof.
  unfold keep_entry. destruct (snd kv) as [|def refs]; [contradiction|]. destruct (negb _); [contradiction|].
  destruct (filter _ refs); [contradiction|]. intros [<-|[]]. reflexivity.
Qed.

Lemma filter_crt_ok crt archives syms : proper_crt crt ->
  filter_crt crt archives (Some syms) = Ok (flat_map (keep_entry archives) (filter (fun kv => mem (fst kv) (sym_names syms)) crt)).
Proof.
  intros [W NE]. unfold filter_crt.
  match goal with |- foldM ?f _ _ = _ => set (F := f) end.
  assert (W' : wf_dict (filter (fun kv => mem (fst kv) (sym_names syms)) crt)) by now apply wf_filter.
  assert (NE' : forall s refs, In (s, refs) (filter (fun kv => mem (fst kv) (sym_names syms)) crt) -> refs <> []).
  { intros s refs I. apply filter_In in I as [I _]. eauto. }
  revert W' NE'. generalize (filter (fun kv => mem (fst kv) (sym_names syms)) crt) as l. clear W NE.
  assert (G : forall l acc, wf_dict (acc ++ l) -> (forall s refs, In (s, refs) l -> refs <> []) ->
    foldM F acc l = Ok (acc ++ flat_map (keep_entry archives) l)).
  2:{ intros l W NE. exact (G l [] W NE). }
  induction l as [|[s refs] l IH]; intros acc W NE; cbn [foldM flat_map]; [now rewrite app_nil_r|].
  assert (X : F acc (s, refs) = Ok (acc ++ keep_entry archives (s, refs))).
  { unfold F, keep_entry. cbn [snd fst]. destruct refs as [|def refs]; [exfalso; apply (NE s []); [now left|reflexivity]|].
    destruct (negb (dmem (fst def) archives)); [now rewrite app_nil_r|].
    destruct (filter _ refs) as [|r q]; [now rewrite app_nil_r|].
    f_equal. apply dset_notin. unfold wf_dict, keys in W. rewrite map_app in W. cbn [map fst] in W.
    apply NoDup_remove_2 in W. intro I. apply W. apply in_or_app. now left. }
  rewrite X. cbn [bind]. rewrite IH.
  - now rewrite app_assoc.
  - unfold wf_dict, keys in *. rewrite !map_app in *. cbn [map fst] in W.
    assert (K : keep_entry archives (s, refs) = [] \/ exists v, keep_entry archives (s, refs) = [(s, v)]).
    { unfold keep_entry. cbn [snd fst]. destruct refs as [|def refs]; auto. destruct (negb _); auto. destruct (filter _ refs); eauto. }
    destruct K as [->|[v ->]]; cbn [map app fst].
    + rewrite app_nil_r. now apply NoDup_remove_1 in W.
    + now rewrite <- app_assoc.
  - intros s' refs' I. apply (NE s'). now right.
Qed.

Lemma wf_flat_keep ar l : wf_dict l -> wf_dict (flat_map (keep_entry ar) l).
Proof.
  unfold wf_dict, keys. induction l as [|kv l IH]; cbn [flat_map map]; [constructor|]. intro W. inversion W as [|? ? N W']; subst.
  rewrite map_app.
  assert (K : keep_entry ar kv = [] \/ exists v, keep_entry ar kv = [(fst kv, v)]).
  { unfold keep_entry. destruct (snd kv) as [|def refs]; auto. destruct (negb _); auto. destruct (filter _ refs); eauto. }
  destruct K as [->|[v ->]]; cbn [map app fst]; auto. constructor; auto.
  intro I. apply N. apply in_map_iff in I as (x & E & I). apply in_flat_map in I as (kv' & I & J).
  apply keep_key in J. apply in_map_iff. exists kv'. split; congruence.
Qed.

Lemma keep_known ar l : Forall (known ar) (flat_map (keep_entry ar) l).
Proof.
  rewrite Forall_forall. intros x I. apply in_flat_map in I as (kv & _ & I). unfold keep_entry in I.
  destruct (snd kv) as [|def refs]; [contradiction|]. destruct (dmem (fst def) ar) eqn:D; cbn [negb] in I; [|contradiction].
  destruct (filter _ refs) as [|r q] eqn:F; [contradiction|]. destruct I as [<-|[]]. split; [discriminate|].
  cbn [snd]. constructor; auto. rewrite <- F, Forall_forall. intros y Y. apply filter_In in Y as [_ Y].
  now apply andb_true_iff in Y as [Y _].
Qed.

Lemma elf_symbol_ok syms s : mem s (sym_names syms) = true <-> elf_symbol syms s.
Proof.
  rewrite mem_In. unfold sym_names, elf_symbol. rewrite in_map_iff. split.
  - intros (y & E & I). apply filter_In in I as [I T]. exists y. apply andb_true_iff in T as [T A].
    apply orb_true_iff in T. rewrite !Z.eqb_eq in T. apply negb_true_iff, Z.eqb_neq in A. auto.
  - intros (y & I & E & T & A). exists y. split; auto. apply filter_In. split; auto.
    apply andb_true_iff. split; [apply orb_true_iff; rewrite !Z.eqb_eq; exact T|]. apply negb_true_iff, Z.eqb_neq. exact A.
Qed.

Section Report.
  Context (crt : crt_table) (ar : dict str sentry) (syms : list dsym).
  Definition kept : crt_table := flat_map (keep_entry ar) (filter (fun kv => mem (fst kv) (sym_names syms)) crt).

  Lemma between_ok : proper_crt crt -> forall a b s,
    In s (between kept a b) <-> defined_used crt s b a /\ a <> b /\ dmem a ar = true /\ dmem b ar = true /\ elf_symbol syms s.
  Proof.
    intros [W NE] a b s. unfold between. rewrite in_map_iff. split.
    - intros ([s' refs] & E & I). cbn [fst] in E. subst s'. apply filter_In in I as [I U].
      unfold kept in I. apply in_flat_map in I as ([s' refs0] & I & K). pose proof (keep_key _ _ _ K) as E. cbn [fst] in E. subst s'.
      apply filter_In in I as [I M]. cbn [fst] in M.
      unfold keep_entry in K. cbn [snd fst] in K. destruct refs0 as [|def refs0]; [contradiction|].
      destruct (dmem (fst def) ar) eqn:D; cbn [negb] in K; [|contradiction].
      destruct (filter _ refs0) as [|r q] eqn:F; [contradiction|]. destruct K as [K|[]]. injection K as <-.
      unfold used_by in U. cbn [snd] in U. apply andb_true_iff in U as [U1 U2]. apply keq_eq in U1. apply mem_In in U2.
      rewrite <- F in U2. apply in_map_iff in U2 as (x & X & XI). apply filter_In in XI as [XI XF].
      apply andb_true_iff in XF as [X1 X2]. apply negb_true_iff, keq_neq in X2. subst.
      split; [|split; [exact X2|split; [exact X1|split; [exact D|now apply elf_symbol_ok]]]].
      exists def, refs0. split; [now apply In_dget|]. split; auto. now apply (List.in_map fst).
    - intros ((def & rest & G & B & A) & N & DA & DB & Y). apply dget_In in G. apply in_map_iff in A as (x & X & XI).
      set (q := filter (fun r => dmem (fst r) ar && negb (fst r =?= fst def)) rest).
      assert (XQ : In x q).
      { apply filter_In. split; auto. subst. rewrite DA. cbn [andb]. apply negb_true_iff, keq_neq. exact N. }
      exists (s, def :: q). split; auto. apply filter_In. split.
      + unfold kept. apply in_flat_map. exists (s, def :: rest). split.
        * apply filter_In. split; auto. now apply elf_symbol_ok.
        * unfold keep_entry. cbn [snd fst]. subst b. rewrite DB. cbn [negb]. fold q. destruct q; [contradiction|now left].
      + unfold used_by. cbn [snd]. subst b. rewrite keq_refl. cbn [andb]. apply mem_In. subst a. now apply (List.in_map fst).
  Qed.

  Lemma between_NoDup a b : proper_crt crt -> NoDup (between kept a b).
  Proof.
    intros [W _]. unfold between.
    assert (X : wf_dict (filter (used_by a b) kept)) by (apply wf_filter, wf_flat_keep, wf_filter, W). exact X.
  Qed.

  (** what is found in a report *)
  Definition describes (rel : str -> str -> list str) (r : dict str darch) : Prop :=
    forall a, match dget a r with
      | Some d => (exists b, rel a b <> []) /\ da_abbrev d = basename a /\ da_size d = size_of ar a /\
          forall b, dget b (da_archives d) = match rel a b with [] => None | ss => Some (DEnt (basename b) (size_of ar b) ss) end
      | None => forall b, rel a b = []
      end.

  Lemma inner_none l b : inner_syms b l = [] <-> forall ev s, In ev l -> snd ev <> Some (b, s).
  Proof.
    unfold inner_syms. split.
    - intros E ev s I X. assert (J : In s (flat_map (fun ev : str * option (str * str) => match snd ev with Some (b', s) => if b' =?= b then [s] else [] | None => [] end) l)).
      { apply in_flat_map. exists ev. split; auto. rewrite X, keq_refl. now left. }
      rewrite E in J. contradiction.
    - induction l as [|ev l IH]; intro H; cbn [flat_map]; auto. rewrite IH by (intros; apply H; now right). rewrite app_nil_r.
      destruct (snd ev) as [[b' s]|] eqn:E; auto. destruct (keqP b' b) as [->|]; auto. exfalso. apply (H ev s); auto. now left.
  Qed.

  Lemma between_none F a b : between F a b = [] <-> forall kv, In kv F -> used_by a b kv = false.
  Proof.
    unfold between. split.
    - intros E kv I. destruct (used_by a b kv) eqn:U; auto. assert (In kv (filter (used_by a b) F)) by now apply filter_In.
      destruct (filter (used_by a b) F); [contradiction|discriminate].
    - intro H. induction F as [|kv F IH]; cbn [filter]; auto. rewrite H by now left. apply IH. intros; apply H; now right.
  Qed.

  Lemma kept_entry kv : In kv kept -> exists def r q, snd kv = def :: r :: q.
  Proof.
    unfold kept. intro I. apply in_flat_map in I as (x & _ & I). unfold keep_entry in I. destruct (snd x) as [|def refs]; [contradiction|].
    destruct (negb _); [contradiction|]. destruct (filter _ refs) as [|r q]; [contradiction|]. destruct I as [<-|[]]. cbn. eauto.
  Qed.

  Lemma deps_describe ord : set_iteration ord -> exists r, get_archives_deps ord kept ar = Ok r /\ describes (between kept) r.
  Proof.
    intro SI. rewrite (deps_events ar ord kept SI (keep_known ar _)). eexists. split; [reflexivity|]. intro a.
    pose proof (look_events ar (flat_map (dep_events ord) kept) a) as L. destruct (dget a _) as [d|].
    - destruct L as ((ev & I & E) & A & B & C). split; [|split; [exact A|split; [exact B|]]].
      + apply in_flat_map in I as (kv & K & I). destruct (kept_entry _ K) as (def & r & q & S). unfold dep_events in I. rewrite S in I.
        apply in_map_iff in I as (x & X & XI). subst ev. cbn [fst] in E. subst x. apply SI in XI.
        exists (fst def). intro Z. rewrite between_none in Z. specialize (Z kv K). unfold used_by in Z. rewrite S, keq_refl in Z. cbn [andb] in Z.
        apply mem_not_In in Z. contradiction.
      + intro b. rewrite C, (dep_between ord kept a b SI). reflexivity.
    - intro b. rewrite <- (dep_between ord kept a b SI). apply inner_none. intros ev s I. apply filter_In in I as [I E].
      apply keq_eq in E. exfalso. exact (L ev I E).
  Qed.

  Lemma revdeps_describe ord : set_iteration ord -> exists r, get_archives_revdeps ord kept ar = Ok r /\ describes (fun a b => between kept b a) r.
  Proof.
    intro SI. rewrite (revdeps_events ar ord kept SI (keep_known ar _)). eexists. split; [reflexivity|]. intro a.
    pose proof (look_events ar (flat_map (rev_events ord) kept) a) as L. destruct (dget a _) as [d|].
    - destruct L as ((ev & I & E) & A & B & C). split; [|split; [exact A|split; [exact B|]]].
      + apply in_flat_map in I as (kv & K & I). destruct (kept_entry _ K) as (def & r & q & S). unfold rev_events in I. rewrite S in I.
        assert (D : fst def = a).
        { destruct I as [<-|I]; [exact E|]. apply in_map_iff in I as (x & X & XI). subst ev. exact E. }
        exists (fst r). intro Z. rewrite between_none in Z. specialize (Z kv K). unfold used_by in Z. rewrite S, D, keq_refl in Z. cbn [andb] in Z.
        apply mem_not_In in Z. apply Z. now left.
      + intro b. rewrite C, (rev_between ord kept a b SI). reflexivity.
    - intro b. rewrite <- (rev_between ord kept a b SI). apply inner_none. intros ev s I. apply filter_In in I as [I E].
      apply keq_eq in E. exfalso. exact (L ev I E).
  Qed.

  Lemma describes_listed rel r : describes rel r -> forall a b s, listed r a b s <-> In s (rel a b).
  Proof.
    intros D a b s. specialize (D a). unfold listed. split.
    - intros (d & e & A & B & I). rewrite A in D. destruct D as (_ & _ & _ & C). rewrite C in B.
      destruct (rel a b); [discriminate|]. injection B as <-. exact I.
    - intro I. destruct (dget a r) as [d|]; [|rewrite D in I; contradiction]. destruct D as (_ & _ & _ & C). exists d.
      specialize (C b). destruct (rel a b) as [|x l] eqn:E; [contradiction|]. eexists. split; [reflexivity|]. split; [exact C|exact I].
  Qed.

  Lemma describes_same rel r r' : describes rel r -> describes rel r' -> same_report r r'.
  Proof.
    intros D D' a. specialize (D a). specialize (D' a). destruct (dget a r) as [d|], (dget a r') as [d'|]; auto.
    - destruct D as (_ & A & B & C), D' as (_ & A' & B' & C'). repeat split; try congruence. intro b. now rewrite C, C'.
    - destruct D as ((b & X) & _). apply X, D'.
    - destruct D' as ((b & X) & _). apply X, D.
  Qed.
End Report.

(** ** the whole report *)

Lemma summary_in_map m a x : wf_map m -> given (a_diff a) = false -> dmem x (get_archives_summary m a) = true <-> in_map m x.
Proof.
  intros W D. pose proof (archives_report m a x W) as R. unfold dmem, in_map. destruct (dget x (get_archives_summary m a)) as [e|].
  - destruct R as (_ & _ & t & s & y & L & _). split; auto. intros _. exists t, s. congruence.
  - split; [discriminate|]. intros (t & s & L). destruct R as [R|(e & _ & C)].
    + exfalso. apply L, R.
    + exfalso. apply C. intros [X _]. congruence.
Qed.

Lemma keyed_sum {V W} (f : V -> Z) (g : W -> Z) (d : dict str V) (d' : dict str W) : wf_dict d -> keys d = keys d' ->
  (forall k v w, In (k, v) d -> In (k, w) d' -> f v = g w) -> zsumf (fun kv => f (snd kv)) d = zsumf (fun kv => g (snd kv)) d'.
Proof.
  revert d'. induction d as [|[k v] d IH]; intros [|[k' w] d'] WF E H; try discriminate; [reflexivity|].
  cbn in E. injection E as <- E. inversion WF as [|? ? N WF']; subst. rewrite !zsumf_cons. cbn [snd].
  rewrite (H k v w) by now left. f_equal. apply IH; auto. intros k0 v0 w0 I J. apply (H k0); now right.
Qed.

Lemma keyed_sum_k {V W} (f : V -> Z) (g : str * W -> Z) (d : dict str V) (d' : dict str W) : wf_dict d -> keys d = keys d' ->
  (forall k v w, In (k, v) d -> In (k, w) d' -> f v = g (k, w)) -> zsumf (fun kv => f (snd kv)) d = zsumf g d'.
Proof.
  revert d'. induction d as [|[k v] d IH]; intros [|[k' w] d'] WF E H; try discriminate; [reflexivity|].
  cbn in E. injection E as <- E. inversion WF as [|? ? N WF']; subst. rewrite !zsumf_cons. cbn [snd].
  rewrite (H k v w) by now left. f_equal. apply IH; auto. intros k0 v0 w0 I J. apply (H k0); now right.
Qed.

Lemma summary_size m a x : wf_map m -> given (a_diff a) = false -> in_map m x -> size_of (get_archives_summary m a) x = archive_size m x.
Proof.
  intros W D IM. apply (summary_in_map m a x W D) in IM. unfold dmem in IM. unfold size_of.
  pose proof (archives_report m a x W) as R. destruct (dget x (get_archives_summary m a)) as [e|]; [|discriminate].
  destruct R as ((K & S & _ & T) & _). rewrite S. unfold archive_size. destruct W as [WT WS].
  assert (WE : wf_dict (se_types e)) by (unfold wf_dict; rewrite K; exact WT).
  apply keyed_sum_k; auto. intros t U V I J. cbn [fst snd].
  destruct (T t U (In_dget _ _ _ WE I)) as (KS & SS & _ & Q). rewrite (In_dget _ _ _ WT J) in KS. cbn in KS. injection KS as KS.
  rewrite SS.
  assert (WV : wf_dict (t_sections V)).
  { rewrite Forall_forall in WS. specialize (WS (t, V) J). cbn in WS. apply WS. }
  assert (WU : wf_dict (st_sections U)) by (unfold wf_dict; rewrite KS; exact WV).
  apply keyed_sum_k; auto. intros s q v I' J'. cbn [fst]. now apply Q, In_dget.
Qed.

Definition oriented (a : args) (F : crt_table) (x y : str) : list str :=
  if a_dep_reverse a then between F y x else between F x y.

Lemma report_describes ord crt m syms a : set_iteration ord -> proper_crt crt ->
  exists r, get_archives_dependencies ord (Some crt) m (Some syms) a = Ok r /\
    describes (get_archives_summary m a) (oriented a (kept crt (get_archives_summary m a) syms)) r.
Proof.
  intros SI P. unfold get_archives_dependencies. rewrite filter_crt_ok by exact P. cbn [bind].
  fold (kept crt (get_archives_summary m a) syms). unfold oriented. destruct (a_dep_reverse a).
  - now apply revdeps_describe.
  - now apply deps_describe.
Qed.

Lemma report_ok ord crt m syms a : set_iteration ord -> proper_crt crt -> wf_map m -> given (a_diff a) = false ->
  exists r, get_archives_dependencies ord (Some crt) m (Some syms) a = Ok r /\
    (forall x y s, listed r x y s <-> if a_dep_reverse a then uses crt m syms y x s else uses crt m syms x y s) /\
    (forall x d, dget x r = Some d -> da_abbrev d = basename x /\ da_size d = archive_size m x /\ (exists y s, listed r x y s) /\
       forall y e, dget y (da_archives d) = Some e ->
         de_abbrev e = basename y /\ de_size e = archive_size m y /\ NoDup (de_symbols e) /\ de_symbols e <> []).
Proof.
  intros SI P W D. destruct (report_describes ord crt m syms a SI P) as (r & E & DS). exists r. split; [exact E|].
  set (ar := get_archives_summary m a) in *.
  assert (L : forall x y s, listed r x y s <-> if a_dep_reverse a then uses crt m syms y x s else uses crt m syms x y s).
  { intros x y s. rewrite (describes_listed _ _ _ DS). unfold oriented, uses.
    destruct (a_dep_reverse a); rewrite (between_ok crt ar syms P); unfold ar; rewrite !summary_in_map by assumption; tauto. }
  split; [exact L|]. intros x d G.
  pose proof (DS x) as X. rewrite G in X. destruct X as ((b & NB) & A & B & C).
  assert (IM : forall y s, listed r x y s -> in_map m x /\ in_map m y).
  { intros y s Y. apply L in Y. destruct (a_dep_reverse a); destruct Y as (_ & _ & Y1 & Y2 & _); auto. }
  assert (EX : exists s, listed r x b s).
  { destruct (oriented a (kept crt ar syms) x b) as [|s l] eqn:O; [contradiction|]. exists s.
    apply (describes_listed _ _ _ DS). rewrite O. now left. }
  destruct EX as (s & LS). split; [exact A|]. split.
  - rewrite B. unfold ar. apply summary_size; auto. apply (IM b s LS).
  - split; [eauto|]. intros y e Y. rewrite C in Y. destruct (oriented a (kept crt ar syms) x y) as [|s0 l] eqn:O; [discriminate|].
    injection Y as <-. cbn [de_abbrev de_size de_symbols]. split; [reflexivity|]. split; [|split; [|discriminate]].
    + unfold ar. apply summary_size; auto. apply (IM y s0). apply (describes_listed _ _ _ DS). rewrite O. now left.
    + rewrite <- O. unfold oriented. destruct (a_dep_reverse a); now apply between_NoDup.
Qed.

Lemma reports_converse ord ord' crt m syms a a' r r' :
  set_iteration ord -> set_iteration ord' -> proper_crt crt -> wf_map m -> given (a_diff a) = false -> given (a_diff a') = false ->
  a_dep_reverse a = false -> a_dep_reverse a' = true ->
  get_archives_dependencies ord (Some crt) m (Some syms) a = Ok r ->
  get_archives_dependencies ord' (Some crt) m (Some syms) a' = Ok r' ->
  forall x y s, listed r x y s <-> listed r' y x s.
Proof.
  intros SI SI' P W D D' A A' E E' x y s.
  destruct (report_ok ord crt m syms a SI P W D) as (q & Q & L & _). destruct (report_ok ord' crt m syms a' SI' P W D') as (q' & Q' & L' & _).
  rewrite E in Q. rewrite E' in Q'. injection Q as <-. injection Q' as <-. rewrite L, L', A, A'. reflexivity.
Qed.

Lemma reports_same ord ord' crt m syms a r r' : set_iteration ord -> set_iteration ord' -> proper_crt crt ->
  get_archives_dependencies ord (Some crt) m (Some syms) a = Ok r ->
  get_archives_dependencies ord' (Some crt) m (Some syms) a = Ok r' -> same_report r r'.
Proof.
  intros SI SI' P E E'. destruct (report_describes ord crt m syms a SI P) as (q & Q & L). destruct (report_describes ord' crt m syms a SI' P) as (q' & Q' & L').
  rewrite E in Q. rewrite E' in Q'. injection Q as <-. injection Q' as <-. eapply describes_same; eauto.
Qed.
