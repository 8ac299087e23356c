(** * --unify adds up rows *)
From Coq Require Import Ascii String List ZArith Lia Bool Permutation Sorted.
From Verif Require Import Base MemMap SpecTree SpecOps Filter SpecFilter Pipeline SpecPipe SpecBuild SpecBytes SpecShape PyStr MapFile SpecMap
  ElfRead SpecElf Project SpecProject SpecEnd Chips SpecChips Deps Table SpecTable Formats Main SpecMain Command SpecCommand SpecFail SpecReport ProofReport5 SpecAdds ProofAdds SpecGroup ProofMergeFiles1.
Import ListNotations.
Open Scope list_scope.
Open Scope Z_scope.

(** ** sums *)
Lemma zsumf_subset (g : str -> Z) ms ns : NoDup ns -> NoDup ms -> incl ms ns -> (forall n, In n ns -> ~ In n ms -> g n = 0) -> zsumf g ns = zsumf g ms.
Proof.
  intros Nn Nm. revert ns Nn. induction Nm as [|m ms M0 Nm IH]; intros ns Nn In_ Z0.
  - apply zsumf_zero. intros n I. apply Z0; [exact I|intros []].
  - destruct (in_split m ns (In_ m (or_introl eq_refl))) as (l1 & l2 & ->). pose proof (NoDup_remove _ _ _ Nn) as (N1 & N2).
    rewrite zsumf_cons, <- (IH (l1 ++ l2) N1).
    + rewrite !zsumf_app, zsumf_cons. lia.
    + intros n I. assert (J : In n (l1 ++ m :: l2)) by (apply In_; now right). apply in_app_iff in J. apply in_app_iff. destruct J as [J|[<-|J]]; [now left|contradiction|now right].
    + intros n I Nk. apply Z0; [apply in_app_iff in I; apply in_app_iff; destruct I as [I|I]; [now left|right; now right]|]. intros [<-|J]; [contradiction|exact (Nk J)].
Qed.
Lemma zsumf_rows {V} (g : str -> Z) (h : str * V -> Z) ns (rows : dict str V) : NoDup ns -> NoDup (map fst rows) ->
  (forall n e, In (n, e) rows -> In n ns /\ h (n, e) = g n) -> (forall n, In n ns -> ~ In n (map fst rows) -> g n = 0) -> zsumf g ns = zsumf h rows.
Proof.
  intros N Nr R Z0. rewrite (zsumf_subset g (map fst rows) ns N Nr); [|intros n I; apply List.in_map_iff in I; destruct I as ((m & e) & <- & I); now apply (R m e)|exact Z0].
  clear - R. induction rows as [|(n & e) rows IH]; [reflexivity|]. cbn [map]. rewrite !zsumf_cons. f_equal; [symmetry; apply (R n e); now left|]. apply IH. intros m f I. apply R. now right.
Qed.
(** bytes depend only on what is placed *)
Lemma own_ext own own' c k n : (forall j, places j k -> own j = own' j) -> own_bytes own c k n -> own_bytes own' c k n.
Proof.
  intros H.
  assert (S : forall (f : printed -> item -> Z) keep, (forall o, keep o = true -> counted (ac_im k) o) -> (forall o i, it_size i = 0 -> f o i = 0) ->
    zsumf (fun o => zsumf (f o) (filter own (pr_items o))) (filter keep (ac_l k)) = zsumf (fun o => zsumf (f o) (filter own' (pr_items o))) (filter keep (ac_l k))).
  { intros f keep K F. apply zsumf_ext. intros o Io. apply filter_In in Io. destruct Io as (Io & Ko). specialize (K o Ko).
    assert (G : forall l, incl l (pr_items o) -> zsumf (f o) (filter own l) = zsumf (f o) (filter own' l)); [|apply G, incl_refl].
    induction l as [|i l IH]; intros In_; [reflexivity|]. assert (IH' := IH (fun j J => In_ j (or_intror J))). clear IH.
    destruct (Z.eq_dec (it_size i) 0) as [E|E].
    - cbn [filter]. destruct (own i), (own' i); rewrite ?zsumf_cons, ?(F o i E), IH'; reflexivity.
    - cbn [filter]. rewrite (H i) by (exists o; split; [exact Io|]; split; [exact K|]; split; [apply In_; now left|exact E]). destruct (own' i); rewrite ?zsumf_cons, IH'; reflexivity. }
  destruct c as [|T|T N]; cbn [own_bytes].
  - intros (keep & K & ->). exists keep. split; [exact K|]. apply (S (fun _ => it_size)); [intros o; apply K|now intros o i].
  - intros (keep & b & K & B & ->). exists keep, b. split; [exact K|]. split; [exact B|]. apply (S (fun o i => bytes_with (b o) (it_addr i) (it_size i))); [intros o; apply K|]. intros o i ->. apply bytes_zero.
  - intros (keep & b & K & B & ->). exists keep, b. split; [exact K|]. split; [exact B|]. apply (S (fun o i => bytes_with b (it_addr i) (it_size i))); [intros o Ko; apply K in Ko; apply Ko|]. intros o i ->. apply bytes_zero.
Qed.
Lemma measured_own own own' c k r v : (forall j, present k r (places j) -> own j = own' j) -> measured k r (own_bytes own c) v -> measured k r (own_bytes own' c) v.
Proof.
  intros H (A & B). split; [apply (own_ext own); [intros j P; apply H; now left|exact A]|]. destruct r as [k'|]; [|exact B]. destruct B as (n & B & E). exists n. split; [|exact E]. apply (own_ext own); [intros j P; apply H; now right|exact B].
Qed.

Section Rows.
Variables (k : account) (r : option account) (a : args) (key : item -> str) (own : item -> item -> bool) (grp : item -> bool) (y : str) (plain unified : dict str sentry).
Hypothesis H_own : forall i j, present k r (places i) -> present k r (places j) -> own i j = (key j =?= key i).
Hypothesis H_grp : forall i j, present k r (places i) -> present k r (places j) -> key i = key j -> grp i = grp j.
Hypothesis H_once : NoDup (map fst plain).
Hypothesis H_row : forall n e, In (n, e) plain -> exists i, present k r (places i) /\ n = key i /\ (se_abbrev e = y <-> grp i = true) /\ entry_right k r a (own i) e.
Hypothesis H_there : forall i v, present k r (places i) -> grp i = true -> measured k r (own_bytes (own i) ColTotal) v -> differs a v -> In (key i) (map fst plain).
Hypothesis U_there : In y (map fst unified) <-> exists i v, present k r (places i) /\ grp i = true /\ measured k r (own_bytes grp ColTotal) v /\ differs a v.
Hypothesis U_size : forall e, In (y, e) unified -> measured k r (own_bytes grp ColTotal) (se_size e, se_diff e).
Hypothesis U_types : forall e T, In (y, e) unified -> In T (map fst (se_types e)) <-> present k r (lists_type a T).
Hypothesis U_type : forall e T st, In (y, e) unified -> In (T, st) (se_types e) -> measured k r (own_bytes grp (ColType T)) (st_size st, st_diff st).
Variable part : sentry -> bool.
Hypothesis Pt : forall e, part e = true <-> se_abbrev e = y.
Let rows := filter (fun kv : str * sentry => part (snd kv)) plain.

Definition within (n : str) (j : item) : bool := grp j && (key j =?= n).
Lemma within_own i : present k r (places i) -> grp i = true -> forall j, present k r (places j) -> within (key i) j = own i j.
Proof.
  intros P G j Pj. rewrite (H_own i j P Pj). unfold within. destruct (keqP (key j) (key i)) as [E|]; [|now rewrite andb_false_r]. now rewrite (H_grp j i Pj P E), G.
Qed.
Lemma grp_split ns c h n : own_bytes grp c h n -> NoDup ns -> (forall i, places i h -> grp i = true -> In (key i) ns) ->
  exists f, (forall m, own_bytes (within m) c h (f m)) /\ n = zsumf f ns.
Proof.
  intros H N P.
  assert (S : forall (f : printed -> item -> Z) keep, (forall o, keep o = true -> counted (ac_im h) o) -> (forall o i, it_size i = 0 -> f o i = 0) ->
    zsumf (fun o => zsumf (f o) (filter grp (pr_items o))) (filter keep (ac_l h)) =
    zsumf (fun m => zsumf (fun o => zsumf (f o) (filter (within m) (pr_items o))) (filter keep (ac_l h))) ns).
  { intros f keep K F. rewrite <- zsumf_swap. apply zsumf_ext. intros o Io. apply filter_In in Io. destruct Io as (Io & Ko). specialize (K o Ko).
    transitivity (zsumf (fun x => zsumf (f o) (filter (fun j => key j =?= x) (filter grp (pr_items o)))) ns).
    - rewrite <- (zsum_keys key (f o) (fun _ => true) ns (filter grp (pr_items o)) N (fun _ _ => eq_refl)).
      + f_equal. clear. induction (filter grp (pr_items o)) as [|i l IH]; [reflexivity|]. cbn. now f_equal.
      + intros i I _ Ni. apply filter_In in I. destruct I as (I & G). destruct (Z.eq_dec (it_size i) 0) as [E|E]; [now apply F|]. exfalso. apply Ni, P; [|exact G]. exists o. split; [exact Io|]. split; [exact K|]. split; [exact I|exact E].
    - apply zsumf_ext. intros m _. f_equal. unfold within. clear. induction (pr_items o) as [|i l IH]; [reflexivity|]. cbn [filter]. destruct (grp i); cbn [filter andb]; [|exact IH]. destruct (key i =?= m); [now f_equal|exact IH]. }
  destruct c as [|T|T M]; cbn [own_bytes] in H.
  - destruct H as (keep & K & ->). eexists. split; [intros o; exists keep; split; [exact K|reflexivity]|]. cbv beta. apply (S (fun _ => it_size)); [intros o; apply K|]. now intros o i.
  - destruct H as (keep & b & K & B & ->). eexists. split; [intros o; exists keep, b; split; [exact K|split; [exact B|reflexivity]]|].
    cbv beta. apply (S (fun o i => bytes_with (b o) (it_addr i) (it_size i))); [intros o; apply K|]. intros o i ->. apply bytes_zero.
  - destruct H as (keep & b & K & B & ->). eexists. split; [intros o; exists keep, b; split; [exact K|split; [exact B|reflexivity]]|].
    cbv beta. apply (S (fun o i => bytes_with b (it_addr i) (it_size i))); [intros o Ko; apply K in Ko; apply Ko|]. intros o i ->. apply bytes_zero.
Qed.
Lemma grp_measured ns c v : measured k r (own_bytes grp c) v -> NoDup ns -> (forall i, present k r (places i) -> grp i = true -> In (key i) ns) ->
  exists f, (forall m, measured k r (own_bytes (within m) c) (f m)) /\ v = (zsumf (fun m => fst (f m)) ns, zsumf (fun m => snd (f m)) ns).
Proof.
  intros (A & B) N P. destruct (grp_split _ _ _ _ A N (fun i I => P i (or_introl I))) as (f & Hf & Ef). destruct v as (v1 & v2). cbn [fst snd] in *. destruct r as [k'|].
  - destruct B as (n' & A' & ->). destruct (grp_split _ _ _ _ A' N (fun i I => P i (or_intror I))) as (g & Hg & Eg).
    exists (fun o => (f o, f o - g o)). cbn [fst snd]. split; [intros o; split; [apply Hf|exists (g o); split; [apply Hg|reflexivity]]|]. rewrite zsumf_minus. now subst.
  - exists (fun o => (f o, 0)). cbn [fst snd]. split; [intros o; split; [apply Hf|reflexivity]|]. rewrite (zsumf_zero (fun _ => 0)) by reflexivity. now subst.
Qed.
Lemma keys_of h : (exists o n, own_bytes o ColTotal h n) -> exists ns, forall m, In m ns <-> exists i, places i h /\ grp i = true /\ key i = m.
Proof.
  intros (o & n & keep & K & _). exists (map key (filter (fun i => grp i && negb (it_size i =? 0)) (flat_map pr_items (filter keep (ac_l h))))). intros m. rewrite List.in_map_iff. split.
  - intros (i & E & I). apply filter_In in I. destruct I as (I & C). apply andb_true_iff in C. destruct C as (C1 & C2). apply in_flat_map in I. destruct I as (p & Ip & Ii). apply filter_In in Ip. destruct Ip as (Ip & Kp).
    exists i. split; [|now split]. exists p. split; [exact Ip|]. split; [now apply K|]. split; [exact Ii|]. apply negb_true_iff, Z.eqb_neq in C2. exact C2.
  - intros (i & (p & Ip & Cp & Ii & Z0) & G & E). exists i. split; [exact E|]. apply filter_In. split.
    + apply in_flat_map. exists p. split; [|exact Ii]. apply filter_In. split; [exact Ip|now apply K].
    + rewrite G. cbn [andb]. apply negb_true_iff, Z.eqb_neq. exact Z0.
Qed.
Lemma keys_all o v : measured k r (own_bytes o ColTotal) v -> exists ns, NoDup ns /\ forall m, In m ns <-> exists i, present k r (places i) /\ grp i = true /\ key i = m.
Proof.
  intros (A & B). destruct (keys_of k (ex_intro _ _ (ex_intro _ _ A))) as (ns & H).
  assert (exists ns', forall m, In m ns' <-> exists i, match r with None => False | Some k' => places i k' end /\ grp i = true /\ key i = m) as (ns' & H').
  { destruct r as [k'|]; [|exists []; intros m; split; [intros []|intros (i & [] & _)]]. destruct B as (n' & A' & _). exact (keys_of k' (ex_intro _ _ (ex_intro _ _ A'))). }
  exists (nodup (list_eq_dec ascii_dec) (ns ++ ns')). split; [apply NoDup_nodup|]. intros m. rewrite nodup_In, in_app_iff, H, H'. unfold present. split.
  - intros [(i & P & Q)|(i & P & Q)]; exists i; tauto.
  - intros (i & [P|P] & Q); [left|right]; exists i; tauto.
Qed.
Lemma g_rows_once : NoDup (map fst rows).
Proof.
  unfold rows. clear -H_once. induction plain as [|kv l IH]; [constructor|]. cbn [map] in H_once. inversion H_once as [|? ? A B]; subst. cbn [filter]. destruct (part (snd kv)); [|now apply IH]. cbn [map]. constructor; [|now apply IH].
  intros I. apply A. apply List.in_map_iff in I. destruct I as (q & E & I). apply filter_In in I. rewrite <- E. apply List.in_map, I.
Qed.
Lemma g_row_is n e : In (n, e) rows -> exists i, present k r (places i) /\ grp i = true /\ n = key i /\ entry_right k r a (own i) e.
Proof.
  intros I. apply filter_In in I. destruct I as (I & H). cbn [snd] in H. apply Pt in H. destruct (H_row n e I) as (i & P & En & Ab & Er). exists i. split; [exact P|]. split; [now apply Ab|]. now split.
Qed.
Lemma g_row_there i v : present k r (places i) -> grp i = true -> measured k r (own_bytes (own i) ColTotal) v -> differs a v -> In (key i) (map fst rows).
Proof.
  intros P G M Df. pose proof (H_there i v P G M Df) as I. apply List.in_map_iff in I. destruct I as ((n & e) & E & I). cbn [fst] in E. subst n. apply List.in_map_iff. exists (key i, e). split; [reflexivity|]. apply filter_In. split; [exact I|].
  cbn [snd]. apply Pt. destruct (H_row _ _ I) as (j & Pj & Ej & Ab & _). apply Ab. now rewrite <- (H_grp i j P Pj Ej).
Qed.
Lemma g_figures c v w : listed k r a c -> measured k r (own_bytes grp c) v -> measured k r (own_bytes grp ColTotal) w ->
  (c = ColTotal -> snd v = zsumf (fun kv => snd (col_value (snd kv) c)) rows) /\
  (shows_all a -> v = (zsumf (fun kv => fst (col_value (snd kv) c)) rows, zsumf (fun kv => snd (col_value (snd kv) c)) rows)).
Proof.
  intros Li Mv Mw. destruct (keys_all _ w Mw) as (ns & No & Os).
  destruct (grp_measured ns c v Mv No) as (f & Mf & ->). { intros i P E. apply Os. exists i. tauto. }
  destruct (grp_measured ns ColTotal w Mw No) as (g & Mg & _). { intros i P E. apply Os. exists i. tauto. }
  assert (In_row : forall n e, In (n, e) rows -> In n ns /\ col_value e c = f n).
  { intros n e I. destruct (g_row_is n e I) as (i & P & G & En & Er). split; [apply Os; exists i; split; [exact P|]; split; [exact G|now symmetry]|].
    subst n. eapply measured_same; [|apply Mf]. apply (measured_own (own i)); [intros j Pj; symmetry; now apply within_own|]. apply (proj1 (row_value _ _ _ _ _ c Er)), Li. }
  assert (Fst : forall n e, In (n, e) rows -> In n ns /\ fst (col_value (snd (n, e)) c) = fst (f n)) by (intros n e I; destruct (In_row n e I) as (J & E); cbn [snd]; now rewrite E).
  assert (Snd : forall n e, In (n, e) rows -> In n ns /\ snd (col_value (snd (n, e)) c) = snd (f n)) by (intros n e I; destruct (In_row n e I) as (J & E); cbn [snd]; now rewrite E).
  assert (Own : forall h i, (forall m, measured k r (own_bytes (within m) ColTotal) (h m)) -> present k r (places i) -> grp i = true -> measured k r (own_bytes (own i) ColTotal) (h (key i))).
  { intros h i Mh P G. apply (measured_own (within (key i))); [now apply within_own|apply Mh]. }
  cbn [fst snd]. split.
  - intros ->. apply (zsumf_rows (fun o => snd (f o)) (fun kv => snd (col_value (snd kv) ColTotal)) ns rows No g_rows_once Snd).
    intros n Io Nk. apply Os in Io. destruct Io as (i & P & G & En). destruct (Z.eq_dec (snd (f n)) 0) as [E|E]; [exact E|]. exfalso. apply Nk. rewrite <- En.
    apply (g_row_there i (f n) P G); [rewrite <- En; now apply Own|]. intros _ _. exact E.
  - intros Sa. assert (Nk : forall (h : str -> Z) n, In n ns -> ~ In n (map fst rows) -> h n = 0).
    { intros h n Io Nk. exfalso. apply Nk. apply Os in Io. destruct Io as (i & P & G & <-). apply (g_row_there i (g (key i)) P G); [now apply Own|]. now apply all_differs. }
    f_equal; [apply (zsumf_rows (fun o => fst (f o)) (fun kv => fst (col_value (snd kv) c)) ns rows No g_rows_once Fst)|apply (zsumf_rows (fun o => snd (f o)) (fun kv => snd (col_value (snd kv) c)) ns rows No g_rows_once Snd)]; intros o; apply (Nk (fun o => _)).
Qed.
Lemma g_total n e : In (n, e) rows -> exists i w, present k r (places i) /\ grp i = true /\ measured k r (own_bytes grp ColTotal) w.
Proof.
  intros I. destruct (g_row_is n e I) as (i & P & G & _ & Er). exists i. destruct (er_size _ _ _ _ _ Er) as ((keep & K & _) & B).
  assert (A : exists w1, own_bytes grp ColTotal k w1) by (eexists; exists keep; split; [exact K|reflexivity]). destruct A as (w1 & A). destruct r as [k'|].
  - destruct B as (n' & (keep' & K' & _) & _). assert (A' : exists w2, own_bytes grp ColTotal k' w2) by (eexists; exists keep'; split; [exact K'|reflexivity]). destruct A' as (w2 & A').
    exists (w1, w1 - w2). split; [exact P|]. split; [exact G|]. split; [exact A|]. exists w2. now split.
  - exists (w1, 0). split; [exact P|]. split; [exact G|]. now split.
Qed.
Lemma grouped_rows : (forall e, In (y, e) unified -> se_diff e = zsumf (fun kv => se_diff (snd kv)) rows) /\
  (~ In y (map fst unified) -> zsumf (fun kv => se_diff (snd kv)) rows = 0) /\
  (shows_all a ->
     (forall e, In (y, e) unified -> (se_size e, se_diff e) = (zsumf (fun kv => se_size (snd kv)) rows, zsumf (fun kv => se_diff (snd kv)) rows)) /\
     (forall e T, In (y, e) unified -> col_value e (ColType T) =
        (zsumf (fun kv => fst (col_value (snd kv) (ColType T))) rows, zsumf (fun kv => snd (col_value (snd kv) (ColType T))) rows)) /\
     (In y (map fst unified) <-> rows <> [])).
Proof.
  split; [|split; [|intros Sa; split; [|split; [|split]]]].
  - intros e I. pose proof (U_size e I) as M. exact (proj1 (g_figures ColTotal _ _ Logic.I M M) eq_refl).
  - intros N. destruct rows as [|(n & e) l] eqn:E; [reflexivity|]. rewrite <- E. assert (I : In (n, e) rows) by (rewrite E; now left). destruct (g_total n e I) as (i & w & P & G & M).
    pose proof (proj1 (g_figures ColTotal _ _ Logic.I M M) eq_refl) as F. cbn [col_value snd] in F. rewrite <- F. destruct (Z.eq_dec (snd w) 0) as [Z0|Z0]; [exact Z0|]. exfalso. apply N, U_there. exists i, w. split; [exact P|]. split; [exact G|]. split; [exact M|]. intros _ _. exact Z0.
  - intros e I. pose proof (U_size e I) as M. exact (proj2 (g_figures ColTotal _ _ Logic.I M M) Sa).
  - intros e T I. pose proof (U_size e I) as M. cbn [col_value]. destruct (dget T (se_types e)) as [st|] eqn:E.
    + pose proof (dget_some _ _ _ E) as J. apply (proj2 (g_figures (ColType T) _ _ (proj1 (U_types e T I) (List.in_map fst _ _ J)) (U_type e T st I J) M) Sa).
    + assert (L : ~ listed k r a (ColType T)) by (intros L; apply (dget_none _ _ E), (U_types e T I), L).
      f_equal; symmetry; apply zsumf_zero; intros (n & e') J; destruct (g_row_is n e' J) as (i & _ & _ & _ & Er); pose proof (proj2 (row_value _ _ _ _ _ (ColType T) Er) L) as V; cbn [snd]; cbn [col_value] in V; now rewrite V.
  - intros I. apply U_there in I. destruct I as (i & v & P & G & M & _). destruct (keys_all _ v M) as (ns & No & Os). destruct (grp_measured ns ColTotal v M No) as (g & Mg & _). { intros j Pj Gj. apply Os. exists j. tauto. }
    assert (J : In (key i) (map fst rows)). { apply (g_row_there i (g (key i)) P G); [|now apply all_differs]. apply (measured_own (within (key i))); [now apply within_own|apply Mg]. }
    intros Z0. rewrite Z0 in J. destruct J.
  - intros Ne. destruct rows as [|(n & e) l] eqn:E; [congruence|]. assert (I : In (n, e) rows) by (rewrite E; now left). destruct (g_total n e I) as (i & w & P & G & M). apply U_there. exists i, w. split; [exact P|]. split; [exact G|]. split; [exact M|]. now apply all_differs.
Qed.
End Rows.
