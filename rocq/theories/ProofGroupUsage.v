(** * --unify adds up the sections of the summary *)
From Coq Require Import Ascii String List ZArith Lia Bool Permutation Sorted.
From Verif Require Import Base MemMap SpecTree SpecOps Filter SpecFilter Pipeline SpecPipe SpecBuild SpecBytes SpecShape SpecSyms PyStr MapFile SpecMap ProofBuild ProofBytes ProofBytes2 ProofBytes3
  ElfRead SpecElf Project SpecProject SpecEnd ProofEnd Chips SpecChips Deps Table SpecTable Formats Main SpecMain Command SpecCommand SpecFail SpecReport ProofCommand1 ProofCommand2 ProofReport2 ProofReport4 ProofReport5
  SpecAdds ProofAdds SpecSteps ProofSteps SpecCompare SpecMerge ProofMerge2 ProofMerge4 SpecGroup ProofGroup SpecCompareUsage ProofCompareUsage ProofCompareUsage2 SpecGroupUsage.
Import ListNotations.
Open Scope list_scope.
Open Scope Z_scope.

Lemma figures_at T q : exists ns os, figures T q ns os.
Proof. destruct (used_value T q) as (n & U). exact (figures_of _ _ _ U). Qed.
(** the sections of both projects, each with its bytes and their difference *)
Lemma section_values k r T : exists f : str -> Z * Z, (forall N v, measured k r (name_bytes T N) v <-> v = f N) /\
  forall B L w, NoDup L -> (forall N, In N L -> label [N] B) -> (forall N, label [N] B -> f N <> (0, 0) -> In N L) ->
    measured k r (label_bytes T B) w -> w = (zsumf (fun N => fst (f N)) L, zsumf (fun N => snd (f N)) L).
Proof.
  destruct (figures_at T k) as (ns & os & F). destruct r as [r|].
  - destruct (figures_at T r) as (ns' & os' & F'). exists (fun N => (ns (fun y => y =?= N), ns (fun y => y =?= N) - ns' (fun y => y =?= N))). split.
    + intros N v. split.
      * intros (M1 & y & M2 & E). apply (fg_name _ _ _ _ F) in M1. apply (fg_name _ _ _ _ F') in M2. destruct v; cbn [fst snd] in *. subst. reflexivity.
      * intros ->. split; [now apply (fg_name _ _ _ _ F)|]. eexists. split; [now apply (fg_name _ _ _ _ F')|reflexivity].
    + intros B L w D H1 H2 (M1 & y & M2 & E). apply (fg_label _ _ _ _ F) in M1. apply (fg_label _ _ _ _ F') in M2.
      assert (Lb : forall N, In N L -> (abbrev N =?= B) = true) by (intros N I; apply keq_iff, label_abbrev, H1, I).
      assert (Z0 : forall N, (abbrev N =?= B) = true -> ~ In N L -> ns (fun y => y =?= N) = 0 /\ ns' (fun y => y =?= N) = 0).
      { intros N Ln Ni. apply keq_iff, label_abbrev in Ln. destruct (Z.eq_dec (ns (fun y => y =?= N)) 0) as [E1|E1]; [|exfalso; apply Ni, (H2 N Ln); intros X; injection X as X1 X2; contradiction].
        split; [exact E1|]. destruct (Z.eq_dec (ns' (fun y => y =?= N)) 0) as [E2|E2]; [exact E2|]. exfalso; apply Ni, (H2 N Ln); intros X; injection X as X1 X2; lia. }
      rewrite (fg_names _ _ _ _ F (fun y => abbrev y =?= B) L D Lb (fun N A C => proj1 (Z0 N A C))) in M1. rewrite (fg_names _ _ _ _ F' (fun y => abbrev y =?= B) L D Lb (fun N A C => proj2 (Z0 N A C))) in M2.
      destruct w as (p, q). cbn [fst snd] in *. subst p y q. f_equal. clear. induction L as [|N L IH]; [reflexivity|]. rewrite !zsumf_cons. lia.
  - exists (fun N => (ns (fun y => y =?= N), 0)). split.
    + intros N v. split; [intros (M1 & M2); apply (fg_name _ _ _ _ F) in M1; destruct v; cbn [fst snd] in *; subst; reflexivity|intros ->; split; [now apply (fg_name _ _ _ _ F)|reflexivity]].
    + intros B L w D H1 H2 (M1 & M2). apply (fg_label _ _ _ _ F) in M1. destruct w as (p, q). cbn [fst snd] in *. subst q.
      rewrite (fg_names _ _ _ _ F (fun y => abbrev y =?= B) L D) in M1; [|intros N I; apply keq_iff, label_abbrev, H1, I|].
      * subst p. f_equal. clear. induction L as [|N L IH]; [reflexivity|]. rewrite zsumf_cons. lia.
      * intros N Ln Ni. apply keq_iff, label_abbrev in Ln. destruct (Z.eq_dec (ns (fun y => y =?= N)) 0) as [E1|E1]; [exact E1|exfalso; apply Ni, (H2 N Ln); intros X; injection X as X1; contradiction].
Qed.
Definition no_args : args := Args FTable false false false false None false None false false false false false false None None [] None false false.
Lemma value_listed u k r T N v : measured k r (sect_bytes u T N) v -> v <> (0, 0) -> present k r (sect_listed u T N).
Proof.
  intros (M1 & M2) Nz. destruct v as (x, z). cbn [fst snd] in *. destruct (Z.eq_dec x 0) as [->|X].
  - destruct r as [r|]; [|subst; now destruct Nz]. destruct M2 as (y & M2 & ->). right. apply (sect_nonzero no_args u T N r y M2). intros ->. now apply Nz.
  - left. apply (sect_nonzero no_args u T N k x M1 X).
Qed.
Lemma names_bounded k T : exists L, forall N, lists_section T N k -> In N L.
Proof. exists (map pr_name (ac_l k)). intros N (n & B & P). destruct (name_places T N k n B) as (o & b & Io & _ & <- & _); [lia|]. now apply List.in_map. Qed.
Lemma names_labelled k r T B : exists L, NoDup L /\ (forall N, In N L -> label [N] B) /\ forall N, label [N] B -> present k r (lists_section T N) -> In N L.
Proof.
  destruct (names_bounded k T) as (L1 & H1). assert (H2 : exists L2, forall k', r = Some k' -> forall N, lists_section T N k' -> In N L2).
  { destruct r as [r|]; [destruct (names_bounded r T) as (L2 & H2); exists L2; intros k' E; injection E as <-; exact H2|exists []; discriminate]. }
  destruct H2 as (L2 & H2). exists (filter (fun N => abbrev N =?= B) (nodup (list_eq_dec Ascii.ascii_dec) (L1 ++ L2))). split; [apply NoDup_filter, NoDup_nodup|]. split.
  - intros N I. apply filter_In in I. apply label_abbrev, keq_iff, I.
  - intros N L P. apply filter_In. split; [apply nodup_In, in_app_iff|apply keq_iff, label_abbrev, L]. destruct P as [P|P]; [left; now apply H1|right]. destruct r as [r|]; [|contradiction]. now apply (H2 r).
Qed.
Lemma label_measured u k r T B : exists w, measured k r (sect_bytes u T B) w.
Proof.
  destruct (sect_value u T B k) as (x & X). destruct r as [r|]; [destruct (sect_value u T B r) as (y & Y); exists (x, x - y); split; [exact X|now exists y]|exists (x, 0); now split].
Qed.

Section Grouped.
Variables (k : account) (r : option account) (a : args) (T B : str) (part : str -> bool) (secs us : list (str * (Z * Z))).
Hypothesis Once : NoDup (map fst secs).
Hypothesis Sg : forall N v, In (N, v) secs <-> present k r (lists_section T N) /\ measured k r (name_bytes T N) v /\ differs a v.
Hypothesis Sh : forall C v, In (C, v) us <-> present k r (lists_label T C) /\ measured k r (label_bytes T C) v /\ differs a v.
Hypothesis Pa : forall N, part N = true <-> label [N] B.
Let rows := filter (fun s => part (fst s)) secs.
Lemma rows_once : NoDup (map fst rows).
Proof.
  unfold rows. clear Sg. induction secs as [|s l IH]; [constructor|]. cbn [map] in Once. inversion Once as [|? ? A C]; subst. cbn [filter]. destruct (part (fst s)); [|now apply IH]. cbn [map]. constructor; [|now apply IH].
  intros I. apply A. apply List.in_map_iff in I. destruct I as (q & E & I). apply filter_In in I. rewrite <- E. apply List.in_map, I.
Qed.
Lemma rows_sums w : measured k r (label_bytes T B) w -> snd w = zsumf (fun s => snd (snd s)) rows /\ (shows_all a -> fst w = zsumf (fun s => fst (snd s)) rows).
Proof.
  intros M. destruct (section_values k r T) as (f & Fv & Fs). destruct (names_labelled k r T B) as (L & D & L1 & L2).
  rewrite (Fs B L w D L1 (fun N A Nz => L2 N A (value_listed false k r T N (f N) (proj2 (Fv N (f N)) eq_refl) Nz)) M). cbn [fst snd].
  assert (Row : forall n e, In (n, e) rows -> In n L /\ e = f n).
  { intros n e I. apply filter_In in I. destruct I as (I & P). cbn [fst] in P. apply Pa in P. apply Sg in I. destruct I as (Q & Me & _). split; [now apply L2|now apply Fv]. }
  assert (Out : forall n, In n L -> ~ In n (map fst rows) -> f n <> (0, 0) -> ~ differs a (f n)).
  { intros n I Ni Nz Df. apply Ni. apply (List.in_map fst _ (n, f n)). apply filter_In. split; [|now apply Pa, L1]. pose proof (proj2 (Fv n (f n)) eq_refl) as Mn. apply Sg. split; [exact (value_listed false k r T n (f n) Mn Nz)|now split]. }
  split.
  - apply zsumf_rows; [exact D|exact rows_once|intros n e I; destruct (Row n e I) as (A & ->); now split|]. intros n I Ni. destruct (Z.eq_dec (snd (f n)) 0) as [E|E]; [exact E|]. exfalso.
    apply (Out n I Ni); [intros X; rewrite X in E; now apply E|]. intros _ _. exact E.
  - intros Sa. apply zsumf_rows; [exact D|exact rows_once|intros n e I; destruct (Row n e I) as (A & ->); now split|]. intros n I Ni. destruct (Z.eq_dec (fst (f n)) 0) as [E|E]; [exact E|]. exfalso.
    apply (Out n I Ni); [intros X; rewrite X in E; now apply E|]. now apply all_differs.
Qed.
Lemma sections_grouped : (forall v, In (B, v) us -> snd v = zsumf (fun s => snd (snd s)) rows) /\
  (~ In B (map fst us) -> zsumf (fun s => snd (snd s)) rows = 0) /\
  (shows_all a -> (forall v, In (B, v) us -> fst v = zsumf (fun s => fst (snd s)) rows) /\ (In B (map fst us) <-> rows <> [])).
Proof.
  split; [intros v I; apply Sh in I; apply rows_sums, I|]. split.
  - intros Ni. destruct (label_measured true k r T B) as (w & M). cbn in M. rewrite <- (proj1 (rows_sums w M)). destruct (Z.eq_dec (snd w) 0) as [E|E]; [exact E|]. exfalso. apply Ni. apply (List.in_map fst _ (B, w)), Sh.
    split; [apply (value_listed true k r T B w M); intros X; rewrite X in E; now apply E|]. split; [exact M|]. intros _ _. exact E.
  - intros Sa. split; [intros v I; apply Sh in I; apply (rows_sums v); [apply I|exact Sa]|]. split.
    + intros I. apply List.in_map_iff in I. destruct I as ((C & v) & E & I). cbn [fst] in E. subst C. apply Sh in I. destruct I as (P & _).
      assert (exists N, label [N] B /\ present k r (lists_section T N)) as (N & L & Q) by (destruct P as [(N & L & Q)|P]; [exists N; split; [exact L|now left]|destruct r; [destruct P as (N & L & Q); exists N; split; [exact L|now right]|contradiction]]).
      destruct (label_measured false k r T N) as (w & M). assert (J : In (N, w) rows) by (apply filter_In; split; [apply Sg; split; [exact Q|split; [exact M|now apply all_differs]]|now apply Pa]). intros X. rewrite X in J. destruct J.
    + intros Ne. destruct rows as [|(N & v) l] eqn:Er; [contradiction|]. assert (J : In (N, v) rows) by (rewrite Er; now left). apply filter_In in J. destruct J as (J & P). cbn [fst] in P. apply Pa in P. apply Sg in J. destruct J as (Q & _).
      destruct (label_measured true k r T B) as (w & M). apply (List.in_map fst _ (B, w)), Sh. split; [|split; [exact M|now apply all_differs]]. destruct Q as [Q|Q]; [left; now exists N|right]. destruct r; [now exists N|contradiction].
Qed.
End Grouped.

Lemma usage_grouped k r a b plain unified : (forall T q, lists_type a T q <-> lists_type b T q) -> (forall v, differs a v <-> differs b v) ->
  groups_right false k r a plain -> groups_right true k r b unified -> grouped_usage a plain unified.
Proof.
  intros Lt Df R R'. split.
  { intros T. destruct R as (_ & -> & _), R' as (_ & -> & _). assert (P : present k r (lists_type a T) <-> present k r (lists_type b T)) by (unfold present; destruct r; rewrite !Lt; reflexivity). rewrite P.
    split; intros (Q & v & M & D); (split; [exact Q|]); exists v; (split; [exact M|]); now apply Df. }
  intros g h Ig Ih E. destruct (group_is _ _ _ _ _ R g Ig) as (Ug & Dg & Sg). destruct (group_is _ _ _ _ _ R' h Ih) as (Uh & Dh & Sh). rewrite <- E in Uh, Sh. split.
  { destruct Ug as (A1 & A2), Uh as (B1 & B2). destruct (pg_used g) as (p, q), (pg_used h) as (p', q'). cbn [fst snd] in *. rewrite (used_unique _ k _ _ A1 B1) in *. f_equal. destruct r as [r|]; [|congruence].
    destruct A2 as (y & A2 & ->), B2 as (y' & B2 & ->). now rewrite (used_unique _ r _ _ A2 B2). }
  intros B part Pa. apply (sections_grouped k r a (pg_type g) B part (pg_sections g) (pg_sections h) Dg Sg); [|exact Pa].
  intros C v. rewrite (Sh C v), Df. reflexivity.
Qed.
Lemma summaries_grouped d c render encode ord pf : of_types (c_args c) -> a_format (c_args c) = FTable \/ a_format (c_args c) = FText \/ a_format (c_args c) = FCsv ->
  forall k r o o' fs fs' s s', summarised d c k r ->
  run_files d (get_memory_types chip_info) render encode ord pf (unify_on false c) o (start fs) = (Done tt, s) ->
  run_files d (get_memory_types chip_info) render encode ord pf (unify_on true c) o' (start fs') = (Done tt, s') ->
  exists plain unified, shows_usage (c_args (unify_on false c)) s plain /\ shows_usage (c_args (unify_on true c)) s' unified /\ grouped_usage (c_args c) plain unified.
Proof.
  intros Ty Fo k r o o' fs fs' s s' Su R1 R2.
  destruct (usage_shown d (unify_on false c) k r o fs s render encode ord pf) as (gs & N1 & N2); [exact Su|exact Ty|exact Fo|exact R1|].
  destruct (usage_shown d (unify_on true c) k r o' fs' s' render encode ord pf) as (us & O1 & O2); [exact Su|exact Ty|exact Fo|exact R2|].
  exists gs, us. do 2 (split; [assumption|]). exact (usage_grouped k r (c_args (unify_on false c)) (c_args (unify_on true c)) gs us (fun T q => conj (fun H => H) (fun H => H)) (fun v => conj (fun H => H) (fun H => H)) N2 O2).
Qed.
