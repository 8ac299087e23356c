From Coq Require Import Ascii String List ZArith Lia Bool Permutation Sorted.
From Verif Require Import Base MemMap SpecTree SpecOps Filter Pipeline SpecPipe SpecBuild SpecBytes SpecShape ProofOps ProofTrim ProofDiff ProofUnify ProofUnifyDiff ProofSummary ProofSummary2 ProofSummary3 Fixtures PyStr MapFile SpecMap
  ElfRead SpecElf Project SpecProject SpecEnd Chips SpecChips ProofChips ProofShape Deps Table SpecTable Formats Main SpecMain ProofMain ProofMain4 Command SpecCommand SpecFail SpecReport SpecMerge SpecMergeFiles
  ProofBytes ProofCommand1 ProofCommand2 ProofCommand3 ProofCommand4 ProofReport1 ProofReport2 ProofReport3 ProofReport5 ProofMerge1 ProofMerge2 ProofMerge3 ProofMergeFiles1 ProofMergeFiles2
  SpecSyms SpecSymbols ProofSymbols3 ProofSymbols4 SpecMergeSyms ProofMergeSyms1.
Import ListNotations.
Open Scope list_scope.
Open Scope Z_scope.

Section Symbols.
Variables (a : args) (q : account) (r : option account) (M : memmap) (fo : (item -> bool) -> str -> str -> Z * Z).
Hypothesis F : sfinal a q r M fo.
Let W : wf_map M := sf_wf _ _ _ _ _ F.
Let names_of := names_of M.
Let labelled := labelled M.
Definition named_value (X Y T B : str) : Z * Z := psum (fo (own_named X Y) T) (labelled T B).

Lemma n_names_once T : NoDup (names_of T).
Proof. exact (snodup_sections _ _ _ _ _ F T). Qed.
Lemma n_names_present T N : present q r (lists_section T N) <-> In N (names_of T).
Proof. exact (ssections_present _ _ _ _ _ F T N). Qed.
Lemma n_labelled_once T B : NoDup (labelled T B).
Proof. apply NoDup_filter, n_names_once. Qed.
Lemma n_labelled_in T B N : In N (labelled T B) <-> In N (names_of T) /\ abbrev N = B.
Proof. unfold labelled, ProofMerge3.labelled. now rewrite filter_In, keq_iff. Qed.
Lemma n_own_unlisted own T N : ~ In N (names_of T) -> fo own T N = (0, 0).
Proof.
  intros Ni. assert (C : forall n, present q r (lists_section T n) -> In n (names_of T)) by (intros n; apply n_names_present).
  pose proof (sf_type_is _ _ _ _ _ F own T (names_of T) (n_names_once T) C) as H1.
  assert (D : NoDup (N :: names_of T)) by (constructor; [exact Ni|apply n_names_once]).
  pose proof (sf_type_is _ _ _ _ _ F own T (N :: names_of T) D (fun n P => or_intror (C n P))) as H2.
  pose proof (proj1 (H2 _) (proj2 (H1 _) eq_refl)) as E. unfold psum in E. rewrite !zsumf_cons in E. injection E as E1 E2. destruct (fo own T N) as [u v]. cbn [fst snd] in E1, E2. f_equal; lia.
Qed.
Lemma both_sfigures T : exists ns os ns' os', sfigures T q ns os /\ forall q', r = Some q' -> sfigures T q' ns' os'.
Proof.
  pose proof (proj2 (sf_type_is _ _ _ _ _ F (fun _ => true) T (names_of T) (n_names_once T) (fun n => proj1 (n_names_present T n)) _) eq_refl) as (H1 & H2). destruct (sfigures_of _ _ _ _ H1) as (ns & os & H). clear H1. destruct r as [q'|].
  - destruct H2 as (n & H2 & _). destruct (sfigures_of _ _ _ _ H2) as (ns' & os' & H'). exists ns, os, ns', os'. split; [exact H|]. intros q0 E. injection E as <-. exact H'.
  - exists ns, os, ns, os. split; [exact H|discriminate].
Qed.
Lemma n_own_pair T ns os ns' os' : figures T q ns os -> (forall k', r = Some k' -> figures T k' ns' os') ->
  forall own N, fo own T N = pair r (os own (fun y => y =?= N)) (os' own (fun y => y =?= N)).
Proof.
  intros G G' own N. symmetry. apply (sf_sect_is _ _ _ _ _ F own T N). apply (measured_pair q r (own_bytes own (ColSect T N)) _ _ (fg_own _ _ _ _ G own N) (fun k' E => fg_own _ _ _ _ (G' k' E) own N)). reflexivity.
Qed.
Lemma named_is X Y T B v : measured q r (named_bytes X Y (ColSect T B)) v <-> v = named_value X Y T B.
Proof.
  destruct (both_sfigures T) as (ns & os & ns' & os' & G & G').
  pose proof (n_own_pair T ns os ns' os' (sg_all _ _ _ _ G) (fun k' E => sg_all _ _ _ _ (G' k' E)) (own_named X Y)) as Fo.
  rewrite (measured_pair q r (named_bytes X Y (ColSect T B)) _ _ (sg_named _ _ _ _ G X Y B) (fun k' E => sg_named _ _ _ _ (G' k' E) X Y B)).
  assert (E : pair r (os (own_named X Y) (fun y => abbrev y =?= B)) (os' (own_named X Y) (fun y => abbrev y =?= B)) = named_value X Y T B); [|now rewrite E].
  assert (Z0 : forall x, (abbrev x =?= B) = true -> ~ In x (labelled T B) -> fo (own_named X Y) T x = (0, 0)).
  { intros x Px Nx. apply n_own_unlisted. intros I. apply Nx. apply n_labelled_in. split; [exact I|now apply keq_iff]. }
  unfold named_value. rewrite (psum_ext _ _ _ (fun N _ => Fo N)), <- pair_sum. apply pair_ext.
  - apply (fg_owns _ _ _ _ (sg_all _ _ _ _ G)); [apply n_labelled_once|intros x Ix; apply n_labelled_in in Ix; apply keq_iff, Ix|].
    intros x Px Nx. specialize (Z0 x Px Nx). rewrite Fo in Z0. apply pair_zero in Z0. apply Z0.
  - intros Nr. assert (G2 : exists k', sfigures T k' ns' os') by (destruct r as [k'|]; [exists k'; now apply G'|congruence]). destruct G2 as (k' & G2).
    apply (fg_owns _ _ _ _ (sg_all _ _ _ _ G2)); [apply n_labelled_once|intros x Ix; apply n_labelled_in in Ix; apply keq_iff, Ix|].
    intros x Px Nx. specialize (Z0 x Px Nx). rewrite Fo in Z0. apply pair_zero in Z0. now apply Z0.
Qed.
(** the symbols of a section by name *)
Definition sym_path (N : str) (z : str * str * str) : list str := [N; fst (fst z); snd (fst z); snd z].
Lemma symbols_named T N X Y L : NoDup L -> (forall z, In z L -> basename (fst (fst z)) = X /\ snd z = Y) ->
  (forall z, basename (fst (fst z)) = X -> snd z = Y -> ~ In z L -> look M T (sym_path N z) = None) ->
  fo (own_named X Y) T N = psum (fun z => (esize (look M T (sym_path N z)), ediff (look M T (sym_path N z)))) L.
Proof.
  intros D HL Hz. destruct (both_sfigures T) as (ns & os & ns' & os' & G & G').
  pose proof (n_own_pair T ns os ns' os' (sg_all _ _ _ _ G) (fun k' E => sg_all _ _ _ _ (G' k' E))) as Fo.
  assert (Sv : forall z, (esize (look M T (sym_path N z)), ediff (look M T (sym_path N z))) = fo (of_symbol (sym_at z)) T N) by (intros z; apply (sf_symbol _ _ _ _ _ F T N (sym_at z))).
  assert (Z0 : forall z, basename (fst (fst z)) = X -> snd z = Y -> ~ In z L -> fo (of_symbol (sym_at z)) T N = (0, 0)).
  { intros z P1 P2 Nx. rewrite <- Sv, (Hz z P1 P2 Nx). reflexivity. }
  rewrite (psum_ext _ _ _ (fun z _ => eq_trans (Sv z) (Fo (of_symbol (sym_at z)) N))), <- pair_sum, Fo. apply pair_ext.
  - apply (sg_symbols _ _ _ _ G); [exact D|exact HL|]. intros z P1 P2 Nx. specialize (Z0 z P1 P2 Nx). rewrite Fo in Z0. apply pair_zero in Z0. apply Z0.
  - intros Nr. assert (G2 : exists k', sfigures T k' ns' os') by (destruct r as [k'|]; [exists k'; now apply G'|congruence]). destruct G2 as (k' & G2).
    apply (sg_symbols _ _ _ _ G2); [exact D|exact HL|]. intros z P1 P2 Nx. specialize (Z0 z P1 P2 Nx). rewrite Fo in Z0. apply pair_zero in Z0. now apply Z0.
Qed.

(** ** abbreviated paths *)
Lemma label_of T p e : look M T p = Some e -> match p with
  | [N] => e_abbrev e = abbrev N | [_; x] => e_abbrev e = basename x | [_; _; o] => e_abbrev e = basename o | [_; _; _; y] => e_abbrev e = y | _ => False end.
Proof.
  intros L. apply (sf_label _ _ _ _ _ F) in L. destruct p as [|N [|x [|o [|y [|w p]]]]]; try exact L.
  - apply label_abbrev in L. now symmetry.
  - cbn [label] in L. eapply after_last_unique; [exact L|apply basename_after].
  - cbn [label] in L. eapply after_last_unique; [exact L|apply basename_after].
Qed.
Lemma abbreviated T t : dget T (m_types M) = Some t -> aents_type t = map (relabel lab1) (ents_type t).
Proof.
  intros Et. assert (Wt : wf_type t) by (eapply wf_map_type; eassumption). unfold aents_type, ents_type. apply aents_dict. intros N s Is.
  assert (Es : dget N (t_sections t) = Some s) by (apply In_dget; [apply Wt|exact Is]). assert (Ws : wf_sect s) by (eapply wf_sub_get; [apply Wt|exact Es]).
  apply (aents_node_lab ents_arch aents_arch lab2).
  { assert (L : look M T [N] = Some (entry_of_node s)) by (unfold look; rewrite Et; cbn [look_dict]; rewrite Es; reflexivity). exact (label_of _ _ _ L). }
  { reflexivity. }
  apply aents_dict. intros x ar Ia. assert (Ea : dget x (n_sub s) = Some ar) by (apply In_dget; [apply Ws|exact Ia]). assert (Wa : wf_arch ar) by (eapply wf_sub_get; [apply Ws|exact Ea]).
  apply (aents_node_lab ents_obj aents_obj lab3).
  { assert (L : look M T [N; x] = Some (entry_of_node ar)) by (unfold look; rewrite Et; cbn [look_dict]; rewrite Es; cbn; rewrite Ea; reflexivity). exact (label_of _ _ _ L). }
  { reflexivity. }
  apply aents_dict. intros o ob Io. assert (Eo : dget o (n_sub ar) = Some ob) by (apply In_dget; [apply Wa|exact Io]). assert (Wo : wf_obj ob) by (eapply wf_sub_get; [apply Wa|exact Eo]).
  apply (aents_node_lab ents_sym aents_sym (fun p => p)).
  { assert (L : look M T [N; x; o] = Some (entry_of_node ob)) by (unfold look; rewrite Et; cbn [look_dict]; rewrite Es; cbn; rewrite Ea; cbn; rewrite Eo; reflexivity). exact (label_of _ _ _ L). }
  { reflexivity. }
  apply aents_dict. intros y sy Iy. assert (Ey : dget y (n_sub ob) = Some sy) by (apply In_dget; [apply Wo|exact Iy]).
  assert (L : look M T [N; x; o; y] = Some (entry_of_sym sy)) by (unfold look; rewrite Et; cbn [look_dict]; rewrite Es; cbn; rewrite Ea; cbn; rewrite Eo; cbn; rewrite Ey; reflexivity).
  pose proof (label_of _ _ _ L) as Ab. cbn [entry_of_sym e_abbrev] in Ab. unfold aents_sym, ents_sym. cbn [map fst snd]. now rewrite Ab.
Qed.

(** ** the unified map *)
Let U := unify M.
Let WU : wf_map U := wf_unify M W.
Lemma n_look T p : look U T p <> None <-> exists p0, look M T p0 <> None /\ lab1 p0 = p.
Proof.
  unfold U. destruct (dget T (m_types M)) as [t|] eqn:Et.
  - rewrite (look_u M T t p Et), (abbreviated T t Et), map_map. split.
    + intros I. apply List.in_map_iff in I. destruct I as ([p0 e] & E & I). exists p0. split; [|exact E]. rewrite (ents_look M T t p0 e W Et I). discriminate.
    + intros (p0 & L & E). destruct (look M T p0) as [e|] eqn:Le; [|congruence]. apply look_ents in Le. destruct Le as (t2 & I2 & I3). assert (t2 = t) as -> by (apply In_dget in I2; [congruence|apply W]).
      apply List.in_map_iff. exists (p0, e). split; [exact E|exact I3].
  - unfold look. destruct (unify_totals M T) as (H & _). rewrite Et in H. destruct (dget T (m_types (unify M))); [discriminate|]. rewrite Et. split; [intros X; congruence|intros (p0 & X & _); congruence].
Qed.
Lemma path_len T p : look M T p <> None -> exists N, p = [N] \/ (exists x, p = [N; x]) \/ (exists x o, p = [N; x; o]) \/ exists x o y, p = [N; x; o; y].
Proof.
  intros L. destruct (look M T p) as [e|] eqn:E; [|congruence]. apply label_of in E. destruct p as [|N [|x [|o [|y [|w p]]]]]; try contradiction; exists N; [left; reflexivity|right; left; eauto|right; right; left; eauto|right; right; right; eauto].
Qed.
Lemma n_ends T B e : look U T [B] = Some e -> e_abbrev e = B.
Proof. intros E. pose proof (unify_look M T [B]) as H. fold U in H. rewrite E in H. destruct H as (_ & _ & _ & p & Q). destruct p as [|? [|? p]]; try discriminate Q. now injection Q. Qed.
Lemma n_ends2 T B X e : look U T [B; X] = Some e -> e_abbrev e = X.
Proof. intros E. pose proof (unify_look M T [B; X]) as H. fold U in H. rewrite E in H. destruct H as (_ & _ & _ & p & Q). destruct p as [|? [|? [|? p]]]; try discriminate Q. now injection Q. Qed.
Lemma n_ends4 T B X O Y e : look U T [B; X; O; Y] = Some e -> e_abbrev e = Y.
Proof. intros E. pose proof (unify_look M T [B; X; O; Y]) as H. fold U in H. rewrite E in H. destruct H as (_ & _ & _ & p & Q). destruct p as [|? [|? [|? [|? [|? p]]]]]; try discriminate Q. now injection Q. Qed.
Lemma n_listed T : dget T (m_types U) <> None <-> present q r (lists_type a T).
Proof. rewrite <- (sf_listed _ _ _ _ _ F). destruct (unify_totals M T) as (H & _). fold U in H. destruct (dget T (m_types U)), (dget T (m_types M)); try discriminate; split; congruence. Qed.
Lemma n_section T B : look U T [B] <> None <-> present q r (lists_label T B).
Proof.
  rewrite n_look. split.
  - intros (p & L & E). destruct (path_len T p L) as (N & [->|[(x & ->)|[(x & o & ->)|(x & o & y & ->)]]]); try discriminate E. cbn in E. injection E as E. apply (sf_section _ _ _ _ _ F) in L.
    destruct L as [L|L]; [left; exists N; split; [now apply label_abbrev|exact L]|]. right. destruct r as [k'|]; [|exact L]. exists N. split; [now apply label_abbrev|exact L].
  - intros [(N & Lb & L)|L].
    + exists [N]. apply label_abbrev in Lb. split; [|cbn; now rewrite Lb]. apply (sf_section _ _ _ _ _ F). now left.
    + assert (X : exists k', r = Some k') by (destruct r as [k'|]; [eauto|contradiction]). destruct X as (k' & Er). rewrite Er in L. destruct L as (N & Lb & L). exists [N]. apply label_abbrev in Lb. split; [|cbn; now rewrite Lb]. apply (sf_section _ _ _ _ _ F). right. now rewrite Er.
Qed.
Lemma n_symbol T B X O Y : look U T [B; X; O; Y] <> None <-> exists N x o, abbrev N = B /\ basename x = X /\ basename o = O /\ look M T [N; x; o; Y] <> None.
Proof.
  rewrite n_look. split.
  - intros (p & L & E). destruct (path_len T p L) as (N & [->|[(x & ->)|[(x & o & ->)|(x & o & y & ->)]]]); try discriminate E. cbn in E. injection E as E1 E2 E3 E4. subst y. exists N, x, o. auto.
  - intros (N & x & o & E1 & E2 & E3 & L). exists [N; x; o; Y]. split; [exact L|]. cbn. congruence.
Qed.
Lemma n_present T B X O Y : look U T [B; X; O; Y] <> None -> exists i, present q r (places i) /\ named X Y i /\ file_name i O.
Proof.
  intros L. apply n_symbol in L. destruct L as (N & x & o & _ & Ex & Eo & L). destruct (proj1 (sf_places _ _ _ _ _ F x o Y) (ex_intro _ T (ex_intro _ N L))) as (i & P & E1 & E2 & E3).
  exists i. split; [exact P|]. split; [split; [apply base_basename; congruence|exact E3]|apply file_basename; congruence].
Qed.
Lemma n_there X Y i : present q r (places i) -> named X Y i -> exists T B, look U T [B; X; basename (it_object i); Y] <> None.
Proof.
  intros P (Bn & En). apply base_basename in Bn. destruct (proj2 (sf_places _ _ _ _ _ F (it_archive i) (it_object i) (it_name i))) as (T & N & L); [exists i; auto|].
  exists T, (abbrev N). apply n_symbol. exists N, (it_archive i), (it_object i). rewrite <- En. auto.
Qed.

(** ** sums over the map *)
Definition q4 (PB : str -> bool) (X Y : str) (p : list str) : bool := match p with [B; x; _; y] => PB B && ((x =?= X) && (y =?= Y)) | _ => false end.
Definition hits (X Y : str) (t : mtype) := filter (fun pe : list str * SpecTree.entry => match fst pe with [_; x; _; y] => (basename x =?= X) && (y =?= Y) | _ => false end) (ents_type t).
Definition key_of (p : list str) : str * str * str := match p with [_; x; o; y] => (x, o, y) | _ => ([], [], []) end.
Lemma hits_in X Y t p e : In (p, e) (hits X Y t) <-> In (p, e) (ents_type t) /\ exists N x o, p = [N; x; o; Y] /\ basename x = X.
Proof.
  unfold hits. rewrite filter_In. cbn [fst]. split; intros (I & H); (split; [exact I|]).
  - destruct p as [|N [|x [|o [|y [|w p]]]]]; try discriminate H. apply andb_true_iff in H. destruct H as (H1 & H2). apply keq_true in H1, H2. subst y. exists N, x, o. auto.
  - destruct H as (N & x & o & -> & E). now rewrite E, !keq_refl.
Qed.
Lemma section_hits T t N X Y : dget T (m_types M) = Some t ->
  fo (own_named X Y) T N = psum (fun pe => (e_size (snd pe), e_diff (snd pe))) (filter (fun pe => hd [] (fst pe) =?= N) (hits X Y t)).
Proof.
  intros Et. set (l := filter (fun pe : list str * SpecTree.entry => hd [] (fst pe) =?= N) (hits X Y t)).
  assert (Il : forall p e, In (p, e) l <-> look M T p = Some e /\ exists x o, p = [N; x; o; Y] /\ basename x = X).
  { intros p e. unfold l. rewrite filter_In, hits_in. cbn [fst]. split.
    - intros ((I & N0 & x & o & -> & E) & H). cbn [hd] in H. apply keq_true in H. subst N0. split; [apply (ents_look M T t _ e W Et I)|eauto].
    - intros (L & x & o & -> & E). apply look_ents in L. destruct L as (t2 & I2 & I3). assert (t2 = t) as -> by (apply In_dget in I2; [congruence|apply W]). split; [|apply keq_refl]. split; [exact I3|]. exists N, x, o. auto. }
  rewrite (symbols_named T N X Y (map (fun pe => key_of (fst pe)) l)).
  - unfold psum. rewrite !zsumf_map. f_equal; apply zsumf_ext; intros [p e] I; apply Il in I; destruct I as (L & x & o & -> & _); cbn [fst snd key_of sym_path]; unfold sym_path; cbn [fst snd]; rewrite L; reflexivity.
  - assert (D : NoDup (map fst l)) by (unfold l, hits; apply NoDup_map_filter, NoDup_map_filter, nodup_ents_type; exact (wf_map_type _ _ _ W Et)).
    assert (H : forall l0, incl l0 l -> NoDup (map fst l0) -> NoDup (map (fun pe => key_of (fst pe)) l0)); [|apply H; [apply incl_refl|exact D]].
    induction l0 as [|[p e] l0 IH]; intros I D0; [constructor|]. cbn [map fst] in *. inversion D0 as [|? ? N0 D1]; subst. constructor; [|apply IH; [intros z Z; apply I; now right|exact D1]].
    intros J. apply N0. apply List.in_map_iff in J. destruct J as ([p' e'] & E & J). cbn [fst] in E. assert (I1 := I _ (or_introl eq_refl)). assert (I2 := I _ (or_intror J)). apply Il in I1, I2. destruct I1 as (_ & x & o & -> & _), I2 as (_ & x' & o' & -> & _).
    cbn in E. injection E as -> ->. apply List.in_map_iff. exists ([N; x; o; Y], e'). auto.
  - intros z I. apply List.in_map_iff in I. destruct I as ([p e] & <- & I). apply Il in I. destruct I as (_ & x & o & -> & E). cbn. auto.
  - intros [[x o] y] E1 E2 Ni. cbn [fst snd] in E1, E2. subst y. unfold sym_path. cbn [fst snd]. destruct (look M T [N; x; o; Y]) as [e|] eqn:L; [|reflexivity]. exfalso. apply Ni. apply List.in_map_iff. exists ([N; x; o; Y], e). split; [reflexivity|]. apply Il. split; [exact L|eauto].
Qed.
Lemma named_sums T t PB X Y : dget T (m_types M) = Some t ->
  (zsumf e_size (apick (q4 PB X Y) (aents_type t)), zsumf e_diff (apick (q4 PB X Y) (aents_type t))) = psum (fo (own_named X Y) T) (filter (fun N => PB (abbrev N)) (names_of T)).
Proof.
  intros Et. assert (E : apick (q4 PB X Y) (aents_type t) = map snd (filter (fun pe => PB (abbrev (hd [] (fst pe)))) (hits X Y t))).
  { rewrite (abbreviated T t Et). unfold apick, hits. induction (ents_type t) as [|[p e] l IH]; [reflexivity|]. cbn [map filter relabel fst snd].
    assert (Q : q4 PB X Y (lab1 p) = match p with [N; x; o; y] => PB (abbrev N) && ((basename x =?= X) && (y =?= Y)) | _ => false end) by (destruct p as [|N [|x [|o [|y [|w p]]]]]; reflexivity).
    change (fst (relabel lab1 (p, e))) with (lab1 p). rewrite Q. destruct p as [|N [|x [|o [|y [|w p]]]]]; try exact IH. destruct ((basename x =?= X) && (y =?= Y)); cbn [filter fst hd].
    - rewrite andb_true_r. destruct (PB (abbrev N)); cbn [map snd relabel]; [f_equal; exact IH|exact IH].
    - rewrite andb_false_r. exact IH. }
  rewrite E. clear E. unfold psum. rewrite !zsumf_map.
  assert (G : forall h : list str * SpecTree.entry -> Z, zsumf h (filter (fun pe => PB (abbrev (hd [] (fst pe)))) (hits X Y t)) =
    zsumf (fun N => zsumf h (filter (fun pe => hd [] (fst pe) =?= N) (hits X Y t))) (filter (fun N => PB (abbrev N)) (names_of T))).
  { intros h. apply (zsum_keys (fun pe : list str * SpecTree.entry => hd [] (fst pe)) h (fun N => PB (abbrev N))).
    - apply NoDup_filter, n_names_once.
    - intros N I. apply filter_In in I. apply I.
    - intros [p e] I P0 Ni. exfalso. apply Ni. apply hits_in in I. destruct I as (I & N & x & o & -> & _). cbn [fst hd] in *. apply filter_In. split; [|exact P0]. apply n_names_present, (sf_section _ _ _ _ _ F).
      apply (ents_look M T t _ e W Et) in I. unfold look in *. rewrite Et in *. cbn [look_dict] in *. destruct (dget N (t_sections t)); [discriminate|discriminate I]. }
  rewrite !G. f_equal; apply zsumf_ext; intros N _; rewrite (section_hits T t N X Y Et); reflexivity.
Qed.
(** all symbols with a name *)
Lemma n_row_sums T X Y : (zsumf e_size (sym_row U true X T Y), zsumf e_diff (sym_row U true X T Y)) = psum (fo (own_named X Y) T) (names_of T).
Proof.
  unfold sym_row. destruct (dget T (m_types U)) as [t'|] eqn:Eu.
  - destruct (u_types M T t' Eu) as (t & Et).
    set (P := fun pe : list str * SpecTree.entry => match fst pe with [s; x; o; y] => match look U T [s; x] with Some b => (e_abbrev b =?= X) && ((if true then e_abbrev (snd pe) else x ++ list_ascii_of_string ":" ++ o ++ list_ascii_of_string ":" ++ y) =?= Y) | None => false end | _ => false end).
    assert (Lk : forall p e, In (p, e) (ents_type t') -> look U T p = Some e) by (intros p e; apply (ents_look U T t' p e WU Eu)).
    transitivity (psum (fun p => (esize (look U T p), ediff (look U T p))) (map fst (filter P (ents_type t')))).
    + unfold psum. rewrite !zsumf_map. cbn [fst snd]. f_equal; apply zsumf_ext; intros [p e] I; apply filter_In in I; destruct I as (I & _); cbn [fst snd]; rewrite (Lk p e I); reflexivity.
    + unfold U. rewrite <- (apick_keys M T t (q4 (fun _ => true) X Y) _ Et).
      * rewrite (named_sums T t (fun _ => true) X Y Et). now rewrite filter_true.
      * apply NoDup_map_filter. apply nodup_ents_type. eapply wf_map_type; eassumption.
      * intros p I. apply List.in_map_iff in I. destruct I as ((p0 & e) & E & I). cbn [fst] in E. subst p0. apply filter_In in I. destruct I as (I & Hp). apply Lk in I. unfold P in Hp. cbn [fst snd] in Hp. destruct p as [|b [|x [|o [|y [|w p]]]]]; try discriminate Hp.
        destruct (look U T [b; x]) as [e2|] eqn:L2; [|discriminate Hp]. apply andb_true_iff in Hp. destruct Hp as (H1 & H2). cbn [q4 andb]. apply keq_true in H1, H2. apply n_ends4 in I. apply n_ends2 in L2. rewrite I in H2. rewrite L2 in H1. subst. now rewrite !keq_refl.
      * intros p I Hq. apply (look_u M T t p Et) in I. fold U in I. destruct (look U T p) as [e|] eqn:L; [|congruence]. pose proof L as L0. apply look_ents in L. destruct L as (t2 & I2 & I3). assert (t2 = t') as -> by (apply In_dget in I2; [congruence|apply WU]).
        apply List.in_map_iff. exists (p, e). split; [reflexivity|]. apply filter_In. split; [exact I3|]. unfold P. cbn [fst snd]. destruct p as [|b [|x [|o [|y [|w p]]]]]; try discriminate Hq. cbn [q4 andb] in Hq. apply andb_true_iff in Hq. destruct Hq as (H1 & H2). apply keq_true in H1, H2. subst x y.
        destruct (look U T [b; X]) as [e2|] eqn:L2.
        -- apply n_ends2 in L2. apply n_ends4 in L0. rewrite L2, L0. now rewrite !keq_refl.
        -- exfalso. unfold look in L0, L2. rewrite Eu in L0, L2. cbn [look_dict] in L0, L2. destruct (dget b (t_sections t')) as [s|]; [|discriminate L0]. unfold look_sect, look_node, look_dict in L0, L2. destruct (dget X (n_sub s)); [discriminate L2|discriminate L0].
  - unfold names_of, ProofMerge3.names_of. destruct (dget T (m_types M)) as [t|] eqn:Et; [|reflexivity]. exfalso. destruct (unify_totals M T) as (H & _). fold U in H. rewrite Eu, Et in H. discriminate.
Qed.
(** those in sections with a label, if they are in object files with one base name *)
Lemma n_section_sums T B X O Y : (forall i, present q r (places i) -> named X Y i -> file_name i O) -> (esize (look U T [B; X; O; Y]), ediff (look U T [B; X; O; Y])) = named_value X Y T B.
Proof.
  intros Of. destruct (dget T (m_types M)) as [t|] eqn:Et.
  - unfold named_value. change (labelled T B) with (filter (fun N => abbrev N =?= B) (names_of T)). rewrite <- (named_sums T t (fun z => z =?= B) X Y Et).
    rewrite (apick_keys M T t (q4 (fun z => z =?= B) X Y) [[B; X; O; Y]] Et).
    + unfold psum. rewrite !ProofSummary.zsumf_one. reflexivity.
    + constructor; [intros []|constructor].
    + intros p [<-|[]]. cbn [q4]. now rewrite !keq_refl.
    + intros p I Q. destruct p as [|b [|x [|o [|y [|w p]]]]]; try discriminate Q. cbn [q4] in Q. apply andb_true_iff in Q. destruct Q as (Q1 & Q2). apply andb_true_iff in Q2. destruct Q2 as (Q2 & Q3). apply keq_true in Q1, Q2, Q3. subst b x y.
      apply (look_u M T t _ Et) in I. destruct (n_present T B X o Y I) as (i & P & Nm & Fn). specialize (Of i P Nm). apply file_basename in Of, Fn. left. congruence.
  - destruct (unify_size M T [B; X; O; Y]) as (E1 & E2). fold U in E1, E2. rewrite E1, E2. unfold with_apath, named_value, labelled, ProofMerge3.labelled, ProofMerge3.names_of. rewrite Et. reflexivity.
Qed.
End Symbols.
