From Coq Require Import Ascii String List ZArith Lia Bool Permutation Sorted.
From Verif Require Import Base MemMap SpecTree SpecOps Filter Pipeline SpecPipe SpecBuild SpecBytes SpecShape ProofOps ProofTrim ProofDiff ProofUnify ProofUnifyDiff ProofSummary ProofSummary2 ProofSummary3 Fixtures PyStr MapFile SpecMap
  ElfRead SpecElf Project SpecProject SpecEnd Chips SpecChips ProofChips ProofShape Deps Table SpecTable Formats Main SpecMain ProofMain ProofMain4 Command SpecCommand SpecFail SpecReport SpecMerge SpecMergeFiles
  ProofBytes ProofCommand1 ProofCommand2 ProofCommand3 ProofCommand4 ProofReport1 ProofReport2 ProofReport3 ProofReport5 ProofMerge1 ProofMerge2 ProofMerge3 ProofMergeFiles1.
Import ListNotations.
Open Scope list_scope.
Open Scope Z_scope.

Lemma nodup_pairs {V W} (d : list (str * V)) (f : str * V -> list (str * W)) : NoDup (map fst d) -> (forall kv, In kv d -> NoDup (map fst (f kv))) ->
  NoDup (flat_map (fun kv => map (fun kw => (fst kv, fst kw)) (f kv)) d).
Proof.
  induction d as [|kv d IH]; intros D H; [constructor|]. cbn [flat_map map] in *. inversion D as [|? ? Nk Dd]; subst. apply NoDup_app_intro.
  - specialize (H kv (or_introl eq_refl)). clear - H. induction (f kv) as [|kw l IH]; [constructor|]. cbn [map] in *. inversion H as [|? ? N Hd]; subst. constructor; [|now apply IH].
    intros I. apply N. apply List.in_map_iff in I. destruct I as (kw' & E & I). injection E as E. apply List.in_map_iff. eauto.
  - apply IH; [exact Dd|]. intros x I. apply H. now right.
  - intros p I I'. apply List.in_map_iff in I. destruct I as (kw & <- & _). apply in_flat_map in I'. destruct I' as (kv' & I' & J). apply List.in_map_iff in J. destruct J as (kw' & E & _). injection E as E _. apply Nk. rewrite <- E. now apply List.in_map.
Qed.

Section Files.
Variables (a : args) (k : account) (r : option account) (M : memmap) (fu : str -> Z * Z) (fn : str -> str -> Z * Z) (fo : (item -> bool) -> str -> str -> Z * Z).
Hypothesis F : final a k r M fu fn fo.
Let W : wf_map M := f_wf _ _ _ _ _ _ _ F.
Let names_of := names_of M.
Let labelled := labelled M.
Definition file_value (Y T B : str) : Z * Z := psum (fo (own_file Y) T) (labelled T B).

Lemma both_ffigures T : exists ns os ns' os', ffigures T k ns os /\ forall k', r = Some k' -> ffigures T k' ns' os'.
Proof.
  pose proof (proj2 (f_used_is _ _ _ _ _ _ _ F T (fu T)) eq_refl) as (H1 & H2). destruct (ffigures_of _ _ _ H1) as (ns & os & H). clear H1. destruct r as [k'|].
  - destruct H2 as (n & H2 & _). destruct (ffigures_of _ _ _ H2) as (ns' & os' & H'). exists ns, os, ns', os'. split; [exact H|]. intros q E. injection E as <-. exact H'.
  - exists ns, os, ns, os. split; [exact H|discriminate].
Qed.
Lemma file_is Y T B v : measured k r (file_bytes Y (ColSect T B)) v <-> v = file_value Y T B.
Proof.
  destruct (both_ffigures T) as (ns & os & ns' & os' & G & G').
  pose proof (own_pair _ _ _ _ _ _ _ F T ns os ns' os' (ff_all _ _ _ _ G) (fun k' E => ff_all _ _ _ _ (G' k' E)) (own_file Y)) as Fo.
  rewrite (measured_pair k r (file_bytes Y (ColSect T B)) _ _ (ff_file _ _ _ _ G Y B) (fun k' E => ff_file _ _ _ _ (G' k' E) Y B)).
  assert (E : pair r (os (own_file Y) (fun y => abbrev y =?= B)) (os' (own_file Y) (fun y => abbrev y =?= B)) = file_value Y T B); [|now rewrite E].
  assert (Z0 : forall x, (abbrev x =?= B) = true -> ~ In x (labelled T B) -> fo (own_file Y) T x = (0, 0)).
  { intros x Px Nx. apply (own_unlisted _ _ _ _ _ _ _ F). intros I. apply Nx. apply labelled_in. split; [exact I|now apply keq_iff]. }
  unfold file_value. rewrite (psum_ext _ _ _ (fun N _ => Fo N)), <- pair_sum. apply pair_ext.
  - apply (fg_owns _ _ _ _ (ff_all _ _ _ _ G)); [apply (labelled_once _ _ _ _ _ _ _ F)|intros x Ix; apply labelled_in in Ix; apply keq_iff, Ix|].
    intros x Px Nx. specialize (Z0 x Px Nx). rewrite Fo in Z0. apply pair_zero in Z0. apply Z0.
  - intros Nr. assert (G2 : exists k', ffigures T k' ns' os') by (destruct r as [k'|]; [exists k'; now apply G'|congruence]). destruct G2 as (k' & G2).
    apply (fg_owns _ _ _ _ (ff_all _ _ _ _ G2)); [apply (labelled_once _ _ _ _ _ _ _ F)|intros x Ix; apply labelled_in in Ix; apply keq_iff, Ix|].
    intros x Px Nx. specialize (Z0 x Px Nx). rewrite Fo in Z0. apply pair_zero in Z0. now apply Z0.
Qed.
(** the object files of a section by base name *)
Lemma objects_base T N Y L : NoDup L -> (forall xo, In xo L -> basename (snd xo) = Y) -> (forall x o, basename o = Y -> ~ In (x, o) L -> look M T [N; x; o] = None) ->
  fo (own_file Y) T N = psum (fun xo => fo (of_object (fst xo) (snd xo)) T N) L.
Proof.
  intros D HL Hz. destruct (both_ffigures T) as (ns & os & ns' & os' & G & G').
  pose proof (own_pair _ _ _ _ _ _ _ F T ns os ns' os' (ff_all _ _ _ _ G) (fun k' E => ff_all _ _ _ _ (G' k' E))) as Fo.
  assert (Z0 : forall x o, basename o = Y -> ~ In (x, o) L -> fo (of_object x o) T N = (0, 0)).
  { intros x o Px Nx. rewrite <- (f_object _ _ _ _ _ _ _ F T N x o), (Hz x o Px Nx). reflexivity. }
  rewrite (psum_ext _ _ _ (fun xo _ => Fo (of_object (fst xo) (snd xo)) N)), <- pair_sum, Fo. apply pair_ext.
  - apply (ff_objects _ _ _ _ G); [exact D|exact HL|]. intros x o Px Nx. specialize (Z0 x o Px Nx). rewrite Fo in Z0. apply pair_zero in Z0. apply Z0.
  - intros Nr. assert (G2 : exists k', ffigures T k' ns' os') by (destruct r as [k'|]; [exists k'; now apply G'|congruence]). destruct G2 as (k' & G2).
    apply (ff_objects _ _ _ _ G2); [exact D|exact HL|]. intros x o Px Nx. specialize (Z0 x o Px Nx). rewrite Fo in Z0. apply pair_zero in Z0. now apply Z0.
Qed.

(** ** sums over the map *)
Lemma archive_objects T t N s x ar : dget T (m_types M) = Some t -> dget N (t_sections t) = Some s -> dget x (n_sub s) = Some ar ->
  wf_dict (n_sub ar) /\ forall o ob, dget o (n_sub ar) = Some ob -> n_abbrev ob = basename o /\ look M T [N; x; o] = Some (entry_of_node ob).
Proof.
  intros Et Es Ea. split.
  - assert (Wt : wf_type t) by (eapply wf_map_type; eassumption). assert (Ws : wf_sect s) by (eapply wf_sub_get; [apply Wt|exact Es]). assert (Wa : wf_arch ar) by (eapply wf_sub_get; [apply Ws|exact Ea]). apply Wa.
  - intros o ob Eo. assert (L : look M T [N; x; o] = Some (entry_of_node ob)) by (unfold look; rewrite Et; cbn [look_dict]; rewrite Es; cbn; rewrite Ea; cbn; rewrite Eo; reflexivity).
    split; [|exact L]. apply (f_label _ _ _ _ _ _ _ F) in L. cbn [label entry_of_node e_abbrev] in L. eapply after_last_unique; [exact L|apply basename_after].
Qed.
Lemma section_files T t N s Y : dget T (m_types M) = Some t -> In (N, s) (t_sections t) ->
  fo (own_file Y) T N = psum (fun ob : obj => (n_size ob, n_diff ob)) (flat_map (fun kx => map snd (filter (fun ko => n_abbrev (snd ko) =?= Y) (n_sub (snd kx)))) (n_sub s)).
Proof.
  intros Et I. destruct (section_label _ _ _ _ _ _ _ F T t N s Et I) as (Es & _ & _ & Wd & _).
  set (g := fun kx : str * arch => filter (fun ko : str * obj => n_abbrev (snd ko) =?= Y) (n_sub (snd kx))).
  assert (Ob : forall x ar o ob, In (x, ar) (n_sub s) -> In (o, ob) (n_sub ar) -> n_abbrev ob = basename o /\ look M T [N; x; o] = Some (entry_of_node ob)).
  { intros x ar o ob Ix Io. apply In_dget in Ix; [|exact Wd]. destruct (archive_objects T t N s x ar Et Es Ix) as (Wa & H). apply H. now apply In_dget. }
  rewrite (objects_base T N Y (flat_map (fun kx => map (fun ko => (fst kx, fst ko)) (g kx)) (n_sub s))).
  - unfold psum. rewrite !zsumf_flat_map.
    f_equal; apply zsumf_ext; intros [x ar] Ix; rewrite !zsumf_map; apply zsumf_ext; intros [o ob] Io; apply filter_In in Io; destruct Io as (Io & _); cbn [fst snd] in *; destruct (Ob x ar o ob Ix Io) as (_ & L); rewrite <- (f_object _ _ _ _ _ _ _ F T N x o), L; reflexivity.
  - apply nodup_pairs; [exact Wd|]. intros [x ar] Ix. apply NoDup_map_filter. cbn [snd]. apply In_dget in Ix; [|exact Wd]. apply (archive_objects T t N s x ar Et Es Ix).
  - intros xo Ixo. apply in_flat_map in Ixo. destruct Ixo as ([x ar] & Ix & J). apply List.in_map_iff in J. destruct J as ([o ob] & <- & J). apply filter_In in J. destruct J as (J & E). cbn [fst snd] in *. apply keq_iff in E. destruct (Ob x ar o ob Ix J) as (E2 & _). congruence.
  - intros x o Eo Ni. unfold look. rewrite Et. cbn [look_dict]. rewrite Es. cbn. destruct (dget x (n_sub s)) as [ar|] eqn:Ex; [|reflexivity]. cbn. destruct (dget o (n_sub ar)) as [ob|] eqn:Eob; [|reflexivity]. exfalso. apply Ni.
    apply in_flat_map. apply dget_In in Ex, Eob. exists (x, ar). split; [exact Ex|]. apply List.in_map_iff. exists (o, ob). split; [reflexivity|]. apply filter_In. split; [exact Eob|]. apply keq_iff. cbn [snd]. destruct (Ob x ar o ob Ex Eob) as (E2 & _). congruence.
Qed.
Lemma file_sums T t PB Y : dget T (m_types M) = Some t ->
  (zsumf e_size (apick (q3 PB Y) (aents_type t)), zsumf e_diff (apick (q3 PB Y) (aents_type t))) = psum (fo (own_file Y) T) (filter (fun N => PB (abbrev N)) (names_of T)).
Proof.
  intros Et. rewrite apick_files. unfold names_of, ProofMerge3.names_of. rewrite Et.
  assert (H : forall N s, In (N, s) (t_sections t) -> (n_abbrev s = abbrev N) /\ fo (own_file Y) T N = psum (fun ob : obj => (n_size ob, n_diff ob)) (flat_map (fun kx => map snd (filter (fun ko => n_abbrev (snd ko) =?= Y) (n_sub (snd kx)))) (n_sub s))).
  { intros N s I. split; [apply (section_label _ _ _ _ _ _ _ F T t N s Et I)|now apply (section_files T t N s Y Et)]. }
  unfold psum. assert (G : forall (g : SpecTree.entry -> Z) (p : Z * Z -> Z), (forall ob : obj, g (entry_of_node ob) = p (n_size ob, n_diff ob)) ->
    (forall N s, In (N, s) (t_sections t) -> p (fo (own_file Y) T N) = zsumf (fun ob : obj => p (n_size ob, n_diff ob)) (flat_map (fun kx => map snd (filter (fun ko => n_abbrev (snd ko) =?= Y) (n_sub (snd kx)))) (n_sub s))) ->
    zsumf g (flat_map (fun ks => flat_map (fun kx => flat_map (fun ko => if PB (n_abbrev (snd ks)) && (n_abbrev (snd ko) =?= Y) then [entry_of_node (snd ko)] else []) (n_sub (snd kx))) (n_sub (snd ks))) (t_sections t)) =
    zsumf (fun N => p (fo (own_file Y) T N)) (filter (fun N => PB (abbrev N)) (keys (t_sections t)))).
  { intros g p Hg Hp. assert (In0 : incl (t_sections t) (t_sections t)) by apply incl_refl. revert In0. generalize (t_sections t) at 1 3 4. intros d. induction d as [|[N s] d IH]; intros In0; [reflexivity|].
    cbn [flat_map keys map filter fst snd]. rewrite zsumf_app, IH by (intros x X; apply In0; now right). destruct (H N s (In0 _ (or_introl eq_refl))) as (Eab & _). match goal with |- context[PB (@n_abbrev ?C s)] => change (@n_abbrev C s = abbrev N) in Eab end. rewrite Eab. specialize (Hp N s (In0 _ (or_introl eq_refl))).
    destruct (PB (abbrev N)); cbn [andb].
    - change (map fst d) with (keys d). rewrite zsumf_cons, Hp. f_equal. rewrite !zsumf_flat_map. apply zsumf_ext. intros [x ar] _. rewrite zsumf_map, zsumf_flat_map. cbn [snd]. clear - Hg. induction (n_sub ar) as [|[o ob] q IH]; [reflexivity|].
      rewrite zsumf_cons, IH. cbn [filter snd]. destruct (n_abbrev ob =?= Y); [rewrite !zsumf_cons; cbn [snd]; rewrite (Hg ob); unfold zsumf at 1; cbn [map zsum fold_right]; rewrite Z.add_0_r; reflexivity|reflexivity].
    - change (map fst d) with (keys d). rewrite <- (Z.add_0_l (zsumf _ (filter _ (keys d)))). f_equal. rewrite zsumf_flat_map. apply zsumf_zero. intros [x ar] _. rewrite zsumf_flat_map. apply zsumf_zero. reflexivity. }
  f_equal; (apply G; [reflexivity|]); intros N s I; destruct (H N s I) as (_ & ->); reflexivity.
Qed.

(** ** the unified map *)
Let U := unify M.
Let WU : wf_map U := wf_unify M W.
Lemma u_types T t' : dget T (m_types U) = Some t' -> exists t, dget T (m_types M) = Some t.
Proof. intros E. destruct (unify_totals M T) as (H & _). fold U in H. rewrite E in H. destruct (dget T (m_types M)) as [t|]; [eauto|discriminate]. Qed.
Lemma u_object T B X Y e : look U T [B; X; Y] = Some e -> e_abbrev e = Y.
Proof. intros E. pose proof (unify_look M T [B; X; Y]) as H. fold U in H. rewrite E in H. destruct H as (_ & _ & _ & q & Q). destruct q as [|? [|? [|? [|? q]]]]; try discriminate Q. now injection Q. Qed.
Lemma with_apick T t p : dget T (m_types M) = Some t -> with_apath M T p = apick (fun q => q =?= p) (aents_type t).
Proof. intros E. unfold with_apath. now rewrite E. Qed.
(** what is in the unified map *)
Lemma found_file T t B X Y : dget T (m_types M) = Some t -> In [B; X; Y] (map fst (aents_type t)) -> exists N x o, abbrev N = B /\ basename x = X /\ basename o = Y /\ look M T [N; x; o] <> None.
Proof.
  intros Et I. apply sel_nonempty in I. change (sel [B; X; Y] (aents_type t)) with (apick (fun q => q =?= [B; X; Y]) (aents_type t)) in I.
  assert (E : apick (fun q => q =?= [B; X; Y]) (aents_type t) = apick (fun q => q3 (fun z => z =?= B) Y q && match q with [_; x; _] => x =?= X | _ => false end) (aents_type t)).
  { apply apick_ext. intros q. apply eq_true_iff_eq. destruct q as [|b [|x [|y [|z q]]]]; cbn [q3]; rewrite ?andb_true_iff; split; intros H; try (apply keq_true in H; discriminate); try (destruct H; discriminate).
    - apply keq_true in H. injection H as -> -> ->. now rewrite !keq_refl.
    - destruct H as ((H1 & H2) & H3). apply keq_true in H1, H2, H3. subst. apply keq_refl. }
  rewrite E in I. clear E. unfold apick in I.
  destruct (filter _ (aents_type t)) as [|pe l] eqn:Ef; [exfalso; now apply I|]. assert (J : In pe (filter (fun pe => q3 (fun z => z =?= B) Y (fst pe) && match fst pe with [_; x; _] => x =?= X | _ => false end) (aents_type t))) by (rewrite Ef; now left).
  clear Ef I l. apply filter_In in J. destruct J as (J & Q). unfold aents_type in J. apply in_flat_map in J. destruct J as ([N s] & Is & J). cbn [snd] in J. unfold aents_sect in J; unfold aents_node at 1 in J.
  destruct J as [<-|J]; [discriminate Q|]. apply List.in_map_iff in J. destruct J as (pe1 & <- & J). apply in_flat_map in J. destruct J as ([x ar] & Ix & J). cbn [snd] in J. unfold aents_arch in J; unfold aents_node at 1 in J.
  destruct J as [<-|J]; [discriminate Q|]. apply List.in_map_iff in J. destruct J as (pe2 & <- & J). apply in_flat_map in J. destruct J as ([o ob] & Io & J). cbn [snd] in J. unfold aents_obj in J; unfold aents_node at 1 in J.
  destruct J as [<-|J]; [|exfalso; apply List.in_map_iff in J; destruct J as (pe3 & <- & J); apply in_flat_map in J; destruct J as ([y sy] & _ & [<-|[]]); cbn in Q; discriminate Q].
  cbn [fst q3] in Q. apply andb_true_iff in Q. destruct Q as (Q & Q3). apply andb_true_iff in Q. destruct Q as (Q1 & Q2). apply keq_true in Q1, Q2, Q3.
  destruct (section_label _ _ _ _ _ _ _ F T t N s Et Is) as (Es & E1 & _ & Wd & H2). apply In_dget in Ix; [|exact Wd]. destruct (H2 x ar Ix) as (E2 & _). destruct (archive_objects T t N s x ar Et Es Ix) as (Wa & H3).
  apply In_dget in Io; [|exact Wa]. destruct (H3 o ob Io) as (E3 & L). exists N, x, o. repeat split; congruence.
Qed.
Lemma file_present T t B X Y : dget T (m_types M) = Some t -> In [B; X; Y] (map fst (aents_type t)) -> exists i, present k r (places i) /\ base_name i X /\ file_name i Y.
Proof.
  intros Et I. destruct (found_file T t B X Y Et I) as (N & x & o & _ & Ex & Eo & L). destruct (proj1 (f_places_object _ _ _ _ _ _ _ F x o) (ex_intro _ T (ex_intro _ N L))) as (i & P & E1 & E2).
  exists i. split; [exact P|]. split; [apply base_basename; congruence|apply file_basename; congruence].
Qed.
Lemma look_u T t p : dget T (m_types M) = Some t -> look U T p <> None <-> In p (map fst (aents_type t)).
Proof. intros Et. unfold U. rewrite unify_found, (with_apick T t p Et). change (apick (fun q => q =?= p) (aents_type t)) with (sel p (aents_type t)). apply sel_nonempty. Qed.
Lemma apick_keys T t (Q : list str -> bool) L : dget T (m_types M) = Some t -> NoDup L -> (forall p, In p L -> Q p = true) -> (forall p, In p (map fst (aents_type t)) -> Q p = true -> In p L) ->
  (zsumf e_size (apick Q (aents_type t)), zsumf e_diff (apick Q (aents_type t))) = psum (fun p => (esize (look U T p), ediff (look U T p))) L.
Proof.
  intros Et D HL C. unfold psum. cbn [fst snd].
  assert (G : forall g : SpecTree.entry -> Z, zsumf g (apick Q (aents_type t)) = zsumf (fun p => zsumf g (with_apath M T p)) L).
  { intros g. unfold apick. rewrite zsumf_map. rewrite (zsum_keys fst (fun pe => g (snd pe)) Q L (aents_type t) D HL).
    - apply zsumf_ext. intros p _. rewrite (with_apick T t p Et). unfold apick. now rewrite zsumf_map.
    - intros pe I Qp N. exfalso. apply N. apply C; [now apply List.in_map|exact Qp]. }
  rewrite !G. f_equal; apply zsumf_ext; intros p _; destruct (unify_size M T p) as (E1 & E2); [now rewrite <- E1|now rewrite <- E2].
Qed.
(** all object files with a base name *)
Lemma row_sums T Y : (zsumf e_size (obj_row U true T Y), zsumf e_diff (obj_row U true T Y)) = psum (fo (own_file Y) T) (names_of T).
Proof.
  unfold obj_row. destruct (dget T (m_types U)) as [t'|] eqn:Eu.
  - destruct (u_types T t' Eu) as (t & Et). set (P := fun pe : list str * SpecTree.entry => match fst pe with [s; x; o] => (if true then e_abbrev (snd pe) else x ++ list_ascii_of_string ":" ++ o) =?= Y | _ => false end).
    assert (Lk : forall p e, In (p, e) (ents_type t') -> look U T p = Some e) by (intros p e; apply (ents_look U T t' p e WU Eu)).
    transitivity (psum (fun p => (esize (look U T p), ediff (look U T p))) (map fst (filter P (ents_type t')))).
    + unfold psum. rewrite !zsumf_map. cbn [fst snd]. f_equal; apply zsumf_ext; intros [p e] I; apply filter_In in I; destruct I as (I & _); cbn [fst snd]; rewrite (Lk p e I); reflexivity.
    + rewrite <- (apick_keys T t (q3 (fun _ => true) Y) _ Et).
      * rewrite (file_sums T t (fun _ => true) Y Et). now rewrite filter_true.
      * apply NoDup_map_filter. apply nodup_ents_type. eapply wf_map_type; eassumption.
      * intros p I. apply List.in_map_iff in I. destruct I as ((p0 & e) & E & I). cbn [fst] in E. subst p0. apply filter_In in I. destruct I as (I & Hp). apply Lk in I. unfold P in Hp. cbn [fst snd] in Hp. destruct p as [|b [|x [|y [|z q]]]]; try discriminate Hp.
        cbn [q3 andb]. apply keq_true in Hp. apply u_object in I. rewrite I in Hp. now apply keq_iff.
      * intros p I Hq. apply (look_u T t p Et) in I. destruct (look U T p) as [e|] eqn:L; [|congruence]. pose proof L as L0. apply look_ents in L. destruct L as (t2 & I2 & I3). assert (t2 = t') as -> by (apply In_dget in I2; [congruence|apply WU]).
        apply List.in_map_iff. exists (p, e). split; [reflexivity|]. apply filter_In. split; [exact I3|]. unfold P. cbn [fst snd]. destruct p as [|b [|x [|y [|z q]]]]; try discriminate Hq. cbn [q3 andb] in Hq. apply keq_true in Hq. subst y. apply u_object in L0. rewrite L0. apply keq_refl.
  - unfold names_of, ProofMerge3.names_of. destruct (dget T (m_types M)) as [t|] eqn:Et; [|reflexivity]. exfalso. destruct (unify_totals M T) as (H & _). fold U in H. rewrite Eu, Et in H. discriminate.
Qed.
(** those in sections with a label, if they are in archives with one base name *)
Lemma section_sums T B X Y : (forall i, present k r (places i) -> file_name i Y -> base_name i X) -> (esize (look U T [B; X; Y]), ediff (look U T [B; X; Y])) = file_value Y T B.
Proof.
  intros O. destruct (dget T (m_types M)) as [t|] eqn:Et.
  - unfold file_value. change (labelled T B) with (filter (fun N => abbrev N =?= B) (names_of T)). rewrite <- (file_sums T t (fun z => z =?= B) Y Et).
    rewrite (apick_keys T t (q3 (fun z => z =?= B) Y) [[B; X; Y]] Et).
    + unfold psum. rewrite !ProofSummary.zsumf_one. reflexivity.
    + constructor; [intros []|constructor].
    + intros p [<-|[]]. cbn [q3]. now rewrite !keq_refl.
    + intros p I Q. destruct p as [|b [|x [|y [|z q]]]]; try discriminate Q. cbn [q3] in Q. apply andb_true_iff in Q. destruct Q as (Q1 & Q2). apply keq_true in Q1, Q2. subst b y.
      destruct (file_present T t B x Y Et I) as (i & P & Bn & Fn). specialize (O i P Fn). apply base_basename in O, Bn. left. congruence.
  - destruct (unify_size M T [B; X; Y]) as (E1 & E2). fold U in E1, E2. rewrite E1, E2. unfold with_apath, file_value, labelled, ProofMerge3.labelled, ProofMerge3.names_of. rewrite Et. reflexivity.
Qed.
End Files.
