From Coq Require Import Ascii String List ZArith Lia Bool Permutation Sorted.
From Verif Require Import Base MemMap SpecTree SpecOps Filter SpecFilter Pipeline SpecPipe SpecBuild SpecBytes SpecShape ProofOps ProofTrim ProofDiff ProofDiff2 ProofSummary ProofSummary2 ProofSummary3 Fixtures PyStr MapFile SpecMap ProofStrip
  ElfRead SpecElf Project SpecProject SpecEnd Chips SpecChips ProofChips Deps Table SpecTable ProofTable ProofTable3 Formats ProofFormats Main SpecMain ProofMain ProofMain4 ProofMain5 Command SpecCommand SpecFail SpecReport
  ProofCommand1 ProofCommand2 ProofCommand3 ProofCommand4 ProofCommand5 ProofCommand6 ProofReport1 ProofReport2 ProofReport3 ProofReport4 ProofReport5 ProofReport6 ProofUnify SpecMerge ProofMerge1 ProofMerge2 ProofMerge3 ProofMerge4 SpecLayout.
Import ListNotations.
Open Scope list_scope.
Open Scope Z_scope.

(** a dictionary filled from a list *)
Lemma fill_all {A} (key : A -> str) (val : A -> Z) l : forall acc : dict str Z, wf_dict acc ->
  let d := fold_left (fun d s => dset (key s) (val s) d) l acc in
  wf_dict d /\ (forall n, In n (keys d) <-> In n (keys acc) \/ exists s, In s l /\ key s = n) /\
  forall n z, In (n, z) d -> In (n, z) acc \/ exists s, In s l /\ key s = n /\ val s = z.
Proof.
  induction l as [|s l IH]; intros acc W; cbn [fold_left].
  - split; [exact W|]. split; [|auto]. intros n. split; [auto|]. intros [H|(s & [] & _)]. exact H.
  - destruct (IH (dset (key s) (val s) acc) (wf_dset _ _ _ W)) as (W' & K & E). split; [exact W'|]. split.
    + intros n. rewrite K, In_keys_dset. split.
      * intros [[->|H]|(s' & I & Es)]; [right; exists s; split; [now left|reflexivity]|now left|right; exists s'; split; [now right|exact Es]].
      * intros [H|(s' & [->|I] & Es)]; [left; now right|left; left; now symmetry|right; eauto].
    + intros n z I. destruct (E n z I) as [H|(s' & I' & Ks & Vs)]; [|right; exists s'; split; [now right|now split]].
      apply in_dset in H. destruct H as [(-> & ->)|H]; [right; exists s; split; [now left|now split]|now left].
Qed.

Section Layout.
Variables (k : account) (r : option account) (a : args) (M : memmap) (fu : str -> Z * Z).
Notation f := (final_args a).
Hypothesis W : wf_map M.
Hypothesis Used : forall T t, dget T (m_types M) = Some t -> (t_used t, t_used_diff t) = fu T.
Hypothesis UsedIs : forall T v, measured k r (used_bytes T) v <-> v = fu T.
Hypothesis Listed : forall T, dget T (m_types M) <> None <-> present k r (lists_type a T).
Hypothesis Total : forall T t, dget T (m_types M) = Some t -> total_bytes a T k (t_size t).
Hypothesis Image : image_bytes (ac_im k) (ac_l k) (m_image_size M).
Hypothesis Names : forall T n, (exists N e, look M T [N] = Some e /\ (if a_abbrev f then e_abbrev e else N) = n) <-> exists N, present k r (lists_section T N) /\ shown_section a N n.
Hypothesis Part : forall T N e, look M T [N] = Some e -> part_right k r a T (if a_abbrev f then e_abbrev e else N) (e_size e).
Hypothesis Own : a_unify a = true \/ a_no_abbrev a = true -> forall T N e, look M T [N] = Some e ->
  (if a_abbrev f then e_abbrev e else N) = N /\ forall v, measured k r (part_bytes a T N) v -> v = (e_size e, e_diff e).

Lemma layout_ok : layout_right k r a (json_summary M f).
Proof.
  assert (Wd : wf_dict (m_types M)) by apply W.
  destruct (sorted_dict (type_key f) (tkey f) (a_sort_reverse f) (m_types M) ltac:(reflexivity)) as [P S].
  set (ts := sort_dict_by_key (type_key f) (a_sort_reverse f) (m_types M)) in *.
  assert (Js : js_layout (json_summary M f) = map (fun kv => json_type f (fst kv, sort_type f (snd kv))) ts).
  { unfold json_summary. cbn [js_layout]. unfold sort. cbn [m_types with_types]. unfold dmap. rewrite map_map. reflexivity. }
  assert (Nm : map j_name (js_layout (json_summary M f)) = map fst ts) by (rewrite Js, map_map; reflexivity).
  assert (Pk : Permutation (keys (m_types M)) (map fst ts)) by (apply Permutation_map, P).
  split.
  - rewrite Nm. eapply Permutation_NoDup; [exact Pk|exact Wd].
  - intros T. rewrite Nm, <- Listed. split.
    + intros I. apply (Permutation_in _ (Permutation_sym Pk)) in I. apply List.in_map_iff in I. destruct I as ([T' t] & <- & I). apply In_dget in I; [|exact Wd]. cbn. congruence.
    + intros I. destruct (dget T (m_types M)) as [t|] eqn:E; [|congruence]. apply dget_In in E. apply (Permutation_in _ Pk). apply (List.in_map fst _ _ E).
  - rewrite Js. apply Forall_forall. intros j Ij. apply List.in_map_iff in Ij. destruct Ij as ([T t] & <- & It). apply (Permutation_in _ (Permutation_sym P)) in It.
    pose proof It as Et. apply In_dget in Et; [|exact Wd].
    assert (Ws : wf_dict (t_sections t)). { destruct W as (_ & W2). rewrite Forall_forall in W2. specialize (W2 _ It). apply W2. }
    pose proof (Used T t Et) as U. cbn [fst snd].
    set (secs := dmap (sort_sect f) (sort_dict_by_key (node_key f) (a_sort_reverse f) (t_sections t))).
    destruct (sorted_dict (node_key f) (fun n => the_size (a_sort_diff f) (n_size n) (n_diff n)) (a_sort_reverse f) (t_sections t) ltac:(reflexivity)) as [P2 S2].
    assert (Lk : forall N sx, In (N, sx) secs -> exists e, look M T [N] = Some e /\ n_size sx = e_size e /\ n_diff sx = e_diff e /\ n_abbrev sx = e_abbrev e).
    { intros N sx I. unfold secs, dmap in I. apply List.in_map_iff in I. destruct I as ([N' s0] & E & I). cbn [fst snd] in E. injection E as -> <-.
      apply (Permutation_in _ (Permutation_sym P2)) in I. apply In_dget in I; [|exact Ws]. exists (entry_of_node s0).
      split; [unfold look; rewrite Et; cbn [look_dict]; exact (f_equal (fun q : option sect => match q with Some c => look_sect [] c | None => None end) I)|]. repeat split. }
    assert (Kl : forall N e, look M T [N] = Some e -> exists sx, In (N, sx) secs /\ n_size sx = e_size e /\ n_abbrev sx = e_abbrev e).
    { intros N e L. unfold look in L. rewrite Et in L. cbn [look_dict] in L. destruct (dget N (t_sections t)) as [s0|] eqn:G0; [|discriminate]. cbn in L. injection L as <-.
      exists (sort_sect f s0). split; [|now split]. apply dget_In in G0. unfold secs, dmap. apply List.in_map_iff. exists (N, s0). split; [reflexivity|]. apply (Permutation_in _ P2), G0. }
    assert (Jp : j_parts (json_type f (T, sort_type f t)) = fold_left (fun d s => dset (shown f (fst s) (n_abbrev (snd s))) (n_size (snd s)) d) secs []) by reflexivity.
    destruct (fill_all (fun s : str * sect => shown f (fst s) (n_abbrev (snd s))) (fun s => n_size (snd s)) secs [] (NoDup_nil _)) as (Fw & Fk & Fe).
    split; cbn [json_type j_name j_used j_total j_free sort_type t_used t_size fst snd]; rewrite ?Jp.
    + destruct (proj2 (UsedIs T (t_used t, t_used_diff t)) U) as (X & _). exact X.
    + apply Total, Et.
    + reflexivity.
    + exact Fw.
    + intros n. etransitivity; [apply Fk|]. rewrite <- Names. split.
      * intros [[]|([N sx] & I & E)]. destruct (Lk N sx I) as (e & L & _ & _ & Eb). exists N, e. split; [exact L|]. rewrite <- Eb. exact E.
      * intros (N & e & L & E). destruct (Kl N e L) as (sx & I & _ & Eb). right. exists (N, sx). split; [exact I|]. cbn [fst snd]. rewrite Eb. exact E.
    + intros n z I. destruct (Fe n z I) as [[]|([N sx] & Is & En & Ez)]. destruct (Lk N sx Is) as (e & L & Es & _ & Eb). cbn [fst snd] in *.
      pose proof (Part T N e L) as Q. rewrite <- Eb, <- Es, Ez in Q. unfold shown in En. rewrite En in Q. exact Q.
    + intros Un. specialize (Own Un).
      assert (Sh : forall s, In s secs -> shown f (fst s) (n_abbrev (snd s)) = fst s).
      { intros [N sx] I. destruct (Lk N sx I) as (e & L & _ & _ & Eb). cbn [fst snd]. unfold shown. rewrite Eb. apply (Own T N e L). }
      assert (Ks : map (fun s : str * sect => shown f (fst s) (n_abbrev (snd s))) secs = map fst secs) by (now apply map_ext_in).
      assert (Nd : NoDup (map fst secs)).
      { unfold secs. rewrite map_fst_dmap. eapply Permutation_NoDup; [apply Permutation_map, P2|exact Ws]. }
      rewrite json_parts_distinct by (rewrite Ks; exact Nd).
      assert (S3 : StronglySorted (fun x y : str * sect => in_order (a_sort_reverse a) (the_size (a_sort_diff a) (n_size (snd x)) (n_diff (snd x))) (the_size (a_sort_diff a) (n_size (snd y)) (n_diff (snd y)))) secs).
      { unfold secs, dmap. refine (sorted_f2 _ _ (fun x y => n_size (snd x) = n_size (snd y) /\ n_diff (snd x) = n_diff (snd y)) _ _ _ _ S2).
        - intros x x' y y' (E1 & E2) (E3 & E4). rewrite E1, E2, E3, E4. exact (fun h => h).
        - clear. induction (sort_dict_by_key (node_key f) (a_sort_reverse f) (t_sections t)) as [|x q IH]; cbn [map]; constructor; [now split|exact IH]. }
      refine (sorted_f2 _ _ (fun x y => In x secs /\ fst y = fst x) _ _ _ _ S3).
      * intros [N x] [N' x'] y y' (I1 & E1) (I2 & E2) O v w. cbn [fst snd] in *. rewrite E1, E2. intros Mv Mw.
        destruct (Lk _ _ I1) as (e & L & Z1 & Z2 & _). destruct (Lk _ _ I2) as (e' & L' & Z1' & Z2' & _).
        apply (Own T N e L) in Mv. apply (Own T N' e' L') in Mw. subst v w. unfold pick. cbn [fst snd]. unfold the_size in O. rewrite <- Z1, <- Z2, <- Z1', <- Z2'. exact O.
      * clear -Sh. assert (G : forall q, incl q secs -> Forall2 (fun (x : str * sect) (y : str * Z) => In x secs /\ fst y = fst x) q (map (fun s => (shown f (fst s) (n_abbrev (snd s)), n_size (snd s))) q)).
        { induction q as [|x q IH]; intros Q; cbn [map]; constructor; [|apply IH; intros z Z; apply Q; now right]. cbn [fst]. split; [apply Q; now left|]. apply Sh, Q. now left. }
        apply G. intros z Z; exact Z.
  - rewrite Js. refine (sorted_f2 _ _ (fun x y => In x ts /\ j_name y = fst x) _ _ _ _ S).
    + intros [T t] [T' t'] y y' (I1 & E1) (I2 & E2) O v w. cbn [fst snd] in *. rewrite E1, E2. intros Mv Mw. apply UsedIs in Mv. apply UsedIs in Mw.
      apply (Permutation_in _ (Permutation_sym P)), In_dget in I1; [|exact Wd]. apply (Permutation_in _ (Permutation_sym P)), In_dget in I2; [|exact Wd].
      rewrite <- (Used _ _ I1) in Mv. rewrite <- (Used _ _ I2) in Mw. subst v w. exact O.
    + assert (G : forall q, incl q ts -> Forall2 (fun (x : str * mtype) (y : jtype) => In x ts /\ j_name y = fst x) q (map (fun kv => json_type f (fst kv, sort_type f (snd kv))) q)).
      { induction q as [|x q IH]; intros Q; cbn [map]; constructor; [|apply IH; intros z Z; apply Q; now right]. split; [apply Q; now left|reflexivity]. }
      apply G. intros z Z; exact Z.
  - exact Image.
Qed.
End Layout.

Lemma abbrev_shown a N b : after_last "."%char N b -> shown_section a N (if a_abbrev (final_args a) then "."%char :: b else N).
Proof.
  intros A. unfold shown_section. cbn [final_args a_abbrev set_use_dwarf set_abbrev]. cbn [without_conflicts a_no_abbrev]. unfold conflict_abbrev.
  destruct (a_no_abbrev a), (a_unify a); cbn [andb negb]; try (now exists b); reflexivity.
Qed.

Lemma layout_plain a k r M fu fn fo : final a k r M fu fn fo -> a_unify a = false -> layout_right k r a (json_summary M (final_args a)).
Proof.
  intros F Au.
  assert (Lab : forall T N e, look M T [N] = Some e -> shown_section a N (if a_abbrev (final_args a) then e_abbrev e else N)).
  { intros T N e L. destruct (f_label _ _ _ _ _ _ _ F T [N] e L) as (b & A & ->). now apply abbrev_shown. }
  apply layout_ok with (fu := fu).
  - exact (f_wf _ _ _ _ _ _ _ F).
  - exact (f_used _ _ _ _ _ _ _ F).
  - exact (f_used_is _ _ _ _ _ _ _ F).
  - exact (f_listed _ _ _ _ _ _ _ F).
  - intros T t E. exact (proj1 (f_total _ _ _ _ _ _ _ F T t E)).
  - exact (proj1 (f_image _ _ _ _ _ _ _ F)).
  - intros T n. split.
    + intros (N & e & L & E). exists N. split; [apply (f_section _ _ _ _ _ _ _ F); congruence|]. rewrite <- E. now apply (Lab T).
    + intros (N & Pn & S). apply (f_section _ _ _ _ _ _ _ F) in Pn. destruct (look M T [N]) as [e|] eqn:L; [|congruence]. exists N, e. split; [exact L|]. eapply shown_unique; [apply (Lab T N e L)|exact S].
  - intros T N e L. unfold part_right. rewrite Au. exists N. split; [apply (f_section _ _ _ _ _ _ _ F); congruence|]. split; [now apply (Lab T)|].
    apply (proj2 (f_name_is _ _ _ _ _ _ _ F T N (e_size e, e_diff e)) (f_name _ _ _ _ _ _ _ F T N e L)).
  - intros Un T N e L. destruct Un as [Un|Un]; [congruence|]. split.
    + pose proof (Lab T N e L) as S. unfold shown_section in S. rewrite Un, Au in S. exact S.
    + intros v Mv. unfold part_bytes in Mv. rewrite Au in Mv. apply (f_name_is _ _ _ _ _ _ _ F) in Mv. rewrite Mv. symmetry. apply (f_name _ _ _ _ _ _ _ F T N e L).
Qed.
Lemma layout_merged a k r M fu gn go : ufinal a k r M fu gn go -> a_unify a = true -> layout_right k r a (json_summary M (final_args a)).
Proof.
  intros F Au. pose proof (merged_abbrev a Au) as Af.
  assert (Lab : forall N B, shown_section a N B <-> label [N] B).
  { intros N B. unfold shown_section. rewrite Au. rewrite andb_false_r. reflexivity. }
  apply layout_ok with (fu := fu).
  - exact (u_wf _ _ _ _ _ _ _ F).
  - exact (u_used _ _ _ _ _ _ _ F).
  - exact (u_used_is _ _ _ _ _ _ _ F).
  - exact (u_listed _ _ _ _ _ _ _ F).
  - intros T t E. exact (proj1 (u_total _ _ _ _ _ _ _ F T t E)).
  - exact (proj1 (u_image _ _ _ _ _ _ _ F)).
  - intros T n. rewrite Af. transitivity (look M T [n] <> None).
    + split; [intros (N & e & L & E); rewrite (u_label _ _ _ _ _ _ _ F _ _ _ L) in E; congruence|]. intros L. destruct (look M T [n]) as [e|] eqn:E; [|congruence].
      exists n, e. split; [exact E|]. apply (u_label _ _ _ _ _ _ _ F _ _ _ E).
    + rewrite (u_section _ _ _ _ _ _ _ F). unfold present, lists_label. split.
      * intros [(N & L & X)|Q]; [exists N; split; [now left|now apply Lab]|]. destruct r as [k'|]; [|contradiction]. destruct Q as (N & L & X). exists N. split; [now right|now apply Lab].
      * intros (N & [X|Q] & L); apply Lab in L; [left; now exists N|right]. destruct r as [k'|]; [|contradiction]. now exists N.
  - intros T N e L. unfold part_right. rewrite Au, Af, (u_label _ _ _ _ _ _ _ F _ _ _ L).
    apply (proj2 (u_name_is _ _ _ _ _ _ _ F T N (e_size e, e_diff e)) (u_name _ _ _ _ _ _ _ F T N e L)).
  - intros _ T N e L. split; [rewrite Af; apply (u_label _ _ _ _ _ _ _ F _ _ _ L)|]. intros v Mv. unfold part_bytes in Mv. rewrite Au in Mv. apply (u_name_is _ _ _ _ _ _ _ F) in Mv. rewrite Mv. symmetry. apply (u_name _ _ _ _ _ _ _ F T N e L).
Qed.

Lemma layout_printed d c k r o files s render encode ord pf :
  reported d c k r \/ merged d c k r -> of_types (c_args c) -> a_format (c_args c) = FJson2 ->
  run_files d (get_memory_types chip_info) render encode ord pf c o (start files) = (Done tt, s) ->
  exists js, s_printed s = [PJson js] /\ layout_right k r (c_args c) js.
Proof.
  intros Rp (Ta & Td & Tp & Tf) Fo R.
  assert (X : exists M x s1 s2, layout_right k r (c_args c) (json_summary M (final_args (c_args c))) /\ s_printed s1 = [] /\ show x M (final_args (c_args c)) o s1 = (Done tt, s2) /\ s_printed s = s_printed s2).
  { destruct Rp as [Rp|Rp]; pose proof Rp as (_ & _ & Au & Ad).
    - destruct (shown_map _ _ _ _ _ _ _ _ _ _ _ Rp (fun X => ltac:(congruence)) (fun X => ltac:(congruence)) R) as (M & x & s1 & s2 & fu & gn & go & F & _ & _ & P1 & Sh & P2 & N2).
      exists M, x, s1, s2. split; [eapply layout_plain; eassumption|auto].
    - destruct (shown_merged _ _ _ _ _ _ _ _ _ _ _ Rp (fun X => ltac:(congruence)) (fun X => ltac:(congruence)) R) as (M & x & s1 & s2 & fu & gn & go & F & _ & _ & P1 & Sh & P2 & N2).
      exists M, x, s1, s2. split; [eapply layout_merged; eassumption|auto]. }
  destruct X as (M & x & s1 & s2 & L & P1 & Sh & P2). eexists. split; [|exact L].
  unfold show in Sh. change (a_format (final_args (c_args c))) with (a_format (c_args c)) in Sh. rewrite Fo in Sh. unfold json_show in Sh.
  change (a_archives (final_args (c_args c))) with (a_archives (c_args c)) in Sh. change (a_archive_details (final_args (c_args c))) with (a_archive_details (c_args c)) in Sh.
  change (a_archive_dependencies (final_args (c_args c))) with (a_archive_dependencies (c_args c)) in Sh. change (a_files (final_args (c_args c))) with (a_files (c_args c)) in Sh. rewrite Ta, Td, Tp, Tf in Sh.
  apply print_done in Sh. rewrite P2, Sh, P1. reflexivity.
Qed.

(** ** what the entries tell about the reference *)
Lemma own_all_unique im l own n n' : own_all im l own n -> own_all im l own n' -> n = n'.
Proof.
  intros (keep & K & ->) (keep' & K' & ->). f_equal. apply filter_ext. intros o. apply eq_true_iff_eq. rewrite K, K'. reflexivity.
Qed.
Lemma all_unique k r own v w : measured k r (own_bytes own ColTotal) v -> measured k r (own_bytes own ColTotal) w -> v = w.
Proof.
  destruct v as [v1 v2], w as [w1 w2]. intros (A & B) (A' & B'). cbn [fst snd own_bytes] in *. pose proof (own_all_unique _ _ _ _ _ A A') as ->. f_equal.
  destruct r as [k'|]; [|congruence]. destruct B as (n & B & ->), B' as (n' & B' & ->). now rewrite (own_all_unique _ _ _ _ _ B B').
Qed.
Lemma same_entries a b k r q rows i v w : entries_right false k r a rows -> entries_right false k q b rows -> places i k ->
  measured k r (own_bytes (of_archive (it_archive i)) ColTotal) v -> measured k q (own_bytes (of_archive (it_archive i)) ColTotal) w -> v = w.
Proof.
  intros (_ & K1 & E1) (_ & K2 & E2) Pi Mv Mw. destruct (in_dec (list_eq_dec ascii_dec) (it_archive i) (map fst rows)) as [I|I].
  - apply List.in_map_iff in I. destruct I as ([n e] & En & I). cbn in En. subst n.
    destruct (E1 _ _ I) as (i1 & _ & N1 & _ & R1). destruct (E2 _ _ I) as (i2 & _ & N2 & _ & R2). cbn [row_key row_own] in *. rewrite <- N1 in R1. rewrite <- N2 in R2.
    apply er_size in R1. apply er_size in R2. rewrite (all_unique _ _ _ _ _ Mv R1), (all_unique _ _ _ _ _ Mw R2). reflexivity.
  - assert (Z1 : snd v = 0). { destruct (Z.eq_dec (snd v) 0) as [E|N]; [exact E|]. exfalso. apply I, K1. exists i, v. split; [now left|]. split; [reflexivity|]. split; [exact Mv|]. intros _ _. exact N. }
    assert (Z2 : snd w = 0). { destruct (Z.eq_dec (snd w) 0) as [E|N]; [exact E|]. exfalso. apply I, K2. exists i, w. split; [now left|]. split; [reflexivity|]. split; [exact Mw|]. intros _ _. exact N. }
    destruct v as [v1 v2], w as [w1 w2]. destruct Mv as (A & _), Mw as (A' & _). cbn [fst snd own_bytes] in *. rewrite (own_all_unique _ _ _ _ _ A A'). congruence.
Qed.
Lemma same_rows d c c' k r q o o' fs fs' s s' render encode ord pf i v w :
  reported d c k r -> reported d c' k q -> asked false (c_args c) -> asked false (c_args c') ->
  (given (a_archive_details (c_args c)) = true -> a_use_dwarf (c_args c) <> Some true) -> (given (a_archive_details (c_args c')) = true -> a_use_dwarf (c_args c') <> Some true) ->
  a_format (c_args c) = FJson2 -> a_format (c_args c') = FJson2 ->
  run_files d (get_memory_types chip_info) render encode ord pf c o (start fs) = (Done tt, s) ->
  run_files d (get_memory_types chip_info) render encode ord pf c' o' (start fs') = (Done tt, s') -> s_printed s = s_printed s' ->
  places i k -> measured k r (own_bytes (of_archive (it_archive i)) ColTotal) v -> measured k q (own_bytes (of_archive (it_archive i)) ColTotal) w -> v = w.
Proof.
  intros R R' A A' D D' F F' E E' S Pi Mv Mw.
  destruct (entries_json _ _ _ _ _ false _ _ _ _ _ _ R A D (fun X => ltac:(discriminate X)) F E) as (rows & P & Q & _).
  destruct (entries_json _ _ _ _ _ false _ _ _ _ _ _ R' A' D' (fun X => ltac:(discriminate X)) F' E') as (rows' & P' & Q' & _).
  rewrite P, P' in S. injection S as <-. exact (same_entries _ _ _ _ _ _ _ _ _ Q Q' Pi Mv Mw).
Qed.
