From Coq Require Import Ascii String List ZArith Lia Bool Permutation Sorted.
From Verif Require Import Base MemMap SpecTree SpecOps Filter SpecFilter Pipeline SpecPipe SpecBuild SpecBytes SpecShape ProofOps ProofTrim ProofDiff ProofDiff2 ProofSummary ProofSummary2 ProofSummary3 Fixtures PyStr MapFile SpecMap
  ElfRead SpecElf Project SpecProject SpecEnd Chips SpecChips ProofChips Deps Table SpecTable ProofTable ProofTable3 Formats ProofFormats Main SpecMain ProofMain ProofMain4 ProofMain5 Command SpecCommand SpecFail SpecReport
  ProofCommand1 ProofCommand2 ProofCommand3 ProofCommand4 ProofCommand5 ProofCommand6 ProofReport1 ProofReport2 ProofReport3.
Import ListNotations.
Open Scope list_scope.
Open Scope Z_scope.

Lemma tell_notes n o s u s' : tell n o s = (Done u, s') -> s_notes s' = s_notes s ++ [n].
Proof.
  intros E. apply andthen_done in E. destruct E as (u' & s1 & T & E). apply tick_done in T. inversion E; subst. reflexivity.
Qed.

Lemma f2_in {A B} (P : A -> B -> Prop) l l' : Forall2 P l l' -> Forall2 (fun x y => In x l /\ P x y) l l'.
Proof. apply f2_impl. auto. Qed.

(** ** what is printed for a table *)
Lemma prints_done x M a o s1 s2 s : show x M (final_args a) o s1 = (Done tt, s2) -> s_printed s1 = [] -> s_printed s = s_printed s2 -> s_notes s = s_notes s2 ->
  a_format a = FTable \/ a_format a = FText \/ a_format a = FCsv ->
  exists tb t t', table_of x M (final_args a) o t = (Done tb, t') /\ prints a s tb /\
    (a_format a <> FCsv -> is_summary (final_args a) = true -> In (ImageInfo (m_image_size M) (m_image_size_diff M)) (s_notes s)).
Proof.
  intros Sh P1 P2 N2 Fo. set (f := final_args a) in *. unfold show in Sh. change (a_format f) with (a_format a) in Sh.
  assert (Ta : forall t tb t', table_of x M f o t = (Done tb, t') -> s_printed t' = s_printed t).
  { intros t tb t' E. unfold table_of in E. destruct (a_archives f); [now apply table_done in E|]. destruct (given (a_archive_details f)).
    - apply andthen_done in E. destruct E as (q & t1 & E1 & E). apply cod_done in E1. apply table_done in E. destruct E1 as (_ & E1), E as (_ & E). congruence.
    - destruct (a_archive_dependencies f); [now apply cod_done in E|]. destruct (a_files f); now apply table_done in E. }
  assert (Tb : a_format a = FTable \/ a_format a = FText -> table_show x M f o s1 = (Done tt, s2) -> exists tb t t', table_of x M f o t = (Done tb, t') /\ s_printed s = [PTable tb] /\
    (is_summary f = true -> In (ImageInfo (m_image_size M) (m_image_size_diff M)) (s_notes s))).
  { intros _ Sh'. unfold table_show in Sh'. apply andthen_done in Sh'. destruct Sh' as (u0 & t0 & S0 & Sh').
    assert (Q0 : s_printed t0 = s_printed s1).
    { destruct (negb (a_archives f) && negb (given (a_archive_details f)) && a_archive_dependencies f); [apply ret_done in S0; destruct S0 as (_ & ->); reflexivity|].
      unfold show_diff_info in S0. destruct (given (a_diff f)); [now apply tell_done in S0|]. apply ret_done in S0. destruct S0 as (_ & ->). reflexivity. }
    apply andthen_done in Sh'. destruct Sh' as (tb & t1 & S1 & Sh'). pose proof (Ta _ _ _ S1) as Q1.
    apply andthen_done in Sh'. destruct Sh' as (u2 & t2 & S2 & Sh'). apply print_done in S2.
    exists tb, t0, t1. split; [exact S1|].
    destruct (is_summary f).
    - apply andthen_done in Sh'. destruct Sh' as (u3 & t3 & S3 & Sh'). pose proof (tell_done _ _ _ _ _ S3) as Q3. pose proof (tell_done _ _ _ _ _ Sh') as Q4.
      split; [rewrite P2, Q4, Q3, S2, Q1, Q0, P1; reflexivity|]. intros _. apply tell_notes in S3. apply tell_notes in Sh'. rewrite N2, Sh', S3. apply in_or_app. left. apply in_or_app. right. now left.
    - apply ret_done in Sh'. destruct Sh' as (_ & ->). split; [rewrite P2, S2, Q1, Q0, P1; reflexivity|discriminate]. }
  destruct Fo as [Fo|[Fo|Fo]]; rewrite Fo in Sh.
  - destruct (Tb (or_introl Fo) Sh) as (tb & t & t' & E & Pr & Im). exists tb, t, t'. split; [exact E|]. split; [left; split; [now left|exact Pr]|]. intros _. exact Im.
  - destruct (Tb (or_intror Fo) Sh) as (tb & t & t' & E & Pr & Im). exists tb, t, t'. split; [exact E|]. split; [left; split; [now right|exact Pr]|]. intros _. exact Im.
  - unfold csv_show in Sh. apply andthen_done in Sh. destruct Sh as (tb & t1 & S1 & Sh). pose proof (Ta _ _ _ S1) as Q1. apply print_all_done in Sh.
    exists tb, s1, t1. split; [exact S1|]. split; [|congruence]. right. split; [exact Fo|]. exists (csv_lines tb). split; [rewrite P2, Sh, Q1, P1; reflexivity|].
    intros Pl. rewrite <- (csv_reads tb Pl). unfold csv_text. now rewrite flat_map_concat_map.
Qed.

Lemma changed_differs a v : a_archive_dependencies a = false -> changed (final_args a) (snd v) = true <-> differs a v.
Proof.
  intros Ad. unfold changed, differs. assert (E : a_diff (final_args a) = a_diff a). { cbn. unfold conflict_diff. now rewrite Ad. } rewrite E.
  change (a_show_unchanged (final_args a)) with (a_show_unchanged a). destruct (given (a_diff a)), (a_show_unchanged a); cbn [negb orb]; rewrite ?negb_true_iff, ?Z.eqb_neq; tauto || (split; [discriminate|auto]) || (split; auto; congruence).
Qed.
Lemma label_shown a N b : label [N] b -> a_unify a = false -> shown_section a N (if a_abbrev (final_args a) then b else N).
Proof.
  intros Lb U. unfold shown_section. cbn [final_args a_abbrev set_use_dwarf set_abbrev]. cbn [without_conflicts a_no_abbrev]. unfold conflict_abbrev. rewrite U.
  destruct (a_no_abbrev a); cbn [andb negb]; [reflexivity|exact Lb].
Qed.

(** ** the summary table *)
(** how the rows of a table came from the figures of a group *)
Definition made (pf : pct_format) (f : args) (g : pgroup) (rs : list (list str)) : Prop :=
  exists T t ss, g = PGroup T (t_used t, t_used_diff t) (t_size t, t_size_diff t) (map (fun kv : str * sect => (fst kv, (n_size (snd kv), n_diff (snd kv)))) ss) /\
    rs = type_row pf f T t :: map (sect_row pf f t) ss.
Lemma summary_report_rows a k r M fu fn fo pf tb : final a k r M fu fn fo -> a_unify a = false -> a_archive_dependencies a = false ->
  get_summary_table pf M (final_args a) = TOk tb ->
  exists i groups rows, tb_headers tb = usage_headers /\ tb_rows tb = concat rows /\ Forall2 (pgroup_rows a) groups rows /\
    NoDup (map pg_type groups) /\
    (forall T, In T (map pg_type groups) <-> present k r (lists_type a T) /\ exists v, measured k r (used_bytes T) v /\ differs a v) /\
    Forall (pgroup_right k r a) groups /\
    names_column usage_headers (a_sort a) i /\
    (i <> 2%nat -> StronglySorted (fun x y => in_order (a_sort_reverse a) (pick (a_sort_diff a) (pg_value i x)) (pick (a_sort_diff a) (pg_value i y))) groups) /\
    (i = 1%nat -> Forall (fun g => StronglySorted (fun x y => in_order (a_sort_reverse a) (pick (a_sort_diff a) (snd x)) (pick (a_sort_diff a) (snd y))) (pg_sections g)) groups) /\
    Forall2 (made pf (final_args a)) groups rows.
Proof.
  intros F Au Ad Etb. set (f := final_args a) in *.
  assert (Df : a_diff f = a_diff a). { cbn. unfold conflict_diff. now rewrite Ad. }
  destruct (summary_table_rows _ _ _ _ Etb) as (Hd & i & gs & Nc & Pt & Ps & (rows & Er & Fr & Fm0) & So). clear Etb.
  pose proof (f_wf _ _ _ _ _ _ _ F) as W. assert (Wd : wf_dict (m_types M)) by apply W.
  set (of_sect := fun kv : str * sect => (fst kv, (n_size (snd kv), n_diff (snd kv)))).
  set (of_group := fun g : (str * mtype) * list (str * sect) =>
    PGroup (fst (fst g)) (t_used (snd (fst g)), t_used_diff (snd (fst g))) (t_size (snd (fst g)), t_size_diff (snd (fst g))) (map of_sect (snd g))).
  set (groups := map of_group gs).
  (* where a group comes from *)
  assert (Gt : forall g, In g gs -> exists t, dget (fst (fst g)) (m_types M) = Some t /\ snd (fst g) = trim_type f t /\ changed f (t_used_diff t) = true /\
    Permutation (dmap (trim_sect f) (filter (fun kv => changed f (n_diff (snd kv))) (t_sections t))) (snd g)).
  { intros g Ig. assert (I1 : In (fst g) (m_types (trim M f))) by (eapply Permutation_in; [apply Permutation_sym, Pt|now apply List.in_map]).
    unfold trim in I1. cbn [with_types m_types] in I1. unfold dmap in I1. apply List.in_map_iff in I1. destruct I1 as ([T t] & E & I1). apply filter_In in I1. destruct I1 as (I1 & C).
    exists t. rewrite <- E. cbn [fst snd] in *. split; [now apply In_dget|]. split; [reflexivity|]. split; [exact C|].
    rewrite Forall_forall in Ps. specialize (Ps g Ig). rewrite <- E in Ps. exact Ps. }
  assert (Tg : forall T, In T (map (fun g : (str * mtype) * list (str * sect) => fst (fst g)) gs) <-> exists t, dget T (m_types M) = Some t /\ changed f (t_used_diff t) = true).
  { intros T. split.
    - intros I. apply List.in_map_iff in I. destruct I as (g & <- & Ig). destruct (Gt g Ig) as (t & E & _ & C & _). eauto.
    - intros (t & E & C). assert (I : In (T, trim_type f t) (m_types (trim M f))).
      { unfold trim. cbn [with_types m_types]. unfold dmap. apply List.in_map_iff. exists (T, t). split; [reflexivity|]. apply filter_In. split; [now apply dget_In|exact C]. }
      apply (Permutation_in _ Pt) in I. apply List.in_map_iff in I. destruct I as (g & E2 & Ig). apply List.in_map_iff. exists g. rewrite E2. now split. }
  assert (Nk : NoDup (map (fun g : (str * mtype) * list (str * sect) => fst (fst g)) gs)).
  { apply (Permutation_map fst) in Pt. rewrite map_map in Pt. eapply Permutation_NoDup; [exact Pt|]. unfold trim. cbn [with_types m_types]. unfold dmap. rewrite map_map. cbn [fst]. apply NoDup_map_filter. exact Wd. }
  assert (Names : map pg_type groups = map (fun g : (str * mtype) * list (str * sect) => fst (fst g)) gs) by (unfold groups; now rewrite map_map).
  assert (Sec : forall g t n sx, In g gs -> dget (fst (fst g)) (m_types M) = Some t -> In (n, sx) (snd g) -> exists s0, dget n (t_sections t) = Some s0 /\ sx = trim_sect f s0 /\ changed f (n_diff s0) = true).
  { intros g t n sx Ig Et Is. destruct (Gt g Ig) as (t' & Et' & _ & _ & Pg). replace t' with t in Pg by congruence. apply (Permutation_in _ (Permutation_sym Pg)) in Is.
    unfold dmap in Is. apply List.in_map_iff in Is. destruct Is as ([n0 s0] & E & Is). cbn [fst snd] in E. injection E as -> <-. apply filter_In in Is. destruct Is as (Is & C).
    exists s0. split; [|split; [reflexivity|exact C]]. apply In_dget; [|exact Is]. destruct W as (_ & W2). rewrite Forall_forall in W2. apply dget_In in Et. specialize (W2 _ Et). apply W2. }
  assert (Md : Forall2 (made pf f) groups rows).
  { unfold groups. clear - Fm0. induction Fm0 as [|g rs gs rows E Fm0 IH]; cbn [map]; constructor; [|exact IH]. exists (fst (fst g)), (snd (fst g)), (snd g). now split. }
  exists i, groups, rows. split; [exact Hd|]. split; [exact Er|]. split; [|split; [|split; [|split; [|split; [exact Nc|split; [|split; [|exact Md]]]]]]].
  - unfold groups. assert (Fr' : Forall2 (fun g r0 => In g gs /\ SpecTable.shown_type f g r0) gs rows) by (now apply f2_in).
    assert (Go : forall l q, Forall2 (fun g r0 => In g gs /\ SpecTable.shown_type f g r0) l q -> Forall2 (pgroup_rows a) (map of_group l) q); [|now apply Go].
    intros l q H. induction H as [|g r0 l q (Ig & H) _ IH]; [constructor|]. cbn [map]. constructor; [|exact IH]. clear IH Fr'.
    destruct H as (h & rest & -> & (used & pct & remain & total & -> & Cu & Cr) & Fq). rewrite Df in Cu, Cr.
    exists used, pct, remain, total, rest. cbn [of_group pg_type pg_used pg_total pg_sections fst snd]. split; [reflexivity|]. split; [exact Cu|]. split.
    + unfold type_value in Cr. cbn [pg_value pg_used pg_total fst snd of_group]. destruct (t_size (snd (fst g)) =? 0) eqn:Z0; [exact Cr|]. exact Cr.
    + destruct (Gt g Ig) as (t & Et & _).
      assert (Fs : Forall2 (fun kv q => In kv (snd g) /\ sect_row_shows f kv q) (snd g) rest) by (now apply f2_in).
      clear Fq Cr Cu. assert (Sec' : forall n sx, In (n, sx) (snd g) -> exists s0, dget n (t_sections t) = Some s0 /\ sx = trim_sect f s0 /\ changed f (n_diff s0) = true) by (intros; eapply (Sec g); eauto).
      clear Sec. revert Fs Sec'. generalize (snd g). intros ql Fs. assert (Fs' : Forall2 (fun kv qq => sect_row_shows f kv qq) ql rest) by (eapply f2_impl; [|exact Fs]; intros ? ? _ (_ & X); exact X). clear Fs. induction Fs' as [|[n sx] row ql rest (u0 & p0 & -> & Cs) Fs IH]; intros Sec'; [constructor|]. cbn [map]. constructor.
      * cbn [of_sect fst snd] in *. rewrite Df in Cs. exists (if a_abbrev f then n_abbrev sx else n), u0, p0. split; [reflexivity|]. split; [|exact Cs]. cbn [of_sect fst].
        destruct (Sec' n sx (or_introl eq_refl)) as (s0 & G0 & -> & _). apply label_shown; [|exact Au]. cbn [trim_sect n_abbrev].
        apply (f_label _ _ _ _ _ _ _ F (fst (fst g)) [n] (entry_of_node s0)). unfold look. rewrite Et. cbn [look_dict]. rewrite G0. reflexivity.
      * apply IH. intros; apply Sec'. now right.
  - rewrite Names. exact Nk.
  - intros T. rewrite Names, Tg. split.
    + intros (t & E & C). split; [apply (f_listed _ _ _ _ _ _ _ F); congruence|]. exists (t_used t, t_used_diff t). split; [apply (f_used_is _ _ _ _ _ _ _ F), (f_used _ _ _ _ _ _ _ F), E|].
      apply changed_differs; [exact Ad|exact C].
    + intros (P & v & Mv & Dv). apply (f_listed _ _ _ _ _ _ _ F) in P. destruct (dget T (m_types M)) as [t|] eqn:E; [|congruence]. exists t. split; [reflexivity|].
      apply (f_used_is _ _ _ _ _ _ _ F) in Mv. rewrite <- (f_used _ _ _ _ _ _ _ F T t E) in Mv. subst v. apply changed_differs in Dv; [exact Dv|exact Ad].
  - apply Forall_forall. intros pg Ipg. unfold groups in Ipg. apply List.in_map_iff in Ipg. destruct Ipg as (g & <- & Ig). destruct (Gt g Ig) as (t & Et & Eg & C & Pg).
    assert (Ws : wf_dict (t_sections t)). { destruct W as (_ & W2). rewrite Forall_forall in W2. apply dget_In in Et. specialize (W2 _ Et). apply W2. }
    split; cbn [of_group pg_type pg_used pg_total pg_sections]; rewrite ?Eg; cbn [trim_type t_used t_used_diff t_size t_size_diff fst snd].
    + apply (f_used_is _ _ _ _ _ _ _ F), (f_used _ _ _ _ _ _ _ F), Et.
    + pose proof (f_total _ _ _ _ _ _ _ F _ _ Et) as X. exact (proj1 X).
    + intros X. apply (f_total _ _ _ _ _ _ _ F _ _ Et). exact X.
    + rewrite map_map. cbn [of_sect fst]. apply (Permutation_map fst) in Pg. eapply Permutation_NoDup; [exact Pg|]. unfold dmap. rewrite map_map. cbn [fst]. apply NoDup_map_filter. exact Ws.
    + intros N v. split.
      * intros I. apply List.in_map_iff in I. destruct I as ([n sx] & E & I). unfold of_sect in E. cbn [fst snd] in E. injection E as -> <-.
        destruct (Sec g t N sx Ig Et I) as (s0 & G0 & -> & Cs). cbn [trim_sect n_size n_diff].
        assert (Lk : look M (fst (fst g)) [N] = Some (entry_of_node s0)) by (unfold look; rewrite Et; cbn [look_dict]; rewrite G0; reflexivity).
        split; [apply (f_section _ _ _ _ _ _ _ F); congruence|]. split; [|apply changed_differs; [exact Ad|exact Cs]].
        apply (f_name_is _ _ _ _ _ _ _ F). symmetry. apply (f_name _ _ _ _ _ _ _ F) in Lk. now symmetry.
      * intros (P & Mv & Dv). apply (f_section _ _ _ _ _ _ _ F) in P. destruct (look M (fst (fst g)) [N]) as [e|] eqn:Lk; [|congruence]. apply (f_name_is _ _ _ _ _ _ _ F) in Mv.
        pose proof (f_name _ _ _ _ _ _ _ F _ _ _ Lk) as Ne. unfold look in Lk. rewrite Et in Lk. cbn [look_dict] in Lk. destruct (dget N (t_sections t)) as [s0|] eqn:G0; [|discriminate]. cbn in Lk. injection Lk as <-.
        rewrite <- Ne in Mv. subst v. cbn [entry_of_node e_size e_diff] in *. apply changed_differs in Dv; [|exact Ad]. cbn [snd] in Dv.
        apply List.in_map_iff. exists (N, trim_sect f s0). split; [reflexivity|]. apply (Permutation_in _ Pg). unfold dmap. apply List.in_map_iff. exists (N, s0). split; [reflexivity|].
        apply filter_In. split; [now apply dget_In|exact Dv].
  - intros Ni. destruct (So Ni) as (S1 & _). change (a_sort_diff f) with (a_sort_diff a) in S1. change (a_sort_reverse f) with (a_sort_reverse a) in S1.
    assert (Iv : i = 1%nat \/ i = 3%nat \/ i = 4%nat).
    { change (a_sort f) with (a_sort a) in Nc. assert (B1 : (1 <= i < 5)%nat).
      { destruct Nc as [(z & _ & Hz & Lz)|(_ & L1 & L2 & _)].
        - change (List.length usage_headers) with 5%nat in *. destruct Hz as [Hz|Hz]; lia.
        - split; [exact L1|]. change 5%nat with (List.length usage_headers). apply nth_error_Some. congruence. }
      lia. }
    assert (Fm : Forall2 (fun (kv : str * mtype) pg => forall i, i = 1%nat \/ i = 3%nat \/ i = 4%nat -> type_value i (snd kv) = pg_value i pg) (map fst gs) groups).
    { unfold groups. clear. induction gs as [|g q IH]; cbn [map]; constructor; [|exact IH]. intros i [->|[->| ->]]; reflexivity. }
    refine (sorted_f2 _ _ _ _ _ _ Fm S1). intros kv kv' pg pg' E1 E2. rewrite (E1 i Iv), (E2 i Iv). auto.
  - intros ->. destruct (So ltac:(discriminate)) as (_ & S1). change (a_sort_diff f) with (a_sort_diff a) in S1. change (a_sort_reverse f) with (a_sort_reverse a) in S1.
    unfold groups. apply Forall_forall. intros pg Ipg. apply List.in_map_iff in Ipg. destruct Ipg as (g & <- & Ig). rewrite Forall_forall in S1. specialize (S1 g Ig). cbn [of_group pg_sections].
    assert (Fm : Forall2 (fun (kv : str * sect) q => sect_value 1 (snd kv) = snd q) (snd g) (map of_sect (snd g))).
    { clear. induction (snd g) as [|kv q IH]; cbn [map]; constructor; [reflexivity|exact IH]. }
    refine (sorted_f2 _ _ _ _ _ _ Fm S1). intros kv kv' q q' E1 E2. rewrite E1, E2. auto.
Qed.
Lemma summary_report a k r M fu fn fo pf tb : final a k r M fu fn fo -> a_unify a = false -> a_archive_dependencies a = false ->
  get_summary_table pf M (final_args a) = TOk tb ->
  exists i groups rows, tb_headers tb = usage_headers /\ tb_rows tb = concat rows /\ Forall2 (pgroup_rows a) groups rows /\
    NoDup (map pg_type groups) /\
    (forall T, In T (map pg_type groups) <-> present k r (lists_type a T) /\ exists v, measured k r (used_bytes T) v /\ differs a v) /\
    Forall (pgroup_right k r a) groups /\
    names_column usage_headers (a_sort a) i /\
    (i <> 2%nat -> StronglySorted (fun x y => in_order (a_sort_reverse a) (pick (a_sort_diff a) (pg_value i x)) (pick (a_sort_diff a) (pg_value i y))) groups) /\
    (i = 1%nat -> Forall (fun g => StronglySorted (fun x y => in_order (a_sort_reverse a) (pick (a_sort_diff a) (snd x)) (pick (a_sort_diff a) (snd y))) (pg_sections g)) groups).
Proof.
  intros F Au Ad E. destruct (summary_report_rows _ _ _ _ _ _ _ _ _ F Au Ad E) as (i & groups & rows & H). exists i, groups, rows. decompose [and] H. repeat (split; [assumption|]). assumption.
Qed.

Lemma usage_report d c k r o files s render encode ord pf :
  reported d c k r -> of_types (c_args c) -> a_format (c_args c) = FTable \/ a_format (c_args c) = FText \/ a_format (c_args c) = FCsv ->
  run_files d (get_memory_types chip_info) render encode ord pf c o (start files) = (Done tt, s) ->
  exists tb i groups rows, prints (c_args c) s tb /\ tb_headers tb = usage_headers /\ tb_rows tb = concat rows /\ Forall2 (pgroup_rows (c_args c)) groups rows /\
    NoDup (map pg_type groups) /\
    (forall T, In T (map pg_type groups) <-> present k r (lists_type (c_args c) T) /\ exists v, measured k r (used_bytes T) v /\ differs (c_args c) v) /\
    Forall (pgroup_right k r (c_args c)) groups /\
    names_column usage_headers (a_sort (c_args c)) i /\
    (i <> 2%nat -> StronglySorted (fun x y => in_order (a_sort_reverse (c_args c)) (pick (a_sort_diff (c_args c)) (pg_value i x)) (pick (a_sort_diff (c_args c)) (pg_value i y))) groups) /\
    (i = 1%nat -> Forall (fun g => StronglySorted (fun x y => in_order (a_sort_reverse (c_args c)) (pick (a_sort_diff (c_args c)) (snd x)) (pick (a_sort_diff (c_args c)) (snd y))) (pg_sections g)) groups) /\
    (a_format (c_args c) <> FCsv -> exists v, measured k r (fun q => image_bytes (ac_im q) (ac_l q)) v /\ In (ImageInfo (fst v) (snd v)) (s_notes s)).
Proof.
  intros Rp (Ta & Td & Tp & Tf) Fo R. pose proof Rp as (_ & _ & Au & Ad).
  destruct (shown_map _ _ _ _ _ _ _ _ _ _ _ Rp (fun X => ltac:(congruence)) (fun X => ltac:(rewrite X in Fo; destruct Fo as [?|[?|?]]; discriminate)) R) as (M & x & s1 & s2 & fu & fn & fo & F & _ & _ & P1 & Sh & P2 & N2).
  destruct (prints_done x M (c_args c) o s1 s2 s Sh P1 P2 N2 Fo) as (tb & t & t' & E & Pr & Im).
  unfold table_of in E. cbn [final_args set_use_dwarf set_abbrev without_conflicts a_archives a_archive_details a_archive_dependencies a_files] in E. rewrite Ta, Td, Tp, Tf in E.
  apply table_done in E. destruct E as (E & _). destruct (summary_report _ _ _ _ _ _ _ _ _ F Au Ad E) as (i & groups & rows & H1 & H2 & H3 & H4 & H5 & H6 & H7 & H8 & H9).
  exists tb, i, groups, rows. do 10 (split; [assumption|]). intros Nf. exists (m_image_size M, m_image_size_diff M). split; [apply (f_image _ _ _ _ _ _ _ F)|].
  apply Im; [exact Nf|]. unfold is_summary. cbn [final_args set_use_dwarf set_abbrev without_conflicts a_archives a_archive_details a_archive_dependencies a_files]. rewrite Ta, Td, Tp, Tf. reflexivity.
Qed.
