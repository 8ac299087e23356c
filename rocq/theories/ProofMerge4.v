From Coq Require Import Ascii String List ZArith Lia Bool Permutation Sorted.
From Verif Require Import Base MemMap SpecTree SpecOps Filter SpecFilter Pipeline SpecPipe SpecBuild SpecBytes SpecShape ProofOps ProofTrim ProofDiff ProofDiff2 ProofSummary ProofSummary2 ProofSummary3 Fixtures PyStr MapFile SpecMap
  ElfRead SpecElf Project SpecProject SpecEnd Chips SpecChips ProofChips Deps Table SpecTable ProofTable ProofTable3 Formats ProofFormats Main SpecMain ProofMain ProofMain4 ProofMain5 Command SpecCommand SpecFail SpecReport
  ProofCommand1 ProofCommand2 ProofCommand3 ProofCommand4 ProofCommand5 ProofCommand6 ProofReport1 ProofReport2 ProofReport3 ProofReport4 ProofReport5 ProofReport6 ProofUnify SpecMerge ProofMerge1 ProofMerge2 ProofMerge3.
Import ListNotations.
Open Scope list_scope.
Open Scope Z_scope.

Lemma command_merged d chips render encode ord pf c o files s : run_files d chips render encode ord pf c o (start files) = (Done tt, s) ->
  a_unify (c_args c) = true -> a_archive_dependencies (c_args c) = false -> let a := final_args (c_args c) in
  exists m x M s1 s2, get_files d chips (c_input c) (load_symbols (c_args c)) (dwarf_option (c_args c)) = Ok m /\
    x_order x = ord /\ x_pct x = pf /\
    ((given (a_diff (c_args c)) = false /\ M = prepare (c_args c) m) \/
     exists fn r, a_diff (c_args c) = Some fn /\ fn <> [] /\ get_files d chips fn (load_symbols (c_args c)) (dwarf_option (c_args c)) = Ok r /\
       M = diff (prepare (c_args c) m) (prepare (with_flash (c_args c)) r)) /\
    s_printed s1 = [] /\ show x (unify M) a o s1 = (Done tt, s2) /\ s_printed s = s_printed s2 /\ s_notes s = s_notes s2.
Proof.
  intros R Au Ad a. apply run_any in R. destruct R as (mf & e & m & mf' & x & M & s1 & s2 & Mf & E & G & X & D & P1 & Sh & P2 & N2).
  change (a_unify (final_args (c_args c))) with (a_unify (c_args c)) in Sh. rewrite Au in Sh.
  rewrite final_load, final_dwarf in G.
  assert (Da : a_diff (final_args (c_args c)) = a_diff (c_args c)). { cbn. unfold conflict_diff. rewrite Ad. reflexivity. }
  exists m, x, M, s1, s2. split; [eapply load_project_get; eassumption|]. rewrite X. split; [reflexivity|]. split; [reflexivity|]. rewrite Da, ?final_load, ?final_dwarf in D. rewrite <- X.
  split; [|repeat (split; [assumption|]); exact N2].
  destruct D as [(D & ->)|(fn & r & mf2 & D & Nf & Gr & ->)]; [left; split; [exact D|reflexivity]|]. right. exists fn, r. split; [exact D|]. split; [exact Nf|]. split; [|reflexivity].
  eapply load_project_ref. exact Gr.
Qed.
Lemma shown_merged d c k r o files s render encode ord pf :
  merged d c k r -> (given (a_archive_details (c_args c)) = true -> a_use_dwarf (c_args c) <> Some true) -> a_format (c_args c) <> FRaw ->
  run_files d (get_memory_types chip_info) render encode ord pf c o (start files) = (Done tt, s) ->
  exists M x s1 s2 fu gn go, ufinal (c_args c) k r M fu gn go /\ x_order x = ord /\ x_pct x = pf /\ s_printed s1 = [] /\
    show x M (final_args (c_args c)) o s1 = (Done tt, s2) /\ s_printed s = s_printed s2 /\ s_notes s = s_notes s2.
Proof.
  intros (Pk & Rr & Au & Ad) Dd Fm R. apply command_merged in R; [|exact Au|exact Ad]. destruct R as (m & x & M & s1 & s2 & G & X1 & X2 & D & P1 & Sh & P2 & N2).
  destruct Pk as (dir & name & text & crt & Ci & Bt & Wd & Fi). rewrite Ci in G.
  destruct (built_ledger _ _ _ _ _ _ _ _ _ (c_args c) _ _ _ Bt G (without_dwarf_option _ _ _ Wd Dd Fm) Fi) as (lu & ln & lo & L).
  assert (L' : ledger (c_args c) k (prepare (c_args c) m) lu ln lo) by (destruct k; exact L). clear L.
  exists (unify M), x, s1, s2. destruct D as [(D & ->)|(fn & r0 & D & Nf & G2 & ->)].
  - assert (r = None) as ->. { destruct r as [k'|]; [|reflexivity]. destruct Rr as (fn & E & dir' & name' & text' & crt' & En & Bt' & _). exfalso. rewrite E in D.
      destruct fn; [|discriminate D]. pose proof (bt_name _ _ _ _ _ _ _ _ _ Bt') as Pn. apply (f_equal (@length ascii)) in En. unfold in_dir in En. rewrite app_length in En. destruct Pn as (Pn & _). destruct name'; [contradiction|]. cbn in En. lia. }
    do 3 eexists. split; [apply unified_final, final_alone; exact L'|]. now repeat split.
  - destruct r as [k'|]; [|cbn in Rr; rewrite D in Rr; destruct fn; [contradiction|discriminate]].
    destruct Rr as (fn' & E & dir' & name' & text' & crt' & En & Bt' & Wd' & Fi'). rewrite D in E. injection E as <-. rewrite En in G2.
    destruct (built_ledger _ _ _ _ _ _ _ _ _ (with_flash (c_args c)) _ _ _ Bt' G2 (without_dwarf_option _ _ _ Wd' Dd Fm) Fi') as (lu' & ln' & lo' & R).
    assert (R' : ledger (with_flash (c_args c)) k' (prepare (with_flash (c_args c)) r0) lu' ln' lo') by (destruct k'; exact R).
    do 3 eexists. split; [apply unified_final; eapply final_diff_ok; eassumption|]. now repeat split.
Qed.

Lemma merged_abbrev a : a_unify a = true -> a_abbrev (final_args a) = true.
Proof. intros U. cbn [final_args a_abbrev set_use_dwarf set_abbrev]. cbn [without_conflicts a_no_abbrev]. unfold conflict_abbrev. rewrite U. now destruct (a_no_abbrev a). Qed.
Lemma merged_summary_rows a k r M fu gn go pf tb : ufinal a k r M fu gn go -> a_unify a = true -> a_archive_dependencies a = false ->
  get_summary_table pf M (final_args a) = TOk tb ->
  exists i groups rows, tb_headers tb = usage_headers /\ tb_rows tb = concat rows /\ Forall2 (mgroup_rows a) groups rows /\
    NoDup (map pg_type groups) /\
    (forall T, In T (map pg_type groups) <-> present k r (lists_type a T) /\ exists v, measured k r (used_bytes T) v /\ differs a v) /\
    Forall (mgroup_right k r a) groups /\
    names_column usage_headers (a_sort a) i /\
    (i <> 2%nat -> StronglySorted (fun x y => in_order (a_sort_reverse a) (pick (a_sort_diff a) (pg_value i x)) (pick (a_sort_diff a) (pg_value i y))) groups) /\
    (i = 1%nat -> Forall (fun g => StronglySorted (fun x y => in_order (a_sort_reverse a) (pick (a_sort_diff a) (snd x)) (pick (a_sort_diff a) (snd y))) (pg_sections g)) groups) /\
    Forall2 (made pf (final_args a)) groups rows.
Proof.
  intros F Au Ad Etb. set (f := final_args a) in *.
  assert (Df : a_diff f = a_diff a). { cbn. unfold conflict_diff. now rewrite Ad. }
  destruct (summary_table_rows _ _ _ _ Etb) as (Hd & i & gs & Nc & Pt & Ps & (rows & Er & Fr & Fm0) & So). clear Etb.
  pose proof (u_wf _ _ _ _ _ _ _ F) as W. assert (Wd : wf_dict (m_types M)) by apply W.
  set (of_sect := fun kv : str * sect => (fst kv, (n_size (snd kv), n_diff (snd kv)))).
  set (of_group := fun g : (str * mtype) * list (str * sect) =>
    PGroup (fst (fst g)) (t_used (snd (fst g)), t_used_diff (snd (fst g))) (t_size (snd (fst g)), t_size_diff (snd (fst g))) (map of_sect (snd g))).
  set (groups := map of_group gs).
  (* where a group comes from *)
  assert (Gt : forall g, In g gs -> exists t, dget (fst (fst g)) (m_types M) = Some t /\ snd (fst g) = trim_type f t /\ changed f (t_used_diff t) = true /\
    Permutation (dmap (trim_sect f) (filter (fun kv => changed f (n_diff (snd kv))) (t_sections t))) (snd g)).
  { intros g Ig. assert (I1 : In (fst g) (m_types (trim M f))) by (eapply Permutation_in; [apply Permutation_sym, Pt|now apply List.in_map]).
    unfold trim in I1. cbn [with_types m_types] in I1. unfold dmap in I1. apply List.in_map_iff in I1. destruct I1 as ([T t] & E & I1). apply filter_In in I1. destruct I1 as (I1 & C).
    exists t. rewrite <- E. cbn [fst snd] in *. split; [now apply In_dget|]. split; [reflexivity|]. split; [exact C|].
    rewrite Forall_forall in Ps. specialize (Ps g Ig). rewrite <- E in Ps. exact Ps. }
  assert (Tg : forall T, In T (map (fun g : (str * mtype) * list (str * sect) => fst (fst g)) gs) <-> exists t, dget T (m_types M) = Some t /\ changed f (t_used_diff t) = true).
  { intros T. split.
    - intros I. apply List.in_map_iff in I. destruct I as (g & <- & Ig). destruct (Gt g Ig) as (t & E & _ & C & _). eauto.
    - intros (t & E & C). assert (I : In (T, trim_type f t) (m_types (trim M f))).
      { unfold trim. cbn [with_types m_types]. unfold dmap. apply List.in_map_iff. exists (T, t). split; [reflexivity|]. apply filter_In. split; [now apply dget_In|exact C]. }
      apply (Permutation_in _ Pt) in I. apply List.in_map_iff in I. destruct I as (g & E2 & Ig). apply List.in_map_iff. exists g. rewrite E2. now split. }
  assert (Nk : NoDup (map (fun g : (str * mtype) * list (str * sect) => fst (fst g)) gs)).
  { apply (Permutation_map fst) in Pt. rewrite map_map in Pt. eapply Permutation_NoDup; [exact Pt|]. unfold trim. cbn [with_types m_types]. unfold dmap. rewrite map_map. cbn [fst]. apply NoDup_map_filter. exact Wd. }
  assert (Names : map pg_type groups = map (fun g : (str * mtype) * list (str * sect) => fst (fst g)) gs) by (unfold groups; now rewrite map_map).
  assert (Sec : forall g t n sx, In g gs -> dget (fst (fst g)) (m_types M) = Some t -> In (n, sx) (snd g) -> exists s0, dget n (t_sections t) = Some s0 /\ sx = trim_sect f s0 /\ changed f (n_diff s0) = true).
  { intros g t n sx Ig Et Is. destruct (Gt g Ig) as (t' & Et' & _ & _ & Pg). replace t' with t in Pg by congruence. apply (Permutation_in _ (Permutation_sym Pg)) in Is.
    unfold dmap in Is. apply List.in_map_iff in Is. destruct Is as ([n0 s0] & E & Is). cbn [fst snd] in E. injection E as -> <-. apply filter_In in Is. destruct Is as (Is & C).
    exists s0. split; [|split; [reflexivity|exact C]]. apply In_dget; [|exact Is]. destruct W as (_ & W2). rewrite Forall_forall in W2. apply dget_In in Et. specialize (W2 _ Et). apply W2. }
  assert (Md : Forall2 (made pf f) groups rows).
  { unfold groups. clear - Fm0. induction Fm0 as [|g rs gs rows E Fm0 IH]; cbn [map]; constructor; [|exact IH]. exists (fst (fst g)), (snd (fst g)), (snd g). now split. }
  exists i, groups, rows. split; [exact Hd|]. split; [exact Er|]. split; [|split; [|split; [|split; [|split; [exact Nc|split; [|split; [|exact Md]]]]]]].
  - unfold groups. assert (Fr' : Forall2 (fun g r0 => In g gs /\ SpecTable.shown_type f g r0) gs rows) by (now apply f2_in).
    assert (Go : forall l q, Forall2 (fun g r0 => In g gs /\ SpecTable.shown_type f g r0) l q -> Forall2 (mgroup_rows a) (map of_group l) q); [|now apply Go].
    intros l q H. induction H as [|g r0 l q (Ig & H) _ IH]; [constructor|]. cbn [map]. constructor; [|exact IH]. clear IH Fr'.
    destruct H as (h & rest & -> & (used & pct & remain & total & -> & Cu & Cr) & Fq). rewrite Df in Cu, Cr.
    exists used, pct, remain, total, rest. cbn [of_group pg_type pg_used pg_total pg_sections fst snd]. split; [reflexivity|]. split; [exact Cu|]. split.
    + unfold type_value in Cr. cbn [pg_value pg_used pg_total fst snd of_group]. destruct (t_size (snd (fst g)) =? 0) eqn:Z0; [exact Cr|]. exact Cr.
    + destruct (Gt g Ig) as (t & Et & _).
      assert (Fs : Forall2 (fun kv q => In kv (snd g) /\ sect_row_shows f kv q) (snd g) rest) by (now apply f2_in).
      clear Fq Cr Cu. assert (Sec' : forall n sx, In (n, sx) (snd g) -> exists s0, dget n (t_sections t) = Some s0 /\ sx = trim_sect f s0 /\ changed f (n_diff s0) = true) by (intros; eapply (Sec g); eauto).
      clear Sec. revert Fs Sec'. generalize (snd g). intros ql Fs. assert (Fs' : Forall2 (fun kv qq => sect_row_shows f kv qq) ql rest) by (eapply f2_impl; [|exact Fs]; intros ? ? _ (_ & X); exact X). clear Fs. induction Fs' as [|[n sx] row ql rest (u0 & p0 & -> & Cs) Fs IH]; intros Sec'; [constructor|]. cbn [map]. constructor.
      * cbn [of_sect fst snd] in *. rewrite Df in Cs. exists u0, p0. split; [|exact Cs]. do 2 f_equal.
        destruct (Sec' n sx (or_introl eq_refl)) as (s0 & G0 & -> & _). pose proof (merged_abbrev a Au) as Af. fold f in Af. rewrite Af. cbn [trim_sect n_abbrev of_sect fst]. apply (u_label _ _ _ _ _ _ _ F (fst (fst g)) n (entry_of_node s0)). unfold look. rewrite Et. cbn [look_dict]. rewrite G0. reflexivity.
      * apply IH. intros; apply Sec'. now right.
  - rewrite Names. exact Nk.
  - intros T. rewrite Names, Tg. split.
    + intros (t & E & C). split; [apply (u_listed _ _ _ _ _ _ _ F); congruence|]. exists (t_used t, t_used_diff t). split; [apply (u_used_is _ _ _ _ _ _ _ F), (u_used _ _ _ _ _ _ _ F), E|].
      apply changed_differs; [exact Ad|exact C].
    + intros (P & v & Mv & Dv). apply (u_listed _ _ _ _ _ _ _ F) in P. destruct (dget T (m_types M)) as [t|] eqn:E; [|congruence]. exists t. split; [reflexivity|].
      apply (u_used_is _ _ _ _ _ _ _ F) in Mv. rewrite <- (u_used _ _ _ _ _ _ _ F T t E) in Mv. subst v. apply changed_differs in Dv; [exact Dv|exact Ad].
  - apply Forall_forall. intros pg Ipg. unfold groups in Ipg. apply List.in_map_iff in Ipg. destruct Ipg as (g & <- & Ig). destruct (Gt g Ig) as (t & Et & Eg & C & Pg).
    assert (Ws : wf_dict (t_sections t)). { destruct W as (_ & W2). rewrite Forall_forall in W2. apply dget_In in Et. specialize (W2 _ Et). apply W2. }
    split; cbn [of_group pg_type pg_used pg_total pg_sections]; rewrite ?Eg; cbn [trim_type t_used t_used_diff t_size t_size_diff fst snd].
    + apply (u_used_is _ _ _ _ _ _ _ F), (u_used _ _ _ _ _ _ _ F), Et.
    + pose proof (u_total _ _ _ _ _ _ _ F _ _ Et) as X. exact (proj1 X).
    + intros X. apply (u_total _ _ _ _ _ _ _ F _ _ Et). exact X.
    + rewrite map_map. cbn [of_sect fst]. apply (Permutation_map fst) in Pg. eapply Permutation_NoDup; [exact Pg|]. unfold dmap. rewrite map_map. cbn [fst]. apply NoDup_map_filter. exact Ws.
    + intros N v. split.
      * intros I. apply List.in_map_iff in I. destruct I as ([n sx] & E & I). unfold of_sect in E. cbn [fst snd] in E. injection E as -> <-.
        destruct (Sec g t N sx Ig Et I) as (s0 & G0 & -> & Cs). cbn [trim_sect n_size n_diff].
        assert (Lk : look M (fst (fst g)) [N] = Some (entry_of_node s0)) by (unfold look; rewrite Et; cbn [look_dict]; rewrite G0; reflexivity).
        split; [apply (u_section _ _ _ _ _ _ _ F); congruence|]. split; [|apply changed_differs; [exact Ad|exact Cs]].
        apply (u_name_is _ _ _ _ _ _ _ F). symmetry. apply (u_name _ _ _ _ _ _ _ F) in Lk. now symmetry.
      * intros (P & Mv & Dv). apply (u_section _ _ _ _ _ _ _ F) in P. destruct (look M (fst (fst g)) [N]) as [e|] eqn:Lk; [|congruence]. apply (u_name_is _ _ _ _ _ _ _ F) in Mv.
        pose proof (u_name _ _ _ _ _ _ _ F _ _ _ Lk) as Ne. unfold look in Lk. rewrite Et in Lk. cbn [look_dict] in Lk. destruct (dget N (t_sections t)) as [s0|] eqn:G0; [|discriminate]. cbn in Lk. injection Lk as <-.
        rewrite <- Ne in Mv. subst v. cbn [entry_of_node e_size e_diff] in *. apply changed_differs in Dv; [|exact Ad]. cbn [snd] in Dv.
        apply List.in_map_iff. exists (N, trim_sect f s0). split; [reflexivity|]. apply (Permutation_in _ Pg). unfold dmap. apply List.in_map_iff. exists (N, s0). split; [reflexivity|].
        apply filter_In. split; [now apply dget_In|exact Dv].
  - intros Ni. destruct (So Ni) as (S1 & _). change (a_sort_diff f) with (a_sort_diff a) in S1. change (a_sort_reverse f) with (a_sort_reverse a) in S1.
    assert (Iv : i = 1%nat \/ i = 3%nat \/ i = 4%nat).
    { change (a_sort f) with (a_sort a) in Nc. assert (B1 : (1 <= i < 5)%nat).
      { destruct Nc as [(z & _ & Hz & Lz)|(_ & L1 & L2 & _)].
        - change (List.length usage_headers) with 5%nat in *. destruct Hz as [Hz|Hz]; lia.
        - split; [exact L1|]. change 5%nat with (List.length usage_headers). apply nth_error_Some. congruence. }
      lia. }
    assert (Fm : Forall2 (fun (kv : str * mtype) pg => forall i, i = 1%nat \/ i = 3%nat \/ i = 4%nat -> type_value i (snd kv) = pg_value i pg) (map fst gs) groups).
    { unfold groups. clear. induction gs as [|g q IH]; cbn [map]; constructor; [|exact IH]. intros i [->|[->| ->]]; reflexivity. }
    refine (sorted_f2 _ _ _ _ _ _ Fm S1). intros kv kv' pg pg' E1 E2. rewrite (E1 i Iv), (E2 i Iv). auto.
  - intros ->. destruct (So ltac:(discriminate)) as (_ & S1). change (a_sort_diff f) with (a_sort_diff a) in S1. change (a_sort_reverse f) with (a_sort_reverse a) in S1.
    unfold groups. apply Forall_forall. intros pg Ipg. apply List.in_map_iff in Ipg. destruct Ipg as (g & <- & Ig). rewrite Forall_forall in S1. specialize (S1 g Ig). cbn [of_group pg_sections].
    assert (Fm : Forall2 (fun (kv : str * sect) q => sect_value 1 (snd kv) = snd q) (snd g) (map of_sect (snd g))).
    { clear. induction (snd g) as [|kv q IH]; cbn [map]; constructor; [reflexivity|exact IH]. }
    refine (sorted_f2 _ _ _ _ _ _ Fm S1). intros kv kv' q q' E1 E2. rewrite E1, E2. auto.
Qed.
Lemma merged_summary a k r M fu gn go pf tb : ufinal a k r M fu gn go -> a_unify a = true -> a_archive_dependencies a = false ->
  get_summary_table pf M (final_args a) = TOk tb ->
  exists i groups rows, tb_headers tb = usage_headers /\ tb_rows tb = concat rows /\ Forall2 (mgroup_rows a) groups rows /\
    NoDup (map pg_type groups) /\
    (forall T, In T (map pg_type groups) <-> present k r (lists_type a T) /\ exists v, measured k r (used_bytes T) v /\ differs a v) /\
    Forall (mgroup_right k r a) groups /\
    names_column usage_headers (a_sort a) i /\
    (i <> 2%nat -> StronglySorted (fun x y => in_order (a_sort_reverse a) (pick (a_sort_diff a) (pg_value i x)) (pick (a_sort_diff a) (pg_value i y))) groups) /\
    (i = 1%nat -> Forall (fun g => StronglySorted (fun x y => in_order (a_sort_reverse a) (pick (a_sort_diff a) (snd x)) (pick (a_sort_diff a) (snd y))) (pg_sections g)) groups).
Proof.
  intros F Au Ad E. destruct (merged_summary_rows _ _ _ _ _ _ _ _ _ F Au Ad E) as (i & groups & rows & H). exists i, groups, rows. decompose [and] H. repeat (split; [assumption|]). assumption.
Qed.
Lemma merged_usage d c k r o files s render encode ord pf :
  merged d c k r -> of_types (c_args c) -> a_format (c_args c) = FTable \/ a_format (c_args c) = FText \/ a_format (c_args c) = FCsv ->
  run_files d (get_memory_types chip_info) render encode ord pf c o (start files) = (Done tt, s) ->
  exists tb i groups rows, prints (c_args c) s tb /\ tb_headers tb = usage_headers /\ tb_rows tb = concat rows /\ Forall2 (mgroup_rows (c_args c)) groups rows /\
    NoDup (map pg_type groups) /\
    (forall T, In T (map pg_type groups) <-> present k r (lists_type (c_args c) T) /\ exists v, measured k r (used_bytes T) v /\ differs (c_args c) v) /\
    Forall (mgroup_right k r (c_args c)) groups /\
    names_column usage_headers (a_sort (c_args c)) i /\
    (i <> 2%nat -> StronglySorted (fun x y => in_order (a_sort_reverse (c_args c)) (pick (a_sort_diff (c_args c)) (pg_value i x)) (pick (a_sort_diff (c_args c)) (pg_value i y))) groups) /\
    (i = 1%nat -> Forall (fun g => StronglySorted (fun x y => in_order (a_sort_reverse (c_args c)) (pick (a_sort_diff (c_args c)) (snd x)) (pick (a_sort_diff (c_args c)) (snd y))) (pg_sections g)) groups) /\
    (a_format (c_args c) <> FCsv -> exists v, measured k r (fun q => image_bytes (ac_im q) (ac_l q)) v /\ In (ImageInfo (fst v) (snd v)) (s_notes s)).
Proof.
  intros Rp (Ta & Td & Tp & Tf) Fo R. pose proof Rp as (_ & _ & Au & Ad).
  destruct (shown_merged _ _ _ _ _ _ _ _ _ _ _ Rp (fun X => ltac:(congruence)) (fun X => ltac:(rewrite X in Fo; destruct Fo as [?|[?|?]]; discriminate)) R) as (M & x & s1 & s2 & fu & gn & go & F & _ & _ & P1 & Sh & P2 & N2).
  destruct (prints_done x M (c_args c) o s1 s2 s Sh P1 P2 N2 Fo) as (tb & t & t' & E & Pr & Im).
  unfold table_of in E. cbn [final_args set_use_dwarf set_abbrev without_conflicts a_archives a_archive_details a_archive_dependencies a_files] in E. rewrite Ta, Td, Tp, Tf in E.
  apply table_done in E. destruct E as (E & _). destruct (merged_summary _ _ _ _ _ _ _ _ _ F Au Ad E) as (i & groups & rows & H1 & H2 & H3 & H4 & H5 & H6 & H7 & H8 & H9).
  exists tb, i, groups, rows. do 10 (split; [assumption|]). intros Nf. exists (m_image_size M, m_image_size_diff M). split; [apply (u_image _ _ _ _ _ _ _ F)|].
  apply Im; [exact Nf|]. unfold is_summary. cbn [final_args set_use_dwarf set_abbrev without_conflicts a_archives a_archive_details a_archive_dependencies a_files]. rewrite Ta, Td, Tp, Tf. reflexivity.
Qed.
