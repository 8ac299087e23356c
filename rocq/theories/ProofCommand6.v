From Coq Require Import Ascii String List ZArith Lia Bool Permutation Sorted.
From Verif Require Import Base MemMap SpecTree SpecOps Filter Pipeline SpecPipe SpecBuild SpecBytes SpecShape ProofOps ProofTrim ProofBuild ProofRegions ProofTypes ProofBytes ProofBytes2 ProofBytes3 ProofShape PyStr MapFile SpecMap
  ElfRead SpecElf Project SpecProject ProofProject2 SpecEnd ProofEnd Chips SpecChips ProofChips Deps Table SpecTable ProofTable ProofTable3 Formats ProofFormats Main SpecMain ProofMain ProofMain4 ProofMain5 Command SpecCommand ProofCommand1 ProofCommand2 ProofCommand3 ProofCommand4.
Import ListNotations.
Open Scope list_scope.
Open Scope Z_scope.

Lemma f2_exists {A B} (R : A -> B -> Prop) l : (forall x, In x l -> exists y, R x y) -> exists l', Forall2 R l l'.
Proof.
  induction l as [|x l IH]; intros H; [exists []; constructor|]. destruct (H x (or_introl eq_refl)) as (y & Y).
  destruct IH as (l' & F); [intros; apply H; now right|]. exists (y :: l'). now constructor.
Qed.
Lemma f2_map_eq {A B C} (f : A -> C) (g : B -> C) l l' : Forall2 (fun x y => f x = g y) l l' -> map f l = map g l'.
Proof. induction 1; [reflexivity|]. cbn. congruence. Qed.
Lemma f2_impl {A B} (R Q : A -> B -> Prop) l l' : (forall x y, In x l -> R x y -> Q x y) -> Forall2 R l l' -> Forall2 Q l l'.
Proof. intros H F. induction F as [|x y l l' Rx F IH]; constructor; [apply H; [now left|exact Rx]|]. apply IH. intros; apply H; [now right|assumption]. Qed.
Lemma f2_trans {A B C} (R : A -> B -> Prop) (Q : A -> C -> Prop) (P : B -> C -> Prop) l l' l'' :
  (forall x y z, R x y -> Q x z -> P y z) -> Forall2 R l l' -> Forall2 Q l l'' -> Forall2 P l' l''.
Proof. intros H F. revert l''. induction F as [|x y l l' Rx F IH]; intros l'' G; inversion G; subst; constructor; [eapply H; eassumption|now apply IH]. Qed.
Lemma sorted_f2 {A B} (R : A -> A -> Prop) (Q : B -> B -> Prop) (P : A -> B -> Prop) l l' :
  (forall x x' y y', P x y -> P x' y' -> R x x' -> Q y y') -> Forall2 P l l' -> StronglySorted R l -> StronglySorted Q l'.
Proof.
  intros H F. induction F as [|x y l l' Px F IH]; intros S1; [constructor|]. apply StronglySorted_inv in S1. destruct S1 as (S1 & Fx).
  constructor; [now apply IH|]. apply Forall_forall. intros y' I'. destruct (f2_In_r _ _ _ _ F I') as (x' & Ix & Px'). rewrite Forall_forall in Fx. eauto.
Qed.

Section Built.
Variables (d : disk) (dir name text : str) (rs : list region) (l : list printed) (crt : option (list SpecMap.entry)) (im : option (list (str * xshdr))) (types : list chip_type).
Hypothesis Bt : built d dir name text rs l crt im types.

Lemma same_printed o o' : In o l -> In o' l -> counted im o -> counted im o' -> pr_name o = pr_name o' -> o = o'.
Proof.
  intros I I' C C' E. apply in_split in I. destruct I as (l1 & l2 & El). pose proof (bt_names _ _ _ _ _ _ _ _ _ Bt) as N. rewrite El in I'. apply in_app_or in I'.
  destruct I' as [I'|[->|I']]; [|reflexivity|]; exfalso; apply in_split in I'; destruct I' as (q1 & q2 & ->).
  - rewrite <- app_assoc in El. apply (N q1 o' q2 o l2 El C' C). now symmetry.
  - apply (N l1 o q1 o' q2 El C C' E).
Qed.

Lemma no_diff_changed f z : given (a_diff f) = false -> changed f z = true.
Proof. unfold changed. intros ->. reflexivity. Qed.

Lemma table_report c o files s render encode ord pf :
  c_input c = in_dir dir name -> alone (c_args c) -> of_types (c_args c) -> a_format (c_args c) = FTable -> no_lto d dir (c_args c) ->
  (a_show_unused (c_args c) = true \/ filled im types l) ->
  run_files d (get_memory_types chip_info) render encode ord pf c o (start files) = (Done tt, s) ->
  exists tb regions i groups rows, s_printed s = [PTable tb] /\ tb_headers tb = usage_headers /\
    Forall2 (region_parts types) (filter listed_region rs) regions /\
    tb_rows tb = concat rows /\ Forall2 (group_rows (c_args c)) groups rows /\
    NoDup (map tg_type groups) /\ (forall T, In T (map tg_type groups) <-> listed_type im types l (c_args c) T) /\
    Forall (group_right im types l (concat regions) (c_args c)) groups /\
    names_column usage_headers (a_sort (c_args c)) i /\
    (a_sort_diff (c_args c) = false -> i <> 2%nat ->
      StronglySorted (fun x y => in_order (a_sort_reverse (c_args c)) (tg_value i x) (tg_value i y)) groups) /\
    (a_sort_diff (c_args c) = false -> i = 1%nat ->
      Forall (fun g => StronglySorted (fun x y => in_order (a_sort_reverse (c_args c)) (snd x) (snd y)) (tg_sections g)) groups).
Proof.
  intros Ci Al (Ta & Td & Tp & Tf) Fo Lt Fi R.
  assert (Nd : no_dwarf d dir (dwarf_option (c_args c))).
  { unfold dwarf_option. destruct (a_use_dwarf (c_args c)) as [[|]|] eqn:Eu; [|now left|now apply Lt]. left. rewrite Ta, Td, Tf, Fo. reflexivity. }
  destruct (report_map _ _ _ _ _ _ _ _ _ Bt _ _ _ _ _ _ _ _ Ci Al Nd Fi R) as (m & m' & x & s1 & s2 & keep & b & regions & K & Bb & Pr & Gr & Ks & H & Im & Em & _ & _ & P1 & Sh & P2).
  clear R. set (a := c_args c) in *. set (f := final_args a) in *.
  assert (Df : given (a_diff f) = false) by (apply final_diff, Al).
  assert (St : exists tb, s_printed s = [PTable tb] /\ get_summary_table (x_pct x) m' f = TOk tb).
  { unfold show in Sh. change (a_format f) with (a_format a) in Sh. rewrite Fo in Sh. unfold table_show in Sh.
    apply andthen_done in Sh. destruct Sh as (u0 & t0 & S0 & Sh). 
    assert (Q0 : s_printed t0 = s_printed s1).
    { destruct (negb (a_archives f) && negb (given (a_archive_details f)) && a_archive_dependencies f); [apply ret_done in S0; destruct S0 as (_ & ->); reflexivity|].
      unfold show_diff_info in S0. rewrite Df in S0. apply ret_done in S0. destruct S0 as (_ & ->). reflexivity. }
    apply andthen_done in Sh. destruct Sh as (tb & t1 & S1 & Sh). unfold table_of in S1.
    change (a_archives f) with (a_archives a) in S1. change (a_archive_details f) with (a_archive_details a) in S1.
    change (a_archive_dependencies f) with (a_archive_dependencies a) in S1. change (a_files f) with (a_files a) in S1. rewrite Ta, Td, Tp, Tf in S1.
    apply table_done in S1. destruct S1 as (E1 & Q1).
    apply andthen_done in Sh. destruct Sh as (u2 & t2 & S2 & Sh). apply print_done in S2.
    assert (Q3 : s_printed s2 = s_printed t2).
    { destruct (is_summary f); [|apply ret_done in Sh; destruct Sh as (_ & ->); reflexivity].
      apply andthen_done in Sh. destruct Sh as (u3 & t3 & S3 & Sh). apply tell_done in S3. apply tell_done in Sh. congruence. }
    exists tb. split; [|exact E1]. rewrite P2, Q3, S2, Q1, Q0, P1. reflexivity. }
  destruct St as (tb & Sp & Etb). clear Sh P1 P2 s1 s2.
  destruct (summary_table_shows _ _ _ _ Etb) as (Hd & i & gs & Nc & Pt & Ps & (rows & Er & Fr) & So). clear Etb x.
  assert (Wd : wf_dict (m_types m)) by apply Pr.
  assert (TB : forall T t, dget T (m_types m) = Some t -> forall n, type_bytes im types l T n <-> n = t_used t).
  { apply (types_of_map l im types m keep b K Bb). intros T t Et. apply (H T t Et). }
  (* the memory types of the table *)
  assert (Tt : m_types (trim m' f) = map (fun kv => (fst kv, trim_type f (snd kv))) (m_types m')).
  { unfold trim. cbn [with_types m_types]. unfold dmap. rewrite filter_all; [reflexivity|]. intros kv _. now apply no_diff_changed. }
  assert (Ts : forall t, t_sections (trim_type f t) = map (fun kv => (fst kv, trim_sect f (snd kv))) (t_sections t)).
  { intros t. unfold trim_type. cbn [t_sections]. unfold dmap. rewrite filter_all; [reflexivity|]. intros kv _. now apply no_diff_changed. }
  assert (Km : keys (m_types m') = keys (filter (fun kv => a_show_unused a || negb (t_used (snd kv) =? 0)) (m_types m))).
  { rewrite Em. unfold keys. rewrite map_map. reflexivity. }
  assert (Kp : Permutation (keys (m_types m')) (map (fun g : (str * mtype) * list (str * sect) => fst (fst g)) gs)).
  { apply (Permutation_map fst) in Pt. rewrite Tt, !map_map in Pt. exact Pt. }
  assert (Nk : NoDup (keys (m_types m'))). { rewrite Km. unfold keys. apply NoDup_map_filter. exact Wd. }
  (* where a group comes from *)
  assert (Gt : forall g, In g gs -> exists t, In (fst (fst g), t) (m_types m) /\ t_used (snd (fst g)) = t_used t /\ t_size (snd (fst g)) = shown_size a (fst (fst g)) t /\
    Permutation (map (fun kv => (fst kv, trim_sect f (snd kv))) (t_sections t)) (snd g)).
  { intros g Ig. assert (I1 : In (fst g) (m_types (trim m' f))) by (eapply Permutation_in; [apply Permutation_sym, Pt|now apply List.in_map]).
    rewrite Tt in I1. apply List.in_map_iff in I1. destruct I1 as ([T t'] & E & I1). rewrite Em in I1. apply List.in_map_iff in I1. destruct I1 as ([T0 t] & E0 & I0).
    unfold shown_type in E0. cbn [fst snd] in *. injection E0 as -> <-. apply filter_In in I0. exists t. rewrite <- E. cbn [fst snd]. split; [apply I0|]. split; [reflexivity|]. split; [reflexivity|].
    rewrite Forall_forall in Ps. specialize (Ps g Ig). rewrite <- E in Ps. cbn [snd] in Ps. rewrite Ts in Ps. exact Ps. }
  set (of_sect := fun (kv : str * sect) (s0 : printed * Z) => In (fst s0) l /\ counted im (fst s0) /\ pr_name (fst s0) = fst kv /\ snd s0 = n_size (snd kv)).
  set (of_group := fun (g : (str * mtype) * list (str * sect)) (tg : tgroup) =>
    tg_type tg = fst (fst g) /\ tg_used tg = t_used (snd (fst g)) /\ tg_total tg = t_size (snd (fst g)) /\ Forall2 of_sect (snd g) (tg_sections tg)).
  assert (Ex : exists groups, Forall2 of_group gs groups).
  { apply f2_exists. intros g Ig. destruct (Gt g Ig) as (t & It & _ & _ & Pg). apply In_dget in It; [|exact Wd]. destruct (H _ _ It) as (_ & _ & _ & L2).
    destruct (f2_exists of_sect (snd g)) as (secs & Fs).
    - intros [n sx] Is. apply (Permutation_in _ (Permutation_sym Pg)) in Is. apply List.in_map_iff in Is. destruct Is as ([n0 s0] & E & Is). cbn [fst snd] in E. injection E as -> <-.
      assert (Gs : dget n (t_sections t) = Some s0).
      { apply In_dget; [|exact Is]. destruct Pr as ((_ & W2) & _). rewrite Forall_forall in W2. apply dget_In in It. specialize (W2 _ It). apply W2. }
      destruct (L2 n s0 Gs) as (o' & Io & Co & En). exists (o', n_size s0). split; [exact Io|]. split; [exact Co|]. split; [exact En|reflexivity].
    - exists (TGroup (fst (fst g)) (t_used (snd (fst g))) (t_size (snd (fst g))) secs). repeat split. exact Fs. }
  destruct Ex as (groups & Fg).
  assert (Names : map tg_type groups = map (fun g : (str * mtype) * list (str * sect) => fst (fst g)) gs).
  { symmetry. apply f2_map_eq. eapply f2_impl; [|exact Fg]. intros g tg _ (E & _). now symmetry. }
  exists tb, regions, i, groups, rows. split; [exact Sp|]. split; [exact Hd|]. split; [exact Gr|]. split; [exact Er|].
  split; [|split; [|split; [|split; [|split; [exact Nc|split]]]]].
  - (* the texts *)
    assert (Fg' : Forall2 (fun g tg => In g gs /\ of_group g tg) gs groups) by (eapply f2_impl; [|exact Fg]; intros; now split).
    refine (f2_trans _ _ _ _ _ _ _ Fg' Fr). intros g tg r (Ig & E1 & E2 & E3 & Fs) (r0 & rest & -> & (used & pct & remain & total & -> & Cu & Cr) & Fq).
    rewrite Df in Cu, Cr. exists used, pct, remain, total, rest. rewrite E1, E2, E3. split; [reflexivity|]. split; [exact Cu|]. split.
    + cbn [type_value fst] in Cr. destruct (t_size (snd (fst g)) =? 0); exact Cr.
    + assert (Lab : forall n sx, In (n, sx) (snd g) -> shown_section a n (if a_abbrev f then n_abbrev sx else n)).
      { intros n sx Is. destruct (Gt g Ig) as (t & It & _ & _ & Pg). apply (Permutation_in _ (Permutation_sym Pg)) in Is. apply List.in_map_iff in Is.
        destruct Is as ([n0 s0] & E & Is). cbn [fst snd] in E. injection E as -> <-. cbn [trim_sect n_abbrev].
        assert (Lb : label [n] (n_abbrev s0)).
        { pose proof (proj2 (proj2 (proj2 (proj2 Pr)))) as Sl. destruct (Sl _ t It) as (_ & _ & Pe & _). apply (Pe [n] (entry_of_node s0)).
          unfold ents_type, ents_dict. apply in_flat_map. exists (n, s0). split; [exact Is|]. cbn [fst snd]. apply List.in_map_iff. exists ([], entry_of_node s0). split; [reflexivity|left; reflexivity]. }
        unfold shown_section, f. cbn [final_args a_abbrev set_use_dwarf set_abbrev]. cbn [without_conflicts a_no_abbrev]. unfold conflict_abbrev.
        destruct (a_no_abbrev a), (a_unify a); cbn [andb negb]; try exact Lb; reflexivity. }
      assert (Fs' : Forall2 (fun kv s0 => In kv (snd g) /\ of_sect kv s0) (snd g) (tg_sections tg)) by (eapply f2_impl; [|exact Fs]; intros; now split).
      refine (f2_trans _ _ _ _ _ _ _ Fs' Fq). intros [n sx] [o' z] r (Is & Io & Co & En & Ez) (u0 & p0 & -> & Cs). cbn [fst snd] in *. rewrite Df in Cs. cbn [sect_value cell_text fst] in Cs.
      exists (if a_abbrev f then n_abbrev sx else n), u0, p0. split; [reflexivity|]. cbn [fst snd]. split; [rewrite En; now apply Lab|]. rewrite Ez. exact Cs.
  - rewrite Names. eapply Permutation_NoDup; eassumption.
  - intros T. rewrite Names. transitivity (In T (keys (m_types m'))).
    { split; apply Permutation_in; [now apply Permutation_sym|exact Kp]. }
    rewrite Km. unfold listed_type. rewrite <- Ks. unfold keys. rewrite !List.in_map_iff. split.
    + intros ([T' t] & <- & I). apply filter_In in I. destruct I as (I & Q). split; [exists (T', t); now split|]. cbn [fst snd] in *.
      apply orb_true_iff in Q. destruct Q as [Q|Q]; [now left|]. right. apply In_dget in I; [|exact Wd]. exists (t_used t).
      split; [now apply (TB T' t I)|]. apply negb_true_iff, Z.eqb_neq in Q. exact Q.
    + intros (([T' t] & E & I) & Q). cbn [fst] in E. subst T'. exists (T, t). split; [reflexivity|]. apply filter_In. split; [exact I|].
      apply orb_true_iff. destruct Q as [Q|(n & Tn & Q)]; [now left|]. right. apply In_dget in I; [|exact Wd]. apply (TB T t I) in Tn. subst n. apply negb_true_iff, Z.eqb_neq. exact Q.
  - apply Forall_forall. intros tg Itg. destruct (f2_In_r _ _ _ _ Fg Itg) as (g & Ig & E1 & E2 & E3 & Fs). destruct (Gt g Ig) as (t & It & U1 & U2 & Pg).
    rewrite <- E1 in *. set (T := tg_type tg) in *. pose proof It as Et. apply In_dget in Et; [|exact Wd]. destruct (H T t Et) as (H1 & H2 & L1 & L2).
    assert (Ws : wf_dict (t_sections t)). { destruct Pr as ((_ & W2) & _). rewrite Forall_forall in W2. specialize (W2 _ It). apply W2. }
    assert (Gs : forall n sx, In (n, sx) (snd g) -> exists s0, dget n (t_sections t) = Some s0 /\ n_size s0 = n_size sx).
    { intros n sx Is. apply (Permutation_in _ (Permutation_sym Pg)) in Is. apply List.in_map_iff in Is. destruct Is as ([n0 s0] & E & Is). cbn [fst snd] in E. injection E as -> <-.
      exists s0. split; [now apply In_dget|reflexivity]. }
    split; fold T.
    + apply (TB T t Et). congruence.
    + rewrite E3, U2. unfold shown_size. split.
      * intros (Q1 & Q2). apply flash_spec in Q2. rewrite Q1, Q2. reflexivity.
      * intros Q. destruct (negb (a_use_flash_size a) && is_flash T) eqn:Eb; [|exact H1]. exfalso. apply Q. apply andb_true_iff in Eb. destruct Eb as (B1 & B2).
        apply negb_true_iff in B1. apply flash_spec in B2. now split.
    + apply (NoDup_map_inv (fun s0 => pr_name (fst s0))).
      assert (En : map (fun s0 : printed * Z => pr_name (fst s0)) (tg_sections tg) = map fst (snd g)).
      { symmetry. apply f2_map_eq. eapply f2_impl; [|exact Fs]. intros kv s0 _ (_ & _ & E & _). now symmetry. }
      rewrite En. apply (Permutation_map fst) in Pg. rewrite map_map in Pg. cbn [fst] in Pg. eapply Permutation_NoDup; [exact Pg|exact Ws].
    + intros o' n. split.
      * intros I. destruct (f2_In_r _ _ _ _ Fs I) as ([n0 sx] & Is & Io & Co & En & Ez). cbn [fst snd] in *. split; [exact Io|]. split; [exact Co|].
        destruct (Gs n0 sx Is) as (s0 & Gq & Eq). specialize (L1 o' Io Co). rewrite En, Gq in L1. pose proof (listed_size _ _ _ _ L1) as Lz. destruct L1 as (L & _).
        cbn [printed_section o_addr o_size o_name] in L.
        split; [exists (fun y => b (pr_name o') y T); split; [intros; apply Bb|congruence]|]. rewrite Ez, <- Eq, <- Lz. exact L.
      * intros (Io & Co & (b2 & B2 & ->) & Ps0). specialize (L1 o' Io Co).
        assert (Eb : bytes_with b2 (pr_addr o') (pr_size o') = bytes_with (fun a => b (pr_name o') a T) (pr_addr o') (pr_size o')).
        { apply bytes_ext. intros y. apply eq_true_iff_eq. rewrite B2, Bb. reflexivity. }
        rewrite Eb in Ps0 |- *. pose proof (listed_size _ _ _ _ L1) as Lz. destruct (dget (pr_name o') (t_sections t)) as [sx|] eqn:Ex; [|lia].
        apply dget_In in Ex. assert (Is : In (pr_name o', trim_sect f sx) (snd g)).
        { apply (Permutation_in _ Pg). apply List.in_map_iff. exists (pr_name o', sx). now split. }
        destruct (f2_In_l _ _ _ _ Fs Is) as ([o1 z] & I1 & Io1 & Co1 & En1 & Ez). cbn [fst snd trim_sect n_size] in *.
        rewrite <- (same_printed _ _ Io1 Io Co1 Co En1), Lz in *. 
        replace (n_size sx) with z. exact I1.
  - intros Sd Ni. destruct (So Ni) as (S1 & _). change (a_sort_diff f) with (a_sort_diff a) in S1. rewrite Sd in S1. change (a_sort_reverse f) with (a_sort_reverse a) in S1.
    assert (Fm : Forall2 (fun (kv : str * mtype) tg => tg_used tg = t_used (snd kv) /\ tg_total tg = t_size (snd kv)) (map fst gs) groups).
    { clear -Fg. induction Fg as [|g tg gs groups (_ & E2 & E3 & _) F IH]; cbn [map]; constructor; auto. }
    assert (Iv : i = 1%nat \/ i = 3%nat \/ i = 4%nat).
    { assert (B1 : (1 <= i < 5)%nat).
      { destruct Nc as [(z & _ & Hz & Lz)|(_ & L1 & L2 & _)].
        - change (List.length usage_headers) with 5%nat in *. destruct Hz as [Hz|Hz]; lia.
        - split; [exact L1|]. change 5%nat with (List.length usage_headers). apply nth_error_Some. congruence. }
      lia. }
    refine (sorted_f2 _ _ _ _ _ _ Fm S1). intros kv kv' tg tg' (U1 & U2) (U3 & U4). unfold pick. unfold type_value, tg_value. rewrite U1, U2, U3, U4.
    destruct Iv as [->|[->| ->]]; cbn [fst]; auto.
  - intros Sd ->. destruct (So ltac:(discriminate)) as (_ & S1). change (a_sort_diff f) with (a_sort_diff a) in S1. rewrite Sd in S1. change (a_sort_reverse f) with (a_sort_reverse a) in S1.
    apply Forall_forall. intros tg Itg. destruct (f2_In_r _ _ _ _ Fg Itg) as (g & Ig & _ & _ & _ & Fs). rewrite Forall_forall in S1. specialize (S1 g Ig).
    refine (sorted_f2 _ _ _ _ _ _ Fs S1). intros kv kv' s0 s0' (_ & _ & _ & E) (_ & _ & _ & E'). unfold pick, sect_value. cbn [fst]. rewrite E, E'. auto.
Qed.
End Built.
