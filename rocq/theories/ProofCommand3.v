From Coq Require Import Ascii String List ZArith Lia Bool Permutation Sorted.
From Verif Require Import Base MemMap SpecTree SpecOps SpecTable Filter Pipeline SpecPipe SpecBuild SpecBytes SpecShape ProofOps ProofBuild ProofBytes ProofBytes2 ProofBytes3 ProofShape PyStr MapFile SpecMap
  ElfRead SpecElf Project SpecProject ProofProject2 SpecEnd ProofEnd Chips SpecChips ProofChips Deps Table Formats ProofFormats Main SpecMain ProofMain ProofMain5 Command SpecCommand ProofCommand1 ProofCommand2.
Import ListNotations.
Open Scope list_scope.
Open Scope Z_scope.

(** ** what [prepare] leaves if no section is without archive *)
Definition shown_size (a : args) (T : str) (t : mtype) : Z := if negb (a_use_flash_size a) && is_flash T then 0 else t_size t.
Definition shown_type (a : args) (kv : str * mtype) : str * mtype :=
  (fst kv, MType (shown_size a (fst kv) (snd kv)) (t_size_diff (snd kv)) (t_used (snd kv)) (t_used_diff (snd kv)) (t_sections (snd kv))).
Lemma filter_all {A} (p : A -> bool) l : (forall x, In x l -> p x = true) -> filter p l = l.
Proof. induction l as [|x l IH]; intros H; [reflexivity|]. cbn. rewrite (H x (or_introl eq_refl)), IH; [reflexivity|]. intros; apply H; now right. Qed.
Lemma prepare_types a m :
  (a_show_unused a = false -> forall T t, In (T, t) (m_types m) -> t_used t = zsumf (fun kv => n_size (snd kv)) (t_sections t) /\ forall n x, In (n, x) (t_sections t) -> n_sub x <> []) ->
  m_types (prepare a m) = map (shown_type a) (filter (fun kv => a_show_unused a || negb (t_used (snd kv) =? 0)) (m_types m)) /\
  m_image_size (prepare a m) = m_image_size m.
Proof.
  intros H. unfold prepare. set (m1 := if a_show_unused a then m else remove_unused m).
  assert (E1 : m_types m1 = filter (fun kv => a_show_unused a || negb (t_used (snd kv) =? 0)) (m_types m) /\ m_image_size m1 = m_image_size m).
  { unfold m1. destruct (a_show_unused a); cbn [orb].
    - split; [|reflexivity]. symmetry. now apply filter_all.
    - split; [|reflexivity]. rewrite remove_unused_types. rewrite <- map_id. apply map_ext_in. intros [T t] I. apply filter_In in I. destruct I as (I & _).
      destruct (H eq_refl T t I) as (U & S1). cbn [fst snd]. f_equal. unfold sections_left. rewrite filter_all.
      + rewrite <- U. destruct t; reflexivity.
      + intros [n x] In0. specialize (S1 n x In0). cbn [snd]. destruct (n_sub x); [contradiction|reflexivity]. }
  destruct E1 as (E1 & E2). cbn zeta. unfold shown_type, shown_size. destruct (a_use_flash_size a); cbn [negb andb].
  - rewrite E1. split; [|exact E2]. rewrite <- map_id at 1. apply map_ext. intros [T []]. reflexivity.
  - split; [|exact E2]. unfold ignore_flash_size. cbn [with_types m_types]. rewrite E1. unfold dmapk. apply map_ext. intros [T []]. cbn [fst snd]. destruct (is_flash T); reflexivity.
Qed.

Lemma after_last_unique c s b b' : after_last c s b -> after_last c s b' -> b = b'.
Proof.
  intros (N & H) (N' & H'). destruct H as [->|(p & ->)], H' as [E|(p' & E)].
  - exact E.
  - exfalso. apply N. rewrite E. apply in_or_app. right. now left.
  - exfalso. apply N'. rewrite <- E. apply in_or_app. right. now left.
  - revert p' E. induction p as [|y p IH]; intros [|y' p'] E; cbn in E.
    + now injection E.
    + injection E as -> ->. exfalso. apply N. apply in_or_app. right. now left.
    + injection E as -> <-. exfalso. apply N'. apply in_or_app. right. now left.
    + injection E as _ E. eauto.
Qed.
Lemma shown_unique a n x y : shown_section a n x -> shown_section a n y -> x = y.
Proof.
  unfold shown_section. destruct (a_no_abbrev a && negb (a_unify a)); [congruence|]. intros (b & B & ->) (b' & B' & ->). f_equal. eapply after_last_unique; eassumption.
Qed.

Section Built.
Variables (d : disk) (dir name text : str) (rs : list region) (l : list printed) (crt : option (list SpecMap.entry)) (im : option (list (str * xshdr))) (types : list chip_type).
Hypothesis Bt : built d dir name text rs l crt im types.

(** a section that has bytes of input sections has an archive *)
Lemma listed_filled b T o x : (forall n a T, b n a T = true <-> byte_goes types n a T) ->
  filled im types l -> In o l -> counted im o -> listed_as b T (printed_section o) (Some x) -> n_sub x <> [].
Proof.
  intros Bb F Io Co (Pos & _ & Ar & _ & _) E. unfold filled in F. rewrite Forall_forall in F.
  apply bytes_some in Pos. destruct Pos as (a & Ha & Ga). cbn [printed_section o_addr o_size o_name] in *. apply Bb in Ga.
  destruct (F o Io Co T a) as (i & a' & Ii & Ha' & Ga'); [split; cbn; lia|exact Ga|]. apply Bb in Ga'.
  specialize (Ar (it_archive i)). unfold archive_size in Ar. rewrite E in Ar. cbn [dget] in Ar.
  assert (P : 0 < archive_bytes_with (fun a0 => b (pr_name o) a0 T) (it_archive i) (printed_section o)).
  { unfold archive_bytes_with. apply (zsumf_pos _ _ (item_section i)).
    - intros; apply bytes_nonneg.
    - apply filter_In. split; [now apply List.in_map|apply keq_refl].
    - apply bytes_pos. exists a'. now split. }
  lia.
Qed.

(** the memory map of a report of the project alone *)
Lemma report_map c o files s render encode ord pf :
  c_input c = in_dir dir name -> alone (c_args c) -> no_dwarf d dir (dwarf_option (c_args c)) ->
  (a_show_unused (c_args c) = true \/ filled im types l) ->
  run_files d (get_memory_types chip_info) render encode ord pf c o (start files) = (Done tt, s) ->
  exists m m' x s1 s2 keep b groups,
    (forall o, keep o = true <-> counted im o) /\ (forall n a T, b n a T = true <-> byte_goes types n a T) /\
    pristine m /\ Forall2 (region_parts types) (filter listed_region rs) groups /\
    (forall t, In t (keys (m_types m)) <-> exists c, In c types /\ ct_name c = t) /\
    (forall T t, dget T (m_types m) = Some t ->
      t_size t = type_size T (concat groups) /\
      t_used t = zsumf (fun o => bytes_with (fun a => b (pr_name o) a T) (pr_addr o) (pr_size o)) (filter keep l) /\
      (forall o, In o l -> counted im o -> listed_as b T (printed_section o) (dget (pr_name o) (t_sections t))) /\
      (forall n x, dget n (t_sections t) = Some x -> exists o, In o l /\ counted im o /\ pr_name o = n)) /\
    image_bytes im l (m_image_size m') /\
    m_types m' = map (shown_type (c_args c)) (filter (fun kv => a_show_unused (c_args c) || negb (t_used (snd kv) =? 0)) (m_types m)) /\
    x_order x = ord /\ x_pct x = pf /\ s_printed s1 = [] /\
    show x m' (final_args (c_args c)) o s1 = (Done tt, s2) /\ s_printed s = s_printed s2.
Proof.
  intros Ci (Ad & Au) Nd Fi R. apply command_done in R; [|exact Ad]. destruct R as (m & x & s1 & s2 & G & X1 & X2 & P1 & Sh & P2). rewrite Ci in G.
  destruct (built_map _ _ _ _ _ _ _ _ _ Bt _ _ _ G Nd) as (keep & b & groups & K & Bb & Pr & Gr & Ks & Im & H).
  set (a := c_args c) in *. change (a_unify (final_args a)) with (a_unify a) in Sh. rewrite Au in Sh. cbn zeta in Sh.
  change (prepare (final_args a) m) with (prepare a m) in Sh.
  assert (Wd : wf_dict (m_types m)) by apply Pr.
  destruct (prepare_types a m) as (E1 & E2).
  { intros Su T t It. pose proof It as Et. apply In_dget in Et; [|exact Wd]. destruct (H T t Et) as (_ & _ & L1 & L2 & U).
    split; [exact U|]. destruct Fi as [Fi|Fi]; [congruence|]. intros n sx Isx.
    assert (Ws : wf_dict (t_sections t)). { destruct Pr as ((_ & W2) & _). rewrite Forall_forall in W2. specialize (W2 _ It). apply W2. }
    apply In_dget in Isx; [|exact Ws]. destruct (L2 n sx Isx) as (o' & Io & Co & En). specialize (L1 o' Io Co). rewrite En, Isx in L1.
    eapply listed_filled; eassumption. }
  exists m, (prepare a m), x, s1, s2, keep, b, groups. rewrite E2.
  do 5 (split; [assumption|]). split; [|do 6 (split; [assumption|]); assumption].
  intros T t Et. destruct (H T t Et) as (H1 & H2 & H3 & H4 & _). repeat split; assumption.
Qed.

Lemma types_of_map m keep b :
  (forall o, keep o = true <-> counted im o) -> (forall n a T, b n a T = true <-> byte_goes types n a T) ->
  (forall T t, dget T (m_types m) = Some t -> t_used t = zsumf (fun o => bytes_with (fun a => b (pr_name o) a T) (pr_addr o) (pr_size o)) (filter keep l)) ->
  forall T t, dget T (m_types m) = Some t -> forall n, type_bytes im types l T n <-> n = t_used t.
Proof.
  intros K Bb H T t Et n. split.
  - intros (k2 & b2 & K2 & B2 & ->). rewrite (H T t Et).
    replace (filter k2 l) with (filter keep l) by (apply filter_ext; intros o; apply eq_true_iff_eq; rewrite K, K2; reflexivity).
    apply zsumf_ext. intros o _. apply bytes_ext. intros x. apply eq_true_iff_eq. rewrite Bb, B2. reflexivity.
  - intros ->. exists keep, (fun o a => b (pr_name o) a T). split; [exact K|]. split; [intros; apply Bb|]. now apply H.
Qed.

Lemma json_report c o files s render encode ord pf :
  c_input c = in_dir dir name -> alone (c_args c) -> of_types (c_args c) -> a_format (c_args c) = FJson2 -> no_lto d dir (c_args c) ->
  (a_show_unused (c_args c) = true \/ filled im types l) ->
  run_files d (get_memory_types chip_info) render encode ord pf c o (start files) = (Done tt, s) ->
  exists js groups, s_printed s = [PJson js] /\ Forall2 (region_parts types) (filter listed_region rs) groups /\
    NoDup (map j_name (js_layout js)) /\
    (forall T, In T (map j_name (js_layout js)) <-> listed_type im types l (c_args c) T) /\
    Forall (type_report im types l (concat groups) (c_args c)) (js_layout js) /\
    image_bytes im l (js_total_size js).
Proof.
  intros Ci Al (Ta & Td & Tp & Tf) Fo Lt Fi R.
  assert (Nd : no_dwarf d dir (dwarf_option (c_args c))).
  { unfold dwarf_option. destruct (a_use_dwarf (c_args c)) as [[|]|] eqn:Eu; [|now left|now apply Lt]. left. rewrite Ta, Td, Tf, Fo. reflexivity. }
  destruct (report_map _ _ _ _ _ _ _ _ Ci Al Nd Fi R) as (m & m' & x & s1 & s2 & keep & b & groups & K & Bb & Pr & Gr & Ks & H & Im & Em & _ & _ & P1 & Sh & P2).
  clear R. set (a := c_args c) in *. set (f := final_args a) in *.
  assert (Sj : s_printed s = [PJson (json_summary m' f)]).
  { unfold show in Sh. change (a_format f) with (a_format a) in Sh. rewrite Fo in Sh. unfold json_show in Sh.
    change (a_archives f) with (a_archives a) in Sh. change (a_archive_details f) with (a_archive_details a) in Sh.
    change (a_archive_dependencies f) with (a_archive_dependencies a) in Sh. change (a_files f) with (a_files a) in Sh. rewrite Ta, Td, Tp, Tf in Sh.
    apply print_done in Sh. rewrite P2, Sh, P1. reflexivity. }
  exists (json_summary m' f), groups. split; [exact Sj|]. split; [exact Gr|]. clear Sh P1 P2 Sj s s1 s2 x.
  destruct (json_layout m' f) as (tl & Pt & _ & Tot & Ft). rewrite Tot.
  assert (Wd : wf_dict (m_types m)) by apply Pr.
  assert (Names : map j_name (js_layout (json_summary m' f)) = map fst tl).
  { clear -Ft. induction Ft as [|kv j tl js (E & _) F IH]; [reflexivity|]. cbn [map]. now rewrite E, IH. }
  assert (Kp : Permutation (keys (m_types m')) (map fst tl)) by (apply Permutation_map, Pt).
  assert (Km : keys (m_types m') = keys (filter (fun kv => a_show_unused a || negb (t_used (snd kv) =? 0)) (m_types m))).
  { rewrite Em. unfold keys. rewrite map_map. reflexivity. }
  assert (Nk : NoDup (keys (m_types m'))). { rewrite Km. unfold keys. apply NoDup_map_filter. exact Wd. }
  assert (TB : forall T t, dget T (m_types m) = Some t -> forall n, type_bytes im types l T n <-> n = t_used t).
  { apply (types_of_map m keep b K Bb). intros T t Et. apply (H T t Et). }
  split; [rewrite Names; eapply Permutation_NoDup; eassumption|]. split; [|split; [|exact Im]].
  - intros T. rewrite Names. transitivity (In T (keys (m_types m'))).
    { split; apply Permutation_in; [now apply Permutation_sym|exact Kp]. }
    rewrite Km. unfold listed_type. rewrite <- Ks. unfold keys. rewrite !List.in_map_iff. split.
    + intros ([T' t] & <- & I). apply filter_In in I. destruct I as (I & Q). split; [exists (T', t); now split|]. cbn [fst snd] in *.
      apply orb_true_iff in Q. destruct Q as [Q|Q]; [now left|]. right. apply In_dget in I; [|exact Wd]. exists (t_used t).
      split; [now apply (TB T' t I)|]. apply negb_true_iff, Z.eqb_neq in Q. exact Q.
    + intros (([T' t] & E & I) & Q). cbn [fst] in E. subst T'. exists (T, t). split; [reflexivity|]. apply filter_In. split; [exact I|].
      apply orb_true_iff. destruct Q as [Q|(n & Tn & Q)]; [now left|]. right. apply In_dget in I; [|exact Wd]. apply (TB T t I) in Tn. subst n. apply negb_true_iff, Z.eqb_neq. exact Q.
  - apply Forall_forall. intros j Ij. destruct (f2_In_r _ _ _ _ Ft Ij) as ([T t'] & It' & Jn & Jt & Ju & Jf & Jp). cbn [fst snd] in *.
    apply (Permutation_in _ (Permutation_sym Pt)) in It'. rewrite Em in It'. apply List.in_map_iff in It'. destruct It' as ([T0 t] & Est & It).
    unfold shown_type in Est. cbn [fst snd] in Est. injection Est as -> <-. cbn [t_size t_used t_sections] in *. apply filter_In in It. destruct It as (It & _).
    pose proof It as Et. apply In_dget in Et; [|exact Wd]. destruct (H T t Et) as (H1 & H2 & L1 & L2).
    assert (Ws : wf_dict (t_sections t)). { destruct Pr as ((_ & W2) & _). rewrite Forall_forall in W2. specialize (W2 _ It). apply W2. }
    constructor; rewrite ?Jn.
    + apply (TB T t Et). exact Ju.
    + rewrite Jt. unfold shown_size. split.
      * intros (Q1 & Q2). apply flash_spec in Q2. rewrite Q1, Q2. reflexivity.
      * intros Q. destruct (negb (a_use_flash_size a) && is_flash T) eqn:Eb; [|exact H1]. exfalso. apply Q. apply andb_true_iff in Eb. destruct Eb as (B1 & B2).
        apply negb_true_iff in B1. apply flash_spec in B2. now split.
    + rewrite <- Jt in Jf. exact Jf.
    + intros Ds.
      assert (Lab : forall n sx, In (n, sx) (t_sections t) -> shown_section a n (if a_abbrev f then n_abbrev sx else n)).
      { intros n sx I. assert (Lb : label [n] (n_abbrev sx)).
        { destruct Pr as (_ & _ & _ & _ & Pr). destruct (Pr T t It) as (_ & _ & Pe & _). apply (Pe [n] (entry_of_node sx)).
          unfold ents_type, ents_dict. apply in_flat_map. exists (n, sx). split; [exact I|]. cbn [fst snd]. apply List.in_map_iff. exists ([], entry_of_node sx). split; [reflexivity|left; reflexivity]. }
        unfold shown_section, f. cbn [final_args a_abbrev set_use_dwarf set_abbrev]. cbn [without_conflicts a_no_abbrev]. unfold conflict_abbrev.
        destruct (a_no_abbrev a), (a_unify a); cbn [andb negb]; try exact Lb; reflexivity. }
      assert (Own : forall n sx, In (n, sx) (t_sections t) -> exists o, In o l /\ counted im o /\ pr_name o = n /\
         n_size sx = bytes_with (fun a => b (pr_name o) a T) (pr_addr o) (pr_size o) /\ 0 < n_size sx).
      { intros n sx I. apply In_dget in I; [|exact Ws]. destruct (L2 n sx I) as (o' & Io & Co & En). exists o'. specialize (L1 o' Io Co). rewrite En, I in L1.
        pose proof (listed_size _ _ _ _ L1) as Lz. destruct L1 as (L & _). split; [exact Io|]. split; [exact Co|]. split; [exact En|]. split; [now symmetry|].
        rewrite <- Lz. exact L. }
      assert (Nsh : NoDup (map (fun s : str * sect => if a_abbrev f then n_abbrev (snd s) else fst s) (t_sections t))).
      { clear -Ws Lab Own Ds. assert (In0 : forall q, incl q (t_sections t) -> wf_dict q -> NoDup (map (fun s : str * sect => if a_abbrev f then n_abbrev (snd s) else fst s) q)).
        { induction q as [|[n sx] q IH]; intros Iq Wq; [constructor|]. unfold wf_dict in Wq. cbn [keys map fst] in Wq. apply NoDup_cons_iff in Wq. destruct Wq as (W1 & W2).
          cbn [map fst snd]. constructor; [|apply IH; [intros z Z; apply Iq; now right|exact W2]]. intros I. apply List.in_map_iff in I. destruct I as ([n' sx'] & E & I). cbn [fst snd] in E.
          destruct (Own n sx (Iq _ (or_introl eq_refl))) as (o1 & I1 & C1 & E1 & _). destruct (Own n' sx' (Iq _ (or_intror I))) as (o2 & I2 & C2 & E2 & _).
          pose proof (Lab n sx (Iq _ (or_introl eq_refl))) as S1. pose proof (Lab n' sx' (Iq _ (or_intror I))) as S2. rewrite E in S2.
          rewrite <- E1 in S1 at 1. rewrite <- E2 in S2 at 1. pose proof (Ds o1 o2 _ I1 I2 C1 C2 S1 S2) as X. apply W1. rewrite <- E1, X, E2. apply (List.in_map fst _ _ I). }
        apply In0; [intros z Z; exact Z|exact Ws]. }
      destruct (Jp Nsh) as (Pp & _). split.
      * apply (Permutation_map fst) in Pp. rewrite map_map in Pp. cbn [fst] in Pp. eapply Permutation_NoDup; [exact Pp|exact Nsh].
      * intros n z. transitivity (In (n, z) (map (fun s : str * sect => (if a_abbrev f then n_abbrev (snd s) else fst s, n_size (snd s))) (t_sections t))).
        { split; apply Permutation_in; [now apply Permutation_sym|exact Pp]. }
        rewrite List.in_map_iff. split.
        -- intros ([n' sx] & E & I). cbn [fst snd] in E. injection E as <- <-. destruct (Own n' sx I) as (o' & Io & Co & En & Sz & Ps). exists o'. split; [exact Io|]. split; [exact Co|].
           split; [rewrite En; now apply Lab|]. split; [|exact Ps]. exists (fun a => b (pr_name o') a T). split; [intros; apply Bb|exact Sz].
        -- intros (o' & Io & Co & Sn & (b2 & B2 & ->) & Ps). specialize (L1 o' Io Co).
           assert (Eb : bytes_with b2 (pr_addr o') (pr_size o') = bytes_with (fun a => b (pr_name o') a T) (pr_addr o') (pr_size o')).
           { apply bytes_ext. intros y. apply eq_true_iff_eq. rewrite B2, Bb. reflexivity. }
           rewrite Eb in Ps |- *. pose proof (listed_size _ _ _ _ L1) as Lz. destruct (dget (pr_name o') (t_sections t)) as [sx|] eqn:Ex; [|lia].
           apply dget_In in Ex. exists (pr_name o', sx). split; [|exact Ex]. cbn [fst snd]. f_equal; [|now symmetry].
           pose proof (Lab _ _ Ex) as Q. eapply shown_unique; eassumption.
Qed.
End Built.
