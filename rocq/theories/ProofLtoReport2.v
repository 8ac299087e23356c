From Coq Require Import Ascii String List ZArith Lia Bool Permutation Sorted.
From Verif Require Import Base MemMap SpecTree SpecOps Filter Pipeline SpecPipe SpecBuild SpecBytes SpecShape ProofOps ProofTrim ProofDiff ProofDiff2 ProofSummary ProofSummary2 ProofSummary3 Fixtures ProofBuild ProofRegions ProofTypes ProofBytes ProofExpand ProofGet ProofBytes2 ProofBytes3 ProofShape PyStr MapFile SpecMap
  ElfRead SpecElf Project SpecProject ProofProject2 SpecEnd ProofEnd Chips SpecChips ProofChips Deps Table SpecTable Formats ProofFormats Main SpecMain ProofMain ProofMain4 ProofMain5 Command SpecCommand SpecFail SpecReport
  ProofCommand1 ProofCommand2 ProofCommand3 ProofCommand4 ProofCommand5 ProofReport1 ProofReport2 ProofReport3 SpecOwner SpecLto SpecLto2 ProofLto1 ProofLto2 ProofLto4 SpecLtoReport ProofLtoReport1.
Import ListNotations.
Open Scope list_scope.
Open Scope Z_scope.

Lemma zsumf_map_filter {A B} (f : B -> Z) (g : A -> B) (p : B -> bool) l : zsumf f (filter p (map g l)) = zsumf (fun x => f (g x)) (filter (fun x => p (g x)) l).
Proof. rewrite filter_map_comm, zsumf_map. reflexivity. Qed.
Lemma listed_back b T s x : listed_as b T s x -> listed_as b T (printed_section (back s)) x.
Proof.
  unfold listed_as. cbn [back printed_section pr_name pr_addr pr_size o_name o_addr o_size]. destruct x as [x|]; [|auto]. intros (A & B & C & D & E).
  split; [exact A|]. split; [exact B|]. split; [|split].
  - intros ar. rewrite C. unfold archive_bytes_with, printed_section, back. cbn [o_isecs pr_items]. rewrite map_map, zsumf_map_filter. reflexivity.
  - intros ar ob. rewrite D. unfold object_bytes_with, printed_section, back. cbn [o_isecs pr_items]. rewrite map_map, zsumf_map_filter. reflexivity.
  - intros ar y G. destruct (E ar y G) as ((i & Ii & H) & E2). unfold printed_section, back. cbn [o_isecs pr_items]. rewrite map_map. split.
    + exists (item_section (core i)). split; [now apply List.in_map with (f := fun x => item_section (core x))|exact H].
    + intros o z Gz. destruct (E2 o z Gz) as (i' & I' & H'). exists (item_section (core i')). split; [now apply List.in_map with (f := fun x => item_section (core x))|exact H'].
Qed.

Section World.
Variables (w : world) (ls : bool) (m : memmap) (mf' : mapfile) (tgt : str) (rs : list region) (l : list printed) (L : dict Z asym) (e : option elf).
Variables (im : option (list (str * xshdr))) (types : list chip_type) (a : args).
Let f (o : printed) : osection := expand_osec L (printed_section o).
Hypothesis G : get w ls (Some false) (Some (MapFile tgt rs (map f l))) None = Ok (m, mf').
Hypothesis We : w_elf w = Ok e.
Hypothesis Ma : elf_matches im e.
Hypothesis Ty : w_memory_types w (m_target m) = Ok types.
Hypothesis Ws : windows_separate types.
Hypothesis Rn : Forall (fun r => 0 <= r_length r) rs.
Hypothesis Ln : Forall (fun o => 0 <= pr_size o /\ Forall (fun i => 0 <= it_size i) (pr_items o)) l.
Hypothesis Se : Forall (fun o => counted im o -> section_mapped rs types (printed_section o) /\ unbroken rs types (printed_section o) /\ isecs_in (f o)) l.
Hypothesis Nm : forall keep, (forall o, keep o = true <-> counted im o) -> NoDup (map pr_name (filter keep l)).

Lemma f_kept o : kept e (f o) <-> counted im o.
Proof. rewrite <- (kept_counted im e o Ma). split; apply keep_name_size; reflexivity. Qed.

Definition taken (keep : printed -> bool) (o : printed) : printed := if keep o then back (f o) else o.
Lemma taken_name keep o : pr_name (taken keep o) = pr_name o. Proof. unfold taken. now destruct (keep o). Qed.
Lemma taken_addr keep o : pr_addr (taken keep o) = pr_addr o. Proof. unfold taken. now destruct (keep o). Qed.
Lemma taken_size keep o : pr_size (taken keep o) = pr_size o. Proof. unfold taken. now destruct (keep o). Qed.
Lemma counted_taken keep o : counted im (taken keep o) <-> counted im o.
Proof. unfold counted. now rewrite taken_name, taken_size. Qed.

Lemma world_ledger : exists keep, (forall o, keep o = true <-> counted im o) /\
  ((a_show_unused a = true \/ filled im types (map (taken keep) l)) -> exists lu ln lo, ledger a (Account rs (map (taken keep) l) im types) (prepare a m) lu ln lo).
Proof.
  destruct (section_bytes_ok w ls (Some false) (Some (MapFile tgt rs (map f l))) None m mf' _ e types G eq_refl We Ty) as (ks & b & K0 & Bb & S1).
  { now left. }
  { exact Ws. }
  { exact Rn. }
  { cbn [mf_sections mf_regions]. apply Forall_map. rewrite Forall_forall in *. intros o Io Ke. apply f_kept in Ke. destruct (Se o Io Ke) as (F1 & F2 & F3).
    split; [apply (Ln o Io)|]. split; [exact F1|]. split; [exact F2|exact F3]. }
  destruct (used_bytes_ok w ls (Some false) (Some (MapFile tgt rs (map f l))) None m mf' _ e types G eq_refl We Ty) as (ks2 & b2 & K2 & Bb2 & U).
  { exact Ws. }
  { exact Rn. }
  { cbn [mf_sections mf_regions]. apply Forall_map. rewrite Forall_forall in *. intros o Io Ke. apply f_kept in Ke. destruct (Se o Io Ke) as (F1 & F2 & F3). split; [apply (Ln o Io)|exact F1]. }
  destruct (get_sizes w ls (Some false) (Some (MapFile tgt rs (map f l))) None m (MapFile tgt rs (map f l)) mf' eq_refl Rn G) as (types' & groups & Ty' & Gr & Ks & Sz).
  rewrite Ty in Ty'. injection Ty' as <-. cbn [mf_sections mf_regions] in *. pose proof (get_pristine' _ _ _ _ _ _ _ G) as Pr.
  set (keep := fun o => ks (f o)). assert (K : forall o, keep o = true <-> counted im o) by (intros o; unfold keep; rewrite K0; apply f_kept).
  exists keep. split; [exact K|]. intros Fi. set (q := map (taken keep) l) in *.
  assert (Kt : forall o, keep (taken keep o) = keep o) by (intros o; apply eq_true_iff_eq; rewrite !K; apply counted_taken).
  assert (Tk : forall o, counted im o -> taken keep o = back (f o)) by (intros o C; apply K in C; unfold taken; now rewrite C).
  assert (Fq : filter keep q = map (taken keep) (filter keep l)).
  { unfold q. rewrite filter_map_comm. f_equal. apply filter_ext. exact Kt. }
  assert (Nq : NoDup (map pr_name (filter keep q))).
  { rewrite Fq, map_map. erewrite map_ext; [apply (Nm keep K)|]. intros o. apply taken_name. }
  assert (Seq : Forall (fun o => counted im o -> section_mapped rs types (printed_section o) /\ items_in o) q).
  { unfold q. apply Forall_map. rewrite Forall_forall in *. intros o Io C. apply (proj1 (counted_taken keep o)) in C. rewrite (Tk o C). destruct (Se o Io C) as (F1 & _ & F3). split; [exact F1|].
    unfold items_in, back. cbn [pr_items pr_addr pr_size]. apply Forall_map. unfold isecs_in in F3. eapply Forall_impl; [|exact F3]. cbn beta. intros i Hi. cbn [core it_addr it_size]. tauto. }
  assert (Szq : Forall (fun o => Forall (fun i => 0 <= it_size i) (pr_items o)) q).
  { unfold q. apply Forall_map. rewrite Forall_forall in *. intros o Io. unfold taken. destruct (keep o) eqn:Ko; [|apply (Ln o Io)].
    apply K in Ko. destruct (Se o Io Ko) as (_ & _ & F3). cbn [back pr_items]. apply Forall_map. eapply Forall_impl; [|exact F3]. cbn beta. intros i Hi. cbn [core it_size]. tauto. }
  assert (S2 : forall T t, dget T (m_types m) = Some t ->
      (forall o, In o q -> counted im o -> listed_as b T (printed_section o) (dget (pr_name o) (t_sections t))) /\
      (forall n x, dget n (t_sections t) = Some x -> exists o, In o q /\ counted im o /\ pr_name o = n)).
  { intros T t Et. destruct S1 with (T := T) (t := t) as (L1 & L2); [|exact Et|].
    - rewrite filter_map_comm, map_map. exact (Nm keep K).
    - split.
      + intros o Io C. unfold q in Io. apply List.in_map_iff in Io. destruct Io as (o0 & <- & I0). apply (proj1 (counted_taken keep o0)) in C. rewrite taken_name, (Tk o0 C). apply listed_back.
        apply (L1 (f o0)); [now apply List.in_map|now apply f_kept].
      + intros n x Gx. destruct (L2 n x Gx) as (s & Is & Ke & <-). apply List.in_map_iff in Is. destruct Is as (o0 & <- & I0). exists (taken keep o0).
        split; [now apply List.in_map|]. apply f_kept in Ke. split; [now apply counted_taken|apply taken_name]. }
  assert (Us : forall T t, dget T (m_types m) = Some t -> t_used t = zsumf (fun o => bytes_with (fun x => b (pr_name o) x T) (pr_addr o) (pr_size o)) (filter keep q)).
  { intros T t Et. rewrite (U T t Et), zsumf_map_filter, Fq, zsumf_map.
    assert (Ek : filter (fun o => ks2 (f o)) l = filter keep l) by (apply filter_ext; intros o; apply eq_true_iff_eq; rewrite K2, K; apply f_kept). rewrite Ek.
    apply zsumf_ext. intros o _. rewrite taken_name, taken_addr, taken_size. apply bytes_ext. intros x. apply eq_true_iff_eq. rewrite Bb, Bb2. reflexivity. }
  assert (Im : image_bytes im q (m_image_size m)).
  { rewrite (image_size_get w ls (Some false) (Some (MapFile tgt rs (map f l))) None m (MapFile tgt rs (map f l)) mf' e G eq_refl We eq_refl). cbn [mf_sections]. split.
    - intros Lo hs -> Nh. destruct e as [xf|]; [|contradiction]. cbn in Ma.
      assert (Hh : has_headers (Some xf)) by (apply (has_headers_of (Some hs) (Some xf) Ma); exact Lo).
      assert (FA : filter alloc_b (elf_shdrs xf) = map header_of (filter header_loaded hs)).
      { rewrite Ma, filter_map. f_equal. }
      rewrite image_size_elf; [|exact Hh|].
      + unfold progbits_bytes. rewrite Ma, filter_map, zsumf_map. apply zsumf_ext. reflexivity.
      + rewrite FA, map_map. replace (map (fun x => sh_name (header_of x)) (filter header_loaded hs)) with (map fst (filter header_loaded hs)); [exact Nh|].
        apply map_ext_in. intros nh In0. apply filter_In in In0. destruct In0 as (_ & In0). unfold header_loaded in In0. apply andb_true_iff in In0.
        destruct In0 as (I1 & I2). apply negb_true_iff in I1, I2. unfold header_of. cbn [sh_name]. unfold SHF_ALLOC. now rewrite I1, I2.
    - intros Lo. assert (Hh : ~ has_headers e) by (intros X; apply Lo; apply (has_headers_of im e Ma); exact X).
      destruct (image_size_names e (filter_map_sections (map f l) (get_elf_sections_headers e)) Hh) as (img & Ip & ->).
      exists (fun o => keep o && img (printed_section o)). split.
      + intros o. rewrite andb_true_iff, K, Ip. reflexivity.
      + unfold filter_map_sections, q. clear -K Ma Ip Kt We. induction l as [|o r IH]; [reflexivity|]. cbn [map filter].
        assert (Ek : keep_section (get_elf_sections_headers e) (f o) = keep o).
        { apply eq_true_iff_eq. rewrite keep_spec, K. apply f_kept. }
        rewrite Ek, Kt. destruct (keep o) eqn:Ko; cbn [andb map filter]; [|exact IH].
        assert (Ei : img (drop_empty (f o)) = img (printed_section (taken keep o))).
        { apply eq_true_iff_eq. rewrite !Ip. cbn [printed_section o_name]. rewrite taken_name. reflexivity. }
        rewrite Ei. destruct (img (printed_section (taken keep o))); [|exact IH]. rewrite !zsumf_cons, IH, taken_size. reflexivity. }
  assert (Wd : wf_dict (m_types m)) by apply Pr.
  assert (Hu : forall T t, dget T (m_types m) = Some t -> t_used t = zsumf (fun kv => n_size (snd kv)) (t_sections t)).
  { intros T t Et. destruct (S2 T t Et) as (L1 & L2).
    assert (Wt0 : wf_dict (t_sections t)).
    { destruct Pr as (Wm0 & _). destruct Wm0 as (W1 & W2). rewrite Forall_forall in W2. apply dget_In in Et. specialize (W2 _ Et). apply W2. }
    rewrite (dict_sum n_size pr_name (t_sections t) Wt0 (filter keep q) Nq).
    - rewrite (Us T t Et). apply zsumf_ext. intros o Io. apply filter_In in Io. destruct Io as (Io & Ko). apply K in Ko. specialize (L1 o Io Ko). exact (listed_size _ _ _ _ L1).
    - intros n x G0. destruct (L2 n x G0) as (o & Io & Co & En). exists o. split; [|exact En]. apply filter_In. split; [exact Io|now apply K]. }
  destruct (prepare_types a m) as (E1 & E2).
  { intros Su T t It. pose proof It as Et. apply In_dget in Et; [|exact Wd]. destruct (S2 T t Et) as (L1 & L2).
    split; [now apply (Hu T)|]. destruct Fi as [Fi|Fi]; [congruence|]. intros n sx Isx.
    assert (Wt : wf_dict (t_sections t)). { destruct Pr as ((_ & W2) & _). rewrite Forall_forall in W2. specialize (W2 _ It). apply W2. }
    apply In_dget in Isx; [|exact Wt]. destruct (L2 n sx Isx) as (o' & Io & Co & En). specialize (L1 o' Io Co). rewrite En, Isx in L1.
    exact (listed_filled q im types b T o' sx Bb Fi Io Co L1). }
  do 3 eexists. eapply (ledger_of rs q im types m a keep b groups Seq Szq K Bb Pr Nq Ks); try eassumption; try (intros T t Et; apply (S2 T t Et)).
  transitivity (m_image_size_diff m); [|apply Pr]. unfold prepare. destruct (a_show_unused a), (a_use_flash_size a); reflexivity.
Qed.
End World.
