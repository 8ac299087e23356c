From Coq Require Import Ascii String List ZArith Lia Bool Permutation Sorted.
From Verif Require Import Base MemMap SpecTree SpecOps SpecTable Filter Pipeline SpecPipe SpecBuild SpecBytes SpecShape ProofOps ProofBuild ProofBytes ProofBytes2 ProofBytes3 ProofShape PyStr MapFile SpecMap
  ElfRead SpecElf Project SpecProject ProofProject2 SpecEnd ProofEnd Chips SpecChips ProofChips Deps Table Formats ProofFormats Main SpecMain ProofMain Command SpecCommand ProofCommand1.
Import ListNotations.
Open Scope list_scope.
Open Scope Z_scope.

Lemma count_ext P Q n : (forall x, P x = Q x) -> forall a, count P a n = count Q a n.
Proof. intros H. induction n as [|n IH]; intros a; cbn [count]; [reflexivity|]. now rewrite H, IH. Qed.
Lemma bytes_ext P Q a n : (forall x, P x = Q x) -> bytes_with P a n = bytes_with Q a n.
Proof. intros H. now apply count_ext. Qed.
Lemma bytes_pos P a n : (exists x, a <= x < a + n /\ P x = true) -> 0 < bytes_with P a n.
Proof.
  intros (x & H & Px). replace n with ((x - a) + (1 + (a + n - x - 1))) by lia.
  rewrite !bytes_app by lia. pose proof (bytes_nonneg P a (x - a)). pose proof (bytes_nonneg P (a + (x - a) + 1) (a + n - x - 1)).
  assert (bytes_with P (a + (x - a)) 1 = 1). { unfold bytes_with. change (Z.to_nat 1) with 1%nat. cbn [count]. replace (a + (x - a)) with x by lia. rewrite Px. reflexivity. } lia.
Qed.
Lemma count_some P n : forall a, 0 < count P a n -> exists x, a <= x < a + Z.of_nat n /\ P x = true.
Proof.
  induction n as [|n IH]; intros a H; cbn [count] in H; [lia|]. destruct (P a) eqn:E; [exists a; split; [lia|exact E]|].
  destruct (IH (a + 1)) as (x & Hx & Px); [lia|]. exists x. split; [lia|exact Px].
Qed.
Lemma bytes_some P a n : 0 < bytes_with P a n -> exists x, a <= x < a + n /\ P x = true.
Proof. intros H. destruct (Z.le_gt_cases n 0) as [L|L]; [rewrite bytes_none in H; lia|]. apply count_some in H. rewrite Z2Nat.id in H by lia. exact H. Qed.
Lemma zsumf_nonneg {A} (f : A -> Z) l : (forall x, In x l -> 0 <= f x) -> 0 <= zsumf f l.
Proof. induction l as [|x l IH]; intros H; [cbn; lia|]. rewrite zsumf_cons. pose proof (H x (or_introl eq_refl)). specialize (IH (fun y I => H y (or_intror I))). lia. Qed.
Lemma zsumf_pos {A} (f : A -> Z) l x : (forall x, In x l -> 0 <= f x) -> In x l -> 0 < f x -> 0 < zsumf f l.
Proof.
  intros H I Hx. apply in_split in I. destruct I as (l1 & l2 & ->). rewrite zsumf_app, zsumf_cons.
  assert (0 <= zsumf f l1) by (apply zsumf_nonneg; intros; apply H, in_or_app; now left).
  assert (0 <= zsumf f l2) by (apply zsumf_nonneg; intros; apply H, in_or_app; right; now right). lia.
Qed.

(** the sum over a dictionary as the sum over a list of names *)
Lemma dict_sum {V K} (g : V -> Z) (nm : K -> str) (D : dict str V) : wf_dict D -> forall l, NoDup (map nm l) ->
  (forall n x, dget n D = Some x -> exists o, In o l /\ nm o = n) ->
  zsumf (fun kv => g (snd kv)) D = zsumf (fun o => match dget (nm o) D with Some x => g x | None => 0 end) l.
Proof.
  induction D as [|[n x] D IH]; intros W l N H.
  - cbn [dget]. clear. induction l as [|o l IH]; [reflexivity|]. rewrite zsumf_cons. cbn in *. lia.
  - assert (Wn : ~ In n (keys D) /\ wf_dict D) by (unfold wf_dict in W; cbn in W; now apply NoDup_cons_iff in W). destruct Wn as (Wn & WD).
    destruct (H n x) as (o & Io & En); [cbn; now rewrite keq_refl|]. apply in_split in Io. destruct Io as (l1 & l2 & ->).
    rewrite map_app in N. cbn [map] in N. pose proof (NoDup_remove _ _ _ N) as (N1 & N2). rewrite <- map_app in N1, N2.
    assert (Ext : forall o', In o' (l1 ++ l2) -> match dget (nm o') ((n, x) :: D) with Some x => g x | None => 0 end = match dget (nm o') D with Some x => g x | None => 0 end).
    { intros o' I'. cbn [dget]. destruct (nm o' =?= n) eqn:E; [|reflexivity]. apply keq_eq in E. exfalso. apply N2. rewrite En, <- E. now apply List.in_map. }
    rewrite zsumf_cons, (IH WD (l1 ++ l2) N1).
    + rewrite !zsumf_app, zsumf_cons. cbn [snd]. assert (Eo : dget (nm o) ((n, x) :: D) = Some x) by (cbn [dget]; rewrite En, keq_refl; reflexivity). rewrite Eo.
      assert (E1 := zsumf_ext _ _ l1 (fun o' I' => Ext o' (in_or_app _ _ _ (or_introl I')))).
      assert (E2 := zsumf_ext _ _ l2 (fun o' I' => Ext o' (in_or_app _ _ _ (or_intror I')))). rewrite E1, E2. lia.
    + intros n' x' G. assert (Ne : n' <> n) by (intros ->; apply Wn; apply dget_In in G; apply (List.in_map fst) in G; exact G).
      destruct (H n' x') as (o' & I' & E'); [cbn [dget]; destruct (n' =?= n) eqn:E; [apply keq_eq in E; congruence|exact G]|].
      exists o'. split; [|exact E']. apply in_app_or in I'. apply in_or_app. destruct I' as [I'|[->|I']]; [now left| |now right]. congruence.
Qed.

Lemma listed_size b T o z : listed_as b T (printed_section o) z ->
  bytes_with (fun a => b (pr_name o) a T) (pr_addr o) (pr_size o) = match z with Some x => n_size x | None => 0 end.
Proof. destruct z; intros L; [symmetry; apply L|exact L]. Qed.

Section Built.
Variables (d : disk) (dir name text : str) (rs : list region) (l : list printed) (crt : option (list SpecMap.entry)) (im : option (list (str * xshdr))) (types : list chip_type).
Hypothesis B : built d dir name text rs l crt im types.

Lemma names_distinct keep : (forall o, keep o = true <-> counted im o) -> NoDup (map pr_name (filter keep l)).
Proof.
  intros K. pose proof (bt_names _ _ _ _ _ _ _ _ _ B) as N. clear B. revert N. generalize l. induction l0 as [|o q IH]; intros N; [constructor|].
  assert (IHq : NoDup (map pr_name (filter keep q))). { apply IH. intros l1 o1 l2 o2 l3 ->. apply (N (o :: l1) o1 l2 o2 l3). reflexivity. }
  cbn [filter]. destruct (keep o) eqn:Ko; [|exact IHq]. cbn [map]. constructor; [|exact IHq]. intros I. apply List.in_map_iff in I.
  destruct I as (o' & E & I). apply filter_In in I. destruct I as (I & Ko'). apply in_split in I. destruct I as (q1 & q2 & ->).
  apply (N [] o q1 o' q2); [reflexivity|now apply K|now apply K|congruence].
Qed.

Lemma built_target ls ud m : get_files d (get_memory_types chip_info) (in_dir dir name) ls ud = Ok m -> get_memory_types chip_info (m_target m) = Ok types.
Proof.
  intros E. destruct B as [D P T _ _ _ (t & Ti & Ty) _ _]. rewrite <- Ty. f_equal. destruct Ti as [o app t De M G Ne|pm U Mt].
  - eapply described_target; eassumption.
  - eapply undescribed_target; eassumption.
Qed.

Lemma image_size_get w ls ud ma ea m mf mf' e : get w ls ud ma ea = Ok (m, mf') -> map_file_of w ma mf -> w_elf w = Ok e -> dwarf_flag ud w = false ->
  m_image_size m = get_image_size (get_elf_sections_headers e) (filter_map_sections (mf_sections mf) (get_elf_sections_headers e)).
Proof.
  intros E Mf We F. unfold get in E. assert (L : load_mapfile ma (w_mapfile w) = Ok mf) by (destruct ma; cbn in *; [now subst|now rewrite Mf]).
  rewrite L in E. cbn [bind] in E. rewrite We in E. cbn [bind] in E. rewrite F in E.
  destruct (pick_target (w_proj_desc w) mf) as [target|]; cbn [bind] in E; [|discriminate E].
  destruct (w_memory_types w target) as [types0|]; cbn [bind] in E; [|discriminate E].
  match type of E with (do x <- ?c; _) = _ => destruct c as [[img r]|] eqn:Bd; cbn [bind] in E; [|discriminate E] end. injection E as <- _. cbn [m_image_size fst].
  unfold build in Bd. destruct (split_memory_regions _ _ _); [|discriminate]. cbn [bind] in Bd.
  match type of Bd with (do x <- ?c; _) = _ => destruct c; cbn [bind] in Bd; [|discriminate Bd] end.
  match type of Bd with (do x <- ?c; _) = _ => destruct c; cbn [bind] in Bd; [|discriminate Bd] end. now injection Bd.
Qed.

(** the memory map of the project *)
Lemma built_map ls ud m : get_files d (get_memory_types chip_info) (in_dir dir name) ls ud = Ok m -> no_dwarf d dir ud ->
  exists keep b groups, (forall o, keep o = true <-> counted im o) /\ (forall n a T, b n a T = true <-> byte_goes types n a T) /\
    pristine m /\ Forall2 (region_parts types) (filter listed_region rs) groups /\
    (forall t, In t (keys (m_types m)) <-> exists c, In c types /\ ct_name c = t) /\ image_bytes im l (m_image_size m) /\
    forall T t, dget T (m_types m) = Some t ->
      t_size t = type_size T (concat groups) /\
      t_used t = zsumf (fun o => bytes_with (fun a => b (pr_name o) a T) (pr_addr o) (pr_size o)) (filter keep l) /\
      (forall o, In o l -> counted im o -> listed_as b T (printed_section o) (dget (pr_name o) (t_sections t))) /\
      (forall n x, dget n (t_sections t) = Some x -> exists o, In o l /\ counted im o /\ pr_name o = n) /\
      t_used t = zsumf (fun kv => n_size (snd kv)) (t_sections t).
Proof.
  intros E Nd. pose proof (built_target _ _ _ E) as Ty. pose proof names_distinct as Ndup. destruct B as [D P T Pm R I _ Se _].
  destruct (sections_end d dir name text rs l crt im D P T Pm R I ls ud m types Nd E Ty Se) as (keep & b & K & Bb & S1). specialize (S1 (Ndup keep K)).
  destruct (used_end d dir name text rs l crt im D P T Pm R I ls ud m types E Ty) as (keep2 & b2 & K2 & Bb2 & U).
  { eapply Forall_impl; [|exact Se]. intros o H C. apply H, C. }
  destruct (loaded_world _ _ _ _ _ _ _ _ D P E I) as (w & e & mf & G & Wm & We & M & Wt & Wf).
  destruct (load_printed _ _ _ _ _ _ T Pm R) as (target & Lp). rewrite Lp in Wm.
  destruct (get_sizes w ls (Some (w_lto w)) None None m _ _ Wm (proj1 (printed_nonneg _ _ _ _ Pm)) G) as (types' & groups & Ty' & Gr & Ks & Sz).
  rewrite Wt, Ty in Ty'. injection Ty' as <-. pose proof (get_pristine' _ _ _ _ _ _ _ G) as Pr.
  assert (Im : image_bytes im l (m_image_size m)).
  { rewrite (image_size_get _ _ _ _ _ _ _ _ _ G Wm We (Wf Nd)). cbn [mf_sections]. split.
    - intros L hs -> Nh. destruct e as [f|]; [|contradiction]. cbn in M.
      assert (Hh : has_headers (Some f)) by (apply (has_headers_of (Some hs) (Some f) M); exact L).
      assert (FA : filter alloc_b (elf_shdrs f) = map header_of (filter header_loaded hs)).
      { rewrite M, filter_map. f_equal. }
      rewrite image_size_elf; [|exact Hh|].
      + unfold progbits_bytes. rewrite M, filter_map, zsumf_map. apply zsumf_ext. reflexivity.
      + rewrite FA, map_map. replace (map (fun x => sh_name (header_of x)) (filter header_loaded hs)) with (map fst (filter header_loaded hs)); [exact Nh|].
        apply map_ext_in. intros nh In0. apply filter_In in In0. destruct In0 as (_ & In0). unfold header_loaded in In0. apply andb_true_iff in In0.
        destruct In0 as (I1 & I2). apply negb_true_iff in I1, I2. unfold header_of. cbn [sh_name]. unfold SHF_ALLOC. now rewrite I1, I2.
    - intros L. assert (Hh : ~ has_headers e) by (intros X; apply L; apply (has_headers_of im e M); exact X).
      destruct (image_size_names e (filter_map_sections (map printed_section l) (get_elf_sections_headers e)) Hh) as (img & Ip & ->).
      exists (fun o => keep o && img (printed_section o)). split.
      + intros o. rewrite andb_true_iff, K, Ip. reflexivity.
      + unfold filter_map_sections. clear -K M Ip. induction l as [|o q IH]; [reflexivity|]. cbn [map filter].
        assert (Ek : keep_section (get_elf_sections_headers e) (printed_section o) = keep o).
        { apply eq_true_iff_eq. rewrite keep_spec, K. now apply kept_counted. }
        rewrite Ek. destruct (keep o); cbn [andb map filter]; [|exact IH].
        assert (Ei : img (drop_empty (printed_section o)) = img (printed_section o)).
        { apply eq_true_iff_eq. rewrite !Ip. reflexivity. }
        rewrite Ei. destruct (img (printed_section o)); [|exact IH]. rewrite !zsumf_cons, IH. reflexivity. }
  exists keep, b, groups. split; [exact K|]. split; [exact Bb|]. split; [exact Pr|]. split; [exact Gr|]. split; [exact Ks|]. split; [exact Im|].
  intros T0 t Et. destruct (S1 T0 t Et) as (L1 & L2). split; [now apply Sz|].
  assert (Ek : filter keep2 l = filter keep l) by (apply filter_ext; intros o; apply eq_true_iff_eq; rewrite K, K2; reflexivity).
  assert (Us : t_used t = zsumf (fun o => bytes_with (fun a => b (pr_name o) a T0) (pr_addr o) (pr_size o)) (filter keep l)).
  { rewrite (U T0 t Et), Ek. apply zsumf_ext. intros o _. apply bytes_ext. intros a. apply eq_true_iff_eq. rewrite Bb, Bb2. reflexivity. }
  split; [exact Us|]. split; [exact L1|]. split; [exact L2|].
  assert (Wt0 : wf_dict (t_sections t)).
  { destruct Pr as (Wm0 & _). destruct Wm0 as (W1 & W2). rewrite Forall_forall in W2. apply dget_In in Et. specialize (W2 _ Et). apply W2. }
  rewrite (dict_sum n_size pr_name (t_sections t) Wt0 (filter keep l) (Ndup keep K)).
  - rewrite Us. apply zsumf_ext. intros o Io. apply filter_In in Io. destruct Io as (Io & Ko). apply K in Ko. specialize (L1 o Io Ko).
    exact (listed_size _ _ _ _ L1).
  - intros n x G0. destruct (L2 n x G0) as (o & Io & Co & En). exists o. split; [|exact En]. apply filter_In. split; [exact Io|now apply K].
Qed.
End Built.
