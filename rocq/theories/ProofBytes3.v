From Coq Require Import Ascii String List ZArith Lia Bool Permutation Sorted.
From Verif Require Import Base MemMap SpecTree Pipeline SpecPipe SpecBuild SpecBytes ProofOps ProofArch ProofTypes ProofSplit ProofBuild ProofSyms ProofStrip ProofExpand ProofGet ProofRegions ProofBytes ProofBytes2.
Import ListNotations.
Open Scope list_scope.
Open Scope Z_scope.

Lemma cut_keeps_in : cut_keeps isecs_in.
Proof.
  intros cut s C F. unfold isecs_in in *. rewrite Forall_forall in F. cbn [cut_section fst snd o_isecs o_addr o_size].
  split; apply Forall_forall; intros j J; apply in_flat_map in J; destruct J as (i & I & J); specialize (F i I); unfold split_isec in J;
    destruct (Z.leb_spec (i_addr i + i_size i + i_fill i) cut); cbn [fst snd In] in J;
    try (destruct (Z.ltb_spec cut (i_addr i)); cbn [fst snd In] in J);
    try contradiction; destruct J as [<-|[]]; cbn [i_size i_addr i_fill]; lia.
Qed.

Lemma object_size_parts a o p ov : object_size a o (rnode (add_archives p) ov) = object_bytes a o (o_isecs p).
Proof.
  unfold object_size. change (n_sub (rnode (add_archives p) ov)) with (as_archives (add_archives p)).
  assert (Z0 : (forall i, In i (o_isecs p) -> (i_archive i =?= a) && (i_object i =?= o) = false) -> object_bytes a o (o_isecs p) = 0).
  { intros H. unfold object_bytes. rewrite filter_false by exact H. reflexivity. }
  destruct (dget a (as_archives (add_archives p))) as [x|] eqn:E.
  - destruct (dget o (n_sub x)) as [b|] eqn:E2.
    + apply archives_totals in E. destruct E as (_ & _ & _ & E). apply E in E2. apply E2.
    + symmetry. apply Z0. intros i I. destruct (keqP (i_archive i) a) as [<-|]; [|reflexivity]. cbn [andb].
      destruct (keqP (i_object i) o) as [<-|]; [|reflexivity]. exfalso.
      destruct (archives_listed p i I) as (x' & b & E3 & E4). rewrite E in E3. injection E3 as <-. congruence.
  - symmetry. apply Z0. intros i I. destruct (keqP (i_archive i) a) as [<-|]; [|reflexivity]. exfalso.
    destruct (archives_listed p i I) as (x' & b & E3 & E4). congruence.
Qed.

Lemma reported_sizes p ov x : reported (add_archives p) ov x ->
  n_size x = o_size p /\ (forall a, archive_size a x = archive_bytes a (o_isecs p)) /\ forall a o, object_size a o x = object_bytes a o (o_isecs p).
Proof.
  intros (H1 & _ & H3 & _). split; [exact H1|]. split.
  - intros a. rewrite <- (archive_size_parts a p false). unfold archive_size. rewrite H3. reflexivity.
  - intros a o. rewrite <- (object_size_parts a o p false). unfold object_size. rewrite H3. reflexivity.
Qed.

Lemma NoDup_names_eq {A B} (f : A -> B) l a b : NoDup (map f l) -> In a l -> In b l -> f a = f b -> a = b.
Proof.
  induction l as [|x l IH]; intros N Ia Ib E; [contradiction|]. inversion N as [|? ? Nx N']; subst.
  destruct Ia as [->|Ia], Ib as [->|Ib]; auto; exfalso; apply Nx; [rewrite E|rewrite <- E]; apply List.in_map; assumption.
Qed.

Section Given.
  Variables (types : list chip_type) (regions : list region) (parts : list sregion).
  Variable d : str -> Z -> str -> bool.
  Hypothesis Sep : windows_separate types.
  Hypothesis PF : parts_fact regions types parts.
  Hypothesis Hd : forall n a T, d n a T = true <-> byte_goes types n a T.
  Notation to_type := (to_type types parts).
  Notation rt := (rt types parts).

  Variables (s : osection) (ps : list osection) (T : str).
  Hypothesis Pos : 0 < o_size s.
  Hypothesis M : section_mapped regions types s.
  Hypothesis G : group_of parts s ps.
  Hypothesis U : unbroken regions types s.
  Notation dT := (fun a => d (o_name s) a T).

  Lemma to_type_bytes p : In p ps -> to_type T p = true -> forall a, byte_of p a -> byte_goes types (o_name s) a T.
  Proof.
    intros I H a Ha. destruct (part_known types regions parts d Sep PF Hd s ps p Pos M G I) as (Tp & R & _ & _ & B).
    unfold ProofBytes2.to_type, goes_to in H. cbn [snd] in H. rewrite R in H. apply keq_eq in H. subst Tp. apply Hd, B; [exact Ha|reflexivity].
  Qed.

  Lemma only_part p : In p ps -> to_type T p = true -> forall F : osection -> Z, zsumf (fun q => if to_type T q then F q else 0) ps = F p.
  Proof.
    intros I H F. pose proof G as [G0 (G1 & G2 & G3)]. pose proof (G3 _ cut_keeps_pos Pos) as Pp.
    destruct (in_split _ _ I) as (l1 & l2 & E). rewrite E.
    rewrite zsumf_app, zsumf_cons, H. rewrite (zsumf_zero _ l1), (zsumf_zero _ l2); [lia| |].
    - intros q Iq. destruct (to_type T q) eqn:Hq; [|reflexivity]. exfalso.
      eapply (one_part regions types parts _ s ps l1 p l2 q T Sep PF M U G0 G1 Pp E Iq); apply to_type_bytes; auto.
      rewrite E. apply in_or_app. right. right. exact Iq.
    - intros q Iq. destruct (to_type T q) eqn:Hq; [|reflexivity]. exfalso. destruct (in_split _ _ Iq) as (m1 & m2 & ->).
      eapply (one_part regions types parts _ s ps m1 q (m2 ++ p :: l2) p T Sep PF M U G0 G1 Pp).
      + rewrite E, <- app_assoc. reflexivity.
      + apply in_or_app. right. left. reflexivity.
      + apply to_type_bytes; [|exact Hq]. rewrite E. apply in_or_app. left. exact Iq.
      + apply to_type_bytes; assumption.
  Qed.

  Lemma part_size p : In p ps -> to_type T p = true -> o_size p = bytes_with dT (o_addr s) (o_size s) /\ 0 < o_size p.
  Proof.
    intros I H. rewrite <- (group_bytes types regions parts d Sep PF Hd s ps T Pos M G), (only_part p I H o_size). split; [reflexivity|].
    destruct (part_known types regions parts d Sep PF Hd s ps p Pos M G I) as (_ & _ & X & _). exact X.
  Qed.

  Lemma no_part : (forall p, In p ps -> to_type T p = false) -> bytes_with dT (o_addr s) (o_size s) = 0.
  Proof.
    intros H. rewrite <- (group_bytes types regions parts d Sep PF Hd s ps T Pos M G). apply zsumf_zero. intros p I. rewrite H by exact I. reflexivity.
  Qed.

  Hypothesis Ins : isecs_in s.

  Lemma isec_bytes q i : In q ps -> In i (o_isecs q) -> bytes_with dT (i_addr i) (i_size i) = if to_type T q then i_size i else 0.
  Proof.
    intros Iq Ii. pose proof G as [G0 (G1 & G2 & G3)]. pose proof (G3 _ cut_keeps_in Ins) as Pi. rewrite Forall_forall in Pi.
    specialize (Pi q Iq). unfold isecs_in in Pi. rewrite Forall_forall in Pi. specialize (Pi i Ii).
    destruct (part_known types regions parts d Sep PF Hd s ps q Pos M G Iq) as (Tq & R & _ & _ & B).
    unfold ProofBytes2.to_type, goes_to. cbn [snd]. rewrite R. rewrite (bytes_const _ (Tq =?= T)); [reflexivity|lia|].
    intros a Ha. apply eq_true_iff_eq. rewrite B by (unfold byte_of; lia). destruct (keqP Tq T); split; congruence.
  Qed.

  Lemma part_measure p (sel : isection -> bool) : In p ps -> to_type T p = true ->
    (forall cut i j, In j (fst (split_isec cut i)) \/ In j (snd (split_isec cut i)) -> sel j = sel i) ->
    zsumf i_size (filter sel (o_isecs p)) = zsumf (fun i => bytes_with dT (i_addr i) (i_size i)) (filter sel (o_isecs s)).
  Proof.
    intros I H Hs. pose proof G as [G0 (G1 & G2 & G3)].
    rewrite (zsumf_filter sel (fun i => bytes_with dT (i_addr i) (i_size i))).
    rewrite <- (G2 _ (additive_if sel _ Hs (additive_bytes dT))).
    rewrite <- (only_part p I H (fun q => zsumf i_size (filter sel (o_isecs q)))). apply zsumf_ext. intros q Iq.
    destruct (to_type T q) eqn:Hq.
    - rewrite zsumf_filter. apply zsumf_ext. intros i Ii. rewrite (isec_bytes q i Iq Ii), Hq. reflexivity.
    - symmetry. apply zsumf_zero. intros i Ii. rewrite (isec_bytes q i Iq Ii), Hq. destruct (sel i); reflexivity.
  Qed.

  Lemma part_archive p a : In p ps -> to_type T p = true -> archive_bytes a (o_isecs p) = archive_bytes_with dT a s.
  Proof.
    intros I H. apply part_measure; auto. intros cut i j J. apply split_isec_fields in J. destruct J as (-> & _). reflexivity.
  Qed.
  Lemma part_object p a o : In p ps -> to_type T p = true -> object_bytes a o (o_isecs p) = object_bytes_with dT a o s.
  Proof.
    intros I H. apply part_measure; auto. intros cut i j J. apply split_isec_fields in J. destruct J as (-> & -> & _). reflexivity.
  Qed.
End Given.

Lemma same_bytes P (sel : isection -> bool) s t : (forall i j, same_isec i j -> sel i = sel j) -> same_osec (nonempty_isecs s) t ->
  zsumf (fun i => bytes_with P (i_addr i) (i_size i)) (filter sel (o_isecs t)) = zsumf (fun i => bytes_with P (i_addr i) (i_size i)) (filter sel (o_isecs s)).
Proof.
  intros Hs (_ & _ & _ & F). cbn [nonempty_isecs o_isecs] in F. rewrite !zsumf_filter.
  transitivity (zsumf (fun i => if sel i then bytes_with P (i_addr i) (i_size i) else 0) (filter (fun i => negb (i_size i =? 0)) (o_isecs s))).
  - induction F as [|i j l l' R F IH]; [reflexivity|]. rewrite !zsumf_cons, IH, (Hs _ _ R). destruct R as (_ & -> & -> & _). reflexivity.
  - rewrite zsumf_filter. apply zsumf_ext. intros i _. destruct (Z.eqb_spec (i_size i) 0) as [E|]; cbn [negb]; [|reflexivity].
    rewrite E, bytes_none by lia. destruct (sel i); reflexivity.
Qed.

Lemma same_isecs_in s t : same_osec (nonempty_isecs s) t -> isecs_in s -> isecs_in t.
Proof.
  intros (_ & E1 & E2 & F) H. unfold isecs_in in *. cbn [nonempty_isecs o_addr o_size o_isecs] in *. rewrite <- E1, <- E2.
  rewrite Forall_forall in *. intros j J. destruct (f2_In_r _ _ _ _ F J) as (i & I & (_ & <- & <- & <- & _)).
  apply H. apply filter_In in I. apply I.
Qed.

Lemma same_listed d T s t x : same_osec (nonempty_isecs s) t -> listed_as d T t x -> listed_as d T s x.
Proof.
  intros H. pose proof H as (E0 & E1 & E2 & _). cbn [nonempty_isecs o_name o_addr o_size] in *. unfold listed_as. rewrite <- E0, <- E1, <- E2.
  destruct x as [x|]; [|auto]. intros (L1 & L2 & L3 & L4 & L5). split; [exact L1|]. split; [exact L2|]. split; [|split].
  - intros a. rewrite L3. apply same_bytes; [|exact H]. intros i j (_ & _ & _ & _ & -> & _). reflexivity.
  - intros a o. rewrite L4. apply same_bytes; [|exact H]. intros i j (_ & _ & _ & _ & -> & ->). reflexivity.
  - intros a y Ey. destruct H as (_ & _ & _ & F). cbn [nonempty_isecs o_isecs] in F.
    assert (Back : forall j, In j (o_isecs t) -> exists i, In i (o_isecs s) /\ same_isec i j).
    { intros j J. destruct (f2_In_r _ _ _ _ F J) as (i & I & R). apply filter_In in I. exists i. now split. }
    destruct (L5 a y Ey) as ((j & J & Aj & Sj) & L6). split.
    + destruct (Back j J) as (i & I & (_ & _ & R1 & _ & R2 & _)). exists i. rewrite R1, R2. now repeat split.
    + intros o z Ez. destruct (L6 o z Ez) as (j' & J' & Aj' & Oj' & Sj'). destruct (Back j' J') as (i & I & (_ & _ & R1 & _ & R2 & R3)). exists i. rewrite R1, R2, R3. now repeat split.
Qed.

Lemma cut_keeps_from (P : isection -> Prop) : (forall cut i j, In j (fst (split_isec cut i)) \/ In j (snd (split_isec cut i)) -> P i -> P j) ->
  cut_keeps (fun q => Forall P (o_isecs q)).
Proof.
  intros H cut s C F. rewrite Forall_forall in F. cbn [cut_section fst snd o_isecs].
  split; apply Forall_forall; intros j J; apply in_flat_map in J; destruct J as (i & I & J); eapply H; eauto.
Qed.
Lemma part_listed parts s ps p x ov : group_of parts s ps -> In p ps -> Forall (fun i => i_size i <> 0) (o_isecs s) -> reported (add_archives p) ov x -> listed_only s x.
Proof.
  intros [_ (_ & _ & G3)] Ip Nz (_ & _ & Sub & _) a y Ey. rewrite Sub in Ey.
  set (P := fun j => exists i, In i (o_isecs s) /\ i_archive i = i_archive j /\ i_object i = i_object j).
  assert (Fp : Forall P (o_isecs p)).
  { assert (X : Forall (fun q => Forall P (o_isecs q)) ps).
    { apply (G3 (fun q => Forall P (o_isecs q))).
      - apply cut_keeps_from. intros cut i j J (i0 & I0 & E1 & E2). apply split_isec_fields in J. destruct J as (A & O & _). exists i0. rewrite A, O. now repeat split.
      - apply Forall_forall. intros i I. exists i. now repeat split. }
    rewrite Forall_forall in X. now apply X. }
  rewrite Forall_forall in Fp, Nz. destruct (archives_no_more p a y Ey) as ((i & I & Ai) & M). split.
  - destruct (Fp i I) as (i0 & I0 & E1 & _). exists i0. split; [exact I0|]. split; [congruence|]. now apply Nz.
  - intros o z Ez. destruct (M o z Ez) as (i' & I' & Ai' & Oi'). destruct (Fp i' I') as (i0 & I0 & E1 & E2). exists i0. split; [exact I0|]. split; [congruence|]. split; [congruence|]. now apply Nz.
Qed.

Lemma get_section_bytes w ls ud ma ea m mf' mf e types keep (d : str -> Z -> str -> bool) :
  get w ls ud ma ea = Ok (m, mf') -> map_file_of w ma mf -> w_elf w = Ok e -> w_memory_types w (m_target m) = Ok types ->
  dwarf_flag ud w = false ->
  windows_separate types -> Forall (fun r => 0 <= r_length r) (mf_regions mf) ->
  (forall s, keep s = true <-> kept e s) -> (forall n a T, d n a T = true <-> byte_goes types n a T) ->
  NoDup (map o_name (filter keep (mf_sections mf))) ->
  Forall (fun s => kept e s -> 0 <= o_size s /\ section_mapped (mf_regions mf) types s /\ unbroken (mf_regions mf) types s /\ isecs_in s) (mf_sections mf) ->
  forall T t, dget T (m_types m) = Some t ->
    (forall s, In s (mf_sections mf) -> kept e s -> listed_as d T s (dget (o_name s) (t_sections t))) /\
    (forall n x, dget n (t_sections t) = Some x -> exists s, In s (mf_sections mf) /\ kept e s /\ o_name s = n).
Proof.
  intros E Lm Le Ty D Sep Rl Hk Hd N F T t Et.
  destruct (get_known _ _ _ _ _ _ _ _ _ E Lm Le) as (types' & keep' & parts & ws & groups & Ty' & Hk' & Sr & _ & Sm & G & Em).
  rewrite Ty in Ty'. injection Ty' as <-. rewrite Em in Et. specialize (Sm D).
  assert (Ek : filter keep (mf_sections mf) = filter keep' (mf_sections mf)).
  { apply filter_ext. intros s. apply eq_true_iff_eq. rewrite Hk, Hk'. reflexivity. }
  rewrite <- Ek in Sm. clear keep' Hk' Ek. pose proof (parts_fact_split _ _ _ _ Rl Sr) as PF.
  assert (Nw : NoDup (map o_name ws)).
  { replace (map o_name ws) with (map o_name (filter keep (mf_sections mf))); [exact N|]. clear -Sm. revert ws Sm.
    induction (filter keep (mf_sections mf)) as [|s l IH]; intros ws H; inversion H as [|? u ? l' K F]; subst; [reflexivity|].
    cbn [map]. rewrite (IH _ F). destruct K as (K & _). cbn [nonempty_isecs o_name] in K. rewrite K. reflexivity. }
  assert (Fw : forall s', In s' ws -> exists s, In s (mf_sections mf) /\ kept e s /\ same_osec (nonempty_isecs s) s' /\
     0 < o_size s' /\ section_mapped (mf_regions mf) types s' /\ unbroken (mf_regions mf) types s' /\ isecs_in s').
  { intros s' I. destruct (f2_In_r _ _ _ _ Sm I) as (n & In0 & S0). apply List.in_map_iff in In0. destruct In0 as (s & <- & Is).
    apply filter_In in Is. destruct Is as [Is K]. apply Hk in K. exists s. rewrite Forall_forall in F. destruct (F s Is K) as (F1 & F2 & F3 & F4).
    split; [exact Is|]. split; [exact K|]. split; [exact S0|]. pose proof S0 as (S1 & S2 & S3 & _). cbn [nonempty_isecs o_name o_addr o_size] in *.
    split; [destruct K as [K _]; lia|]. split; [eapply header_mapped; [|exact F2]; repeat split; assumption|].
    split; [|eapply same_isecs_in; eassumption]. unfold unbroken, byte_of in *. rewrite <- S1, <- S2, <- S3. exact F3. }
  assert (Fg : forall p, In p (concat groups) -> exists s' ps, In s' ws /\ In p ps /\ group_of parts s' ps).
  { intros p I. apply in_concat in I. destruct I as (ps & Ig & Ip). destruct (f2_In_r _ _ _ _ G Ig) as (s' & Is & R). apply in_rev in Is. eauto. }
  assert (Fk : forall p s' ps, In s' ws -> In p ps -> group_of parts s' ps -> exists Tp, rt types parts (add_archives p) = Some (Tp, false) /\ o_name p = o_name s').
  { intros p s' ps Is Ip R. destruct (Fw s' Is) as (s & _ & _ & _ & W1 & W2 & _).
    destruct (part_known types _ parts d Sep PF Hd s' ps p W1 W2 R Ip) as (Tp & R1 & _ & R2 & _). eauto. }
  assert (Sx : forall n x, dget n (t_sections t) = Some x -> exists s' ps p, In s' ws /\ group_of parts s' ps /\ In p ps /\ o_name s' = n /\
     to_type types parts T p = true /\ reported (add_archives p) false x).
  { intros n x Ex. pose proof (map_sections _ _ _ _ _ n Et) as Ms. rewrite Ex in Ms. destruct Ms as (l1 & q & l2 & ov & El & Dq & Nq & Rq & _).
    assert (Iq : In q (map add_archives (concat groups))) by (rewrite El; apply in_or_app; right; left; reflexivity).
    apply List.in_map_iff in Iq. destruct Iq as (p & <- & Ip). destruct (Fg p Ip) as (s' & ps & Is & Ips & R).
    destruct (Fk p s' ps Is Ips R) as (Tp & R1 & R2).
    pose proof (dest_unique _ _ _ _ _ (route_dest types parts (add_archives p)) Dq) as X. unfold rt in R1. rewrite R1 in X. injection X as -> <-.
    exists s', ps, p. repeat (split; [first [assumption | symmetry; rewrite Nq; exact R2]|]). split; [|exact Rq].
    unfold to_type, goes_to, rt. cbn [snd]. rewrite R1. apply keq_refl. }
  split.
  - intros s Is K.
    assert (Ik : In (nonempty_isecs s) (map nonempty_isecs (filter keep (mf_sections mf)))).
    { apply List.in_map, filter_In. split; [exact Is|]. apply Hk, K. }
    destruct (f2_In_l _ _ _ _ Sm Ik) as (s' & Is' & S0). apply (same_listed d T s s' _ S0).
    destruct (Fw s' Is') as (_ & _ & _ & _ & W1 & W2 & W3 & W4).
    destruct (f2_In_l _ _ _ s' G) as (ps & Ips & R); [apply -> in_rev; exact Is'|].
    assert (En : o_name s = o_name s') by apply S0. rewrite En.
    destruct (dget (o_name s') (t_sections t)) as [x|] eqn:Ex; unfold listed_as.
    + destruct (Sx _ _ Ex) as (s2 & ps2 & p & Is2 & R2 & Ip & Nm & Tp & Rp).
      assert (s2 = s') by (eapply (NoDup_names_eq o_name); eassumption). subst s2.
      assert (ps2 = ps) by (destruct R as [R _], R2 as [R2 _]; congruence). subst ps2.
      destruct (reported_sizes _ _ _ Rp) as (X1 & X2 & X3).
      destruct (part_size types _ parts d Sep PF Hd s' ps T W1 W2 R W3 p Ip Tp) as [Y1 Y2]. rewrite <- Y1. split; [exact Y2|]. split; [exact X1|]. split.
      * intros a. rewrite X2. apply (part_archive types _ parts d Sep PF Hd s' ps T W1 W2 R W3 W4 p a Ip Tp).
      * split; [intros a o; rewrite X3; apply (part_object types _ parts d Sep PF Hd s' ps T W1 W2 R W3 W4 p a o Ip Tp)|].
        eapply part_listed; [exact R|exact Ip| |exact Rp]. destruct S0 as (_ & _ & _ & F0). cbn [nonempty_isecs o_isecs] in F0.
        apply Forall_forall. intros j J. destruct (f2_In_r _ _ _ _ F0 J) as (i & Ii & (_ & _ & <- & _)). apply filter_In in Ii. destruct Ii as (_ & Ii). apply negb_true_iff, Z.eqb_neq in Ii. exact Ii.
    + apply (no_part types _ parts d Sep PF Hd s' ps T W1 W2 R). intros p Ip.
      pose proof (map_sections _ _ _ _ _ (o_name s') Et) as Ms. rewrite Ex in Ms.
      destruct (Fk p s' ps Is' Ip R) as (Tp & R1 & R2). unfold to_type, goes_to. cbn [snd]. rewrite R1.
      destruct (keqP Tp T) as [->|]; [|reflexivity]. exfalso. eapply (Ms (add_archives p) false).
      * apply List.in_map, in_concat. eauto.
      * unfold rt in R1. pose proof (route_dest types parts (add_archives p)) as X. rewrite R1 in X. exact X.
      * exact R2.
  - intros n x Ex. destruct (Sx _ _ Ex) as (s' & ps & p & Is & R & Ip & Nm & _). destruct (Fw s' Is) as (s & I1 & I2 & S0 & _).
    exists s. split; [exact I1|]. split; [exact I2|]. rewrite <- Nm. apply S0.
Qed.

(** the decisions used in the statements exist *)
Lemma goes_decided types : exists d : str -> Z -> str -> bool, forall n a T, d n a T = true <-> byte_goes types n a T.
Proof.
  exists (fun n a T =>
    let ext := existsb (fun p => startswith (list_ascii_of_string p) n) EXT_RAM_SECTION_NAMES in
    match ext_ram_alias types with
    | Some al => if ext then al =?= T else match find_type types a with Some (t, _) => ct_name t =?= T | None => false end
    | None => match find_type types a with Some (t, _) => ct_name t =?= T | None => false end
    end).
  intros n a T. cbv zeta.
  assert (A : match find_type types a with Some (t, _) => ct_name t =?= T | None => false end = true <-> exists t, first_covering types a t /\ ct_name t = T).
  { destruct (find_type types a) as [[t b]|] eqn:Ft.
    - pose proof (find_type_ok _ _ _ _ Ft) as (Fc & _). destruct (keqP (ct_name t) T) as [E|E].
      + split; [intros _; eauto|reflexivity].
      + split; [discriminate|]. intros (u & Fu & Eu). exfalso. apply E. rewrite (first_covering_unique _ _ _ _ Fc Fu). exact Eu.
    - split; [discriminate|]. intros (u & (l1 & l2 & -> & C & _) & _). exfalso. apply find_type_none in Ft. apply Ft. exists u.
      split; [apply in_or_app; right; left; reflexivity|exact C]. }
  pose proof (ext_name_spec n) as B. unfold byte_goes, by_name.
  destruct (ext_ram_alias types) as [al|] eqn:Ea.
  - apply ext_alias_spec in Ea. destruct (existsb _ EXT_RAM_SECTION_NAMES).
    + assert (N : ext_ram_name n) by (apply B; reflexivity). destruct (keqP al T) as [->|Ne].
      * split; [intros _; left; auto|reflexivity].
      * split; [discriminate|]. intros [[_ X]|[X _]]; exfalso; [apply Ne; eapply ext_ram_unique; eassumption|]. apply X. eauto.
    + assert (N : ~ ext_ram_name n) by (intros X; apply B in X; discriminate X). rewrite A. split.
      * intros H. right. split; [|exact H]. intros [_ X]. contradiction.
      * intros [[X _]|[_ X]]; [contradiction|exact X].
  - assert (N : forall al, ~ ext_ram types al) by (intros al X; apply ext_alias_spec in X; congruence). rewrite A. split.
    + intros H. right. split; [|exact H]. intros [(al & X) _]. apply (N al X).
    + intros [[_ X]|[_ X]]; [exfalso; apply (N T X)|exact X].
Qed.

Lemma used_bytes_ok w ls ud ma ea m mf' mf e types :
  get w ls ud ma ea = Ok (m, mf') -> map_file_of w ma mf -> w_elf w = Ok e -> w_memory_types w (m_target m) = Ok types ->
  windows_separate types -> Forall (fun r => 0 <= r_length r) (mf_regions mf) ->
  Forall (fun s => kept e s -> 0 <= o_size s /\ section_mapped (mf_regions mf) types s) (mf_sections mf) ->
  exists keep d, (forall s, keep s = true <-> kept e s) /\ (forall n a T, d n a T = true <-> byte_goes types n a T) /\
    forall T t, dget T (m_types m) = Some t ->
      t_used t = zsumf (fun s => bytes_with (fun a => d (o_name s) a T) (o_addr s) (o_size s)) (filter keep (mf_sections mf)).
Proof.
  intros E Lm Le Ty Sep Rl F. destruct (goes_decided types) as (d & Hd).
  exists (keep_section (get_elf_sections_headers e)), d. split; [intros; apply keep_spec|]. split; [exact Hd|].
  eapply get_used_bytes; try eassumption. intros; apply keep_spec.
Qed.

Lemma section_bytes_ok w ls ud ma ea m mf' mf e types :
  get w ls ud ma ea = Ok (m, mf') -> map_file_of w ma mf -> w_elf w = Ok e -> w_memory_types w (m_target m) = Ok types ->
  wants_dwarf ud w false -> windows_separate types -> Forall (fun r => 0 <= r_length r) (mf_regions mf) ->
  Forall (fun s => kept e s -> 0 <= o_size s /\ section_mapped (mf_regions mf) types s /\ unbroken (mf_regions mf) types s /\ isecs_in s) (mf_sections mf) ->
  exists keep d, (forall s, keep s = true <-> kept e s) /\ (forall n a T, d n a T = true <-> byte_goes types n a T) /\
    (NoDup (map o_name (filter keep (mf_sections mf))) ->
     forall T t, dget T (m_types m) = Some t ->
      (forall s, In s (mf_sections mf) -> kept e s -> listed_as d T s (dget (o_name s) (t_sections t))) /\
      (forall n x, dget n (t_sections t) = Some x -> exists s, In s (mf_sections mf) /\ kept e s /\ o_name s = n)).
Proof.
  intros E Lm Le Ty D Sep Rl F. apply wants_flag in D. destruct (goes_decided types) as (d & Hd).
  exists (keep_section (get_elf_sections_headers e)), d. split; [intros; apply keep_spec|]. split; [exact Hd|].
  intros N. eapply get_section_bytes; try eassumption. intros; apply keep_spec.
Qed.
