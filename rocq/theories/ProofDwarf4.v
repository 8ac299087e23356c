(** * ProofDwarf4: units of symbols *)
From Coq Require Import Ascii String List ZArith Bool Lia.
From Verif Require Import Base ElfRead SpecElf ProofElf1 ProofElf2 Dwarf SpecDwarf SpecDebug ProofDwarf1 ProofDwarf2 ProofDwarf3.
Import ListNotations.
Open Scope list_scope.
Open Scope Z_scope.

(** ** Sections *)
Lemma find_first : forall (shs : list xshdr) (names : list str) i s name, length shs = length names ->
  nth_error shs i = Some s -> nth_error names i = Some name ->
  (forall j, (j < i)%nat -> nth_error names j <> Some name) ->
  option_map fst (find (fun p => snd p =?= name) (combine shs names)) = Some s.
Proof.
  induction shs as [|s0 shs IH]; intros [|n0 names] i s name L A B C; cbn in L; try discriminate; destruct i as [|i]; cbn in A, B; try discriminate.
  - injection A as ->. injection B as ->. cbn [combine find snd]. rewrite keq_refl. reflexivity.
  - cbn [combine find snd]. destruct (keqP n0 name) as [->|N].
    + exfalso. apply (C 0%nat); [lia | reflexivity].
    + apply (IH names i s name); auto. intros j J. apply (C (S j)). lia.
Qed.

Lemma section_lookup : forall e names name data, named_sections e names -> section_is e names name data ->
  exists s, lookup_shdr e name = Ok (Some s) /\ shdr_data e s = Ok data.
Proof.
  intros e names name data (t & T & F) (i & s & A & B & C & O & L). exists s. split.
  - rewrite (lookup_shdr_first e names name).
    + rewrite (find_first (xe_shdrs e) names i s name); auto. exact (Forall2_len _ _ _ F).
    + assert (G : forall ss ns, Forall2 (fun s n => plain n /\ string_at (xe_file e) t (x_name s) n) ss ns ->
                Forall2 (fun s n => shdr_name e s = Ok n) ss ns); [|exact (G _ _ F)].
      clear - T. intros ss ns F. induction F as [|s n ss ns [P S] F IH]; constructor; [|exact IH].
      exact (shdr_name_at _ _ _ _ T P S).
  - unfold shdr_data, read. rewrite L. rewrite (occurs_slice _ _ _ O), Z.eqb_refl. reflexivity.
Qed.

(** ** Offsets of entries *)
Lemma NoDup_app_remove_r : forall {A} (l m : list A), NoDup (l ++ m) -> NoDup l.
Proof.
  intros A l m. induction l as [|x l IH]; intros H; [constructor|]. inversion H as [|? ? N H']; subst. constructor; [|auto].
  intros I. apply N. apply in_or_app. now left.
Qed.
Lemma NoDup_app_split : forall (l m : list Z) k, NoDup l -> NoDup m -> Forall (fun x => x < k) l -> Forall (fun x => k <= x) m -> NoDup (l ++ m).
Proof.
  induction l as [|x l IH]; intros m k A B C D; cbn; [exact B|]. inversion A; inversion C; subst. constructor; [|eapply IH; eauto].
  rewrite in_app_iff. intros [I|I]; [auto|]. apply (proj1 (Forall_forall _ _) D) in I. lia.
Qed.

Definition in_range (lo hi : Z) (l : list die) : Prop := Forall (fun d => lo <= d_off d < hi) l.

Lemma tdies_offsets : forall big c tbl t, tree_ok big c tbl t -> forall off parent level,
  in_range off (off + blen (tbytes t)) (tdies off parent level t) /\ NoDup (map d_off (tdies off parent level t)).
Proof.
  intros big c tbl t. induction t as [a cb vals kids IH] using tree_ind'. intros TO off parent level.
  inversion TO as [? ? ? ? specs I C U SP NZ ND F2 K0 KO]; subst. pose proof (uleb_nonempty _ _ U) as CB.
  pose proof (blen_nonneg (flat_map snd vals)).
  cbn [tdies]. set (o1 := off + blen cb + blen (flat_map snd vals)).
  destruct (ab_children a =? 0) eqn:CH.
  - split; [constructor; [|constructor]; cbn [d_off tbytes]; rewrite blen_app; pose proof (blen_nonneg (flat_map snd vals ++ (if ab_children a =? 0 then [] else flat_map tbytes kids ++ [0]))); lia|].
    cbn. constructor; [intros []|constructor].
  - assert (G : forall ks, Forall (fun t => tree_ok big c tbl t -> forall off parent level,
                in_range off (off + blen (tbytes t)) (tdies off parent level t) /\ NoDup (map d_off (tdies off parent level t))) ks ->
              Forall (tree_ok big c tbl) ks -> forall o,
              in_range o (o + blen (flat_map tbytes ks) + 1) (kids_dies off level o ks) /\ NoDup (map d_off (kids_dies off level o ks))).
    { clear. intros ks H. induction H as [|k ks HK H IH]; intros T o; cbn [kids_dies flat_map].
      - rewrite blen_nil. split; [constructor; [cbn; lia|constructor] | cbn; constructor; [intros []|constructor]].
      - inversion T as [|? ? T1 T2]; subst. destruct (HK T1 o (Some off) (level + 1)) as [R1 N1].
        destruct (IH T2 (o + blen (tbytes k))) as [R2 N2]. rewrite blen_app. pose proof (blen_nonneg (tbytes k)).
        pose proof (blen_nonneg (flat_map tbytes ks)). split.
        + apply Forall_app. split; (eapply Forall_impl; [|eassumption]); cbn beta; intros; lia.
        + rewrite map_app. apply (NoDup_app_split _ _ (o + blen (tbytes k))); auto.
          * apply Forall_map. eapply Forall_impl; [|exact R1]. cbn beta; intros; lia.
          * apply Forall_map. eapply Forall_impl; [|exact R2]. cbn beta; intros; lia. }
    destruct (G kids IH KO o1) as [R N]. fold (kids_dies off level o1 kids).
    assert (B : blen (tbytes (Tree a cb vals kids)) = blen cb + blen (flat_map snd vals) + blen (flat_map tbytes kids) + 1).
    { cbn [tbytes]. rewrite CH, !blen_app, blen_cons, blen_nil. lia. }
    pose proof (blen_nonneg (flat_map tbytes kids)). split.
    + constructor; [cbn [d_off]; lia|]. eapply Forall_impl; [|exact R]. cbn beta; intros; lia.
    + cbn [map d_off]. constructor; [|exact N]. intros X. apply List.in_map_iff in X. destruct X as (d & E & X).
      apply (proj1 (Forall_forall _ _) R) in X. lia.
Qed.

Lemma tdies_root : forall off parent level t, exists d l, tdies off parent level t = d :: l /\ d_off d = off /\ d_tag d = ab_tag (t_abbrev t).
Proof. intros off parent level [a cb vals kids]. cbn [tdies]. eexists _, _. split; [reflexivity|]. auto. Qed.

Lemma filter_range : forall (f : die -> bool) lo hi l, in_range lo hi l -> in_range lo hi (filter f l).
Proof. intros f lo hi l H. apply Forall_forall. intros d I. apply filter_In in I. exact (proj1 (Forall_forall _ _) H d (proj1 I)). Qed.
Lemma filter_NoDup : forall (f : die -> bool) l, NoDup (map d_off l) -> NoDup (map d_off (filter f l)).
Proof.
  induction l as [|d l IH]; intros N; [constructor|]. inversion N; subst. cbn [filter]. destruct (f d); [|auto].
  cbn [map]. constructor; [|auto]. intros X. apply List.in_map_iff in X. destruct X as (d' & E & X). apply filter_In in X.
  apply H1. rewrite <- E. apply List.in_map. tauto.
Qed.

(** the offsets of all entries are different *)
Lemma entries_offsets : forall big us off info abb,
  units_enc big off (map (fun u => (u_cu u, tbytes (u_tree u) ++ u_pad u)) us) info -> Forall (unit_ok big abb) us ->
  Forall (fun p => off <= d_off (fst p)) (entries us) /\ NoDup (map (fun p => d_off (fst p)) (entries us)).
Proof.
  intros big us. induction us as [|u us IH]; intros off info abb H UO; [split; constructor|].
  cbn [map] in H. inversion H as [|? c body l r rest CO UE H']; subst. inversion UO as [|? ? U1 U2]; subst.
  destruct (IH _ _ abb H' U2) as [R N]. unfold entries. cbn [flat_map]. fold (entries us).
  destruct (unit_enc_len _ _ _ _ UE) as (L1 & L2 & L3).
  destruct (tdies_offsets _ _ _ _ (uo_tree _ _ _ U1) (cu_die_offset (u_cu u)) None 0) as [R1 N1]. fold (unit_dies u) in *.
  apply (filter_range relevant) in R1. apply (filter_NoDup relevant) in N1.
  inversion UE as [hdr UH AS AF LEN RNG ULL DO E]. rewrite blen_app in LEN.
  pose proof (blen_nonneg hdr). pose proof (blen_nonneg (u_pad u)). pose proof (blen_nonneg l).
  set (us1 := filter relevant (unit_dies u)) in *.
  assert (M : map (fun p : die * funit => d_off (fst p)) (map (fun d => (d, u)) us1) = map d_off us1) by (rewrite map_map; reflexivity).
  split.
  - apply Forall_app. split.
    + apply Forall_map. cbn [fst]. eapply Forall_impl; [|exact R1]. cbn beta; intros; lia.
    + eapply Forall_impl; [|exact R]. cbn beta; intros; lia.
  - rewrite map_app, M. apply (NoDup_app_split _ _ (cu_offset (u_cu u) + blen l)); auto.
    + apply Forall_map. eapply Forall_impl; [|exact R1]. cbn beta. intros; lia.
    + apply Forall_map. exact R.
Qed.

(** ** Collecting the entries *)
Definition entry_like (p : die * funit) (q : die * cu) : Prop := die_like (fst p) (fst q) /\ snd q = u_cu (snd p).

Lemma filter_like : forall tags l l', Forall2 die_like l l' -> Forall2 die_like (filter (wanted_tag tags) l) (filter (wanted_tag tags) l').
Proof.
  intros tags l l' H. induction H as [|d d' l l' D H IH]; cbn; [constructor|].
  assert (E : wanted_tag tags d' = wanted_tag tags d) by (unfold wanted_tag; destruct D as (_ & _ & _ & _ & -> & _); reflexivity).
  rewrite E. destruct (wanted_tag tags d); auto.
Qed.

Lemma relevant_wanted : forall d, wanted_tag (Some [DW_TAG_compile_unit; DW_TAG_subprogram; DW_TAG_variable]) d = relevant d.
Proof. intros d. unfold wanted_tag, relevant. cbn. now rewrite orb_false_r, orb_assoc. Qed.

Lemma fold_dset : forall (c : cu) l acc, NoDup (keys acc ++ map d_off l) ->
  fold_left (fun acc d => dset (d_off d) (d, c) acc) l acc = acc ++ map (fun d => (d_off d, (d, c))) l.
Proof.
  intros c l. induction l as [|d l IH]; intros acc N; [now rewrite app_nil_r|].
  cbn [fold_left map]. cbn [map] in N. rewrite (dset_notin (K:=Z)).
  - rewrite IH; [now rewrite <- app_assoc|]. unfold keys in *. rewrite map_app. cbn [map fst]. rewrite <- app_assoc. exact N.
  - intros I. apply NoDup_remove_2 in N. apply N. apply in_or_app. now left.
Qed.

Definition as_dict (l : list (die * cu)) : dict Z (die * cu) := map (fun p => (d_off (fst p), p)) l.
Lemma keys_as_dict : forall l, keys (as_dict l) = map (fun p => d_off (fst p)) l.
Proof. intros l. unfold keys, as_dict. rewrite map_map. reflexivity. Qed.
Lemma like_offsets : forall ps qs, Forall2 entry_like ps qs -> map (fun p => d_off (fst p)) qs = map (fun p => d_off (fst p)) ps.
Proof. intros ps qs H. induction H as [|p q ps qs [(D & _) _] H IH]; cbn; [reflexivity|]. now rewrite D, IH. Qed.

Definition collect (e : xelf) : dict Z (die * cu) -> cu -> res (dict Z (die * cu)) :=
  (fun acc c =>
           do s <- lookup_shdr e ".debug_info";
           match s with
           | None => Err AttributeError
           | Some s =>
               do info <- shdr_data e s;
               do l <- get_DIEs (xe_big e) info (abbrev_table e c) c
                         (Some [DW_TAG_compile_unit; DW_TAG_subprogram; DW_TAG_variable]);
               Ok (fold_left (fun acc d => dset (d_off d) (d, c) acc) l acc)
           end).

Section Collect.
Variables (e : xelf) (names : list str).
Variables (info abb : list Z).
Hypothesis NS : named_sections e names.
Hypothesis SI : section_is e names (list_ascii_of_string ".debug_info") info.
Hypothesis SA : section_is e names (list_ascii_of_string ".debug_abbrev") abb.

Lemma unit_entries : forall off us pre rest, blen pre = off -> info = pre ++ rest ->
  units_enc (xe_big e) off (map (fun u => (u_cu u, tbytes (u_tree u) ++ u_pad u)) us) rest -> Forall (unit_ok (xe_big e) abb) us ->
  forall done acc, Forall2 entry_like done acc -> NoDup (map (fun p => d_off (fst p)) (done ++ entries us)) ->
  exists l, foldM (collect e) (as_dict acc) (map u_cu us) = Ok (as_dict l) /\ Forall2 entry_like (done ++ entries us) l.
Proof.
  destruct (section_lookup _ _ _ _ NS SI) as (si & LI & DI). destruct (section_lookup _ _ _ _ NS SA) as (sa & LA & DA).
  intros off us. revert off. induction us as [|u us IH]; intros off pre rest P E UE UO done acc F N.
  - cbn. exists acc. rewrite app_nil_r. auto.
  - cbn [map] in UE. inversion UE as [|? c body l r rest' CO U1 UE']; subst. inversion UO as [|? ? O1 O2]; subst.
    cbn [map foldM]. unfold collect at 1. rewrite LI. cbn [bind]. rewrite DI. cbn [bind].
    destruct (uo_abbrevs _ _ _ O1) as (lab & AE & AO).
    assert (TB : exists tbl', abbrev_table e (u_cu u) = Ok tbl' /\ Forall2 abbrev_like (u_tbl u) tbl').
    { unfold abbrev_table. rewrite LA. cbn [bind]. rewrite DA. cbn [bind]. apply (read_abbrevs_enc _ lab AE); [exact AO|].
      pose proof (occurs_off _ _ _ AO). unfold blen in *. lia. }
    destruct TB as (tbl' & TB & TL).
    assert (OT : occurs (pre ++ l ++ rest') (cu_die_offset (u_cu u)) (tbytes (u_tree u))).
    { inversion U1 as [hdr UH AS AF LEN RNG ULL DO EL].
      exists (pre ++ unit_length_bytes (xe_big e) (cu_is64 (u_cu u)) (cu_length (u_cu u)) ++ hdr), (u_pad u ++ rest').
      split; [now rewrite <- !app_assoc|]. rewrite DO, !blen_app, ULL. unfold unit_length_bytes.
      destruct (cu_is64 (u_cu u)); [rewrite blen_app, blen_int_enc; change (blen [255; 255; 255; 255]) with 4; lia | rewrite blen_int_enc; lia]. }
    assert (AS : 0 <= cu_address_size (u_cu u)) by (inversion U1; lia).
    destruct (unit_DIEs_enc (xe_big e) (u_cu u) (u_tbl u) tbl' (u_tree u) (pre ++ l ++ rest') _ AS (uo_numbered _ _ _ O1) (uo_readable _ _ _ O1) TL TB
                (uo_tree _ _ _ O1) OT) as (ds & GD & DL).
    unfold get_DIEs. rewrite GD. cbn [bind].
    set (ds1 := filter (wanted_tag _) ds).
    assert (D1 : Forall2 die_like (filter relevant (unit_dies u)) ds1).
    { unfold ds1, unit_dies. rewrite (filter_ext relevant (wanted_tag (Some [DW_TAG_compile_unit; DW_TAG_subprogram; DW_TAG_variable]))).
      - now apply filter_like.
      - intros d. symmetry. apply relevant_wanted. }
    assert (EL : Forall2 entry_like (map (fun d => (d, u)) (filter relevant (unit_dies u))) (map (fun d => (d, u_cu u)) ds1)).
    { clear - D1. induction D1; cbn; constructor; auto. split; auto. }
    assert (F' : Forall2 entry_like (done ++ map (fun d => (d, u)) (filter relevant (unit_dies u))) (acc ++ map (fun d => (d, u_cu u)) ds1))
      by (apply Forall2_app2; assumption).
    unfold entries in N. cbn [flat_map] in N. fold (entries us) in N. rewrite app_assoc in N.
    rewrite fold_dset.
    + replace (as_dict acc ++ map (fun d => (d_off d, (d, u_cu u))) ds1) with (as_dict (acc ++ map (fun d => (d, u_cu u)) ds1))
        by (unfold as_dict; rewrite map_app, map_map; reflexivity).
      destruct (IH (blen pre + blen l) (pre ++ l) rest') with (done := done ++ map (fun d => (d, u)) (filter relevant (unit_dies u)))
          (acc := acc ++ map (fun d => (d, u_cu u)) ds1) as (lst & R & RL); auto.
      * rewrite blen_app. lia.
      * now rewrite app_assoc.
      * exists lst. split; [exact R|]. unfold entries. cbn [flat_map]. rewrite app_assoc. exact RL.
    + rewrite map_app in N. apply NoDup_app_remove_r in N. rewrite <- (like_offsets _ _ F') in N. rewrite keys_as_dict.
      rewrite map_app, map_map in N. exact N.
Qed.

Lemma all_dies_image : forall us,
  units_enc (xe_big e) 0 (map (fun u => (u_cu u, tbytes (u_tree u) ++ u_pad u)) us) info -> Forall (unit_ok (xe_big e) abb) us ->
  exists l, all_dies e = Ok (as_dict l) /\ Forall2 entry_like (entries us) l.
Proof.
  intros us UE UO. unfold all_dies.
  assert (C : CUs e = Ok (map u_cu us)).
  { unfold CUs. destruct (section_lookup _ _ _ _ NS SI) as (si & LI & DI). rewrite LI. cbn [bind]. rewrite DI. cbn [bind].
    change info with ([] ++ info) at 2. rewrite (read_cus_enc _ _ _ _ UE).
    - rewrite map_map. reflexivity.
    - apply Forall_map. eapply Forall_impl; [|exact UO]. intros u H. exact (uo_plain _ _ _ H).
    - reflexivity.
    - assert (G : forall off us rest, units_enc (xe_big e) off us rest -> Z.of_nat (length us) <= blen rest).
      { clear. intros off us rest H. induction H as [|off c body l r rest CO UE H IH]; [cbn; lia|].
        destruct (unit_enc_len _ _ _ _ UE) as (L1 & L2 & L3). rewrite blen_app. cbn [length]. lia. }
      apply G in UE. unfold blen in UE. lia. }
  rewrite C. cbn [bind].
  destruct (entries_offsets _ _ _ _ _ UE UO) as [_ N].
  destruct (unit_entries 0 us [] info eq_refl eq_refl UE UO [] [] (Forall2_nil _) N) as (l & R & L).
  exists l. split; [exact R | exact L].
Qed.
End Collect.

(** ** Attributes of an entry *)
Lemma tattrs_keys : forall specs vals off, exists r, map aa_attr specs = map fst (tattrs specs vals off) ++ r.
Proof.
  induction specs as [|s specs IH]; intros [|v vals] off; cbn; eauto.
  destruct (IH vals (off + blen (snd v))) as [r ->]. exists r. reflexivity.
Qed.
Lemma tdies_keys : forall big c tbl t, tree_ok big c tbl t -> forall off parent level,
  Forall (fun d => NoDup (map fst (d_attrs d))) (tdies off parent level t).
Proof.
  intros big c tbl t. induction t as [a cb vals kids IH] using tree_ind'. intros TO off parent level.
  inversion TO as [? ? ? ? specs I C U SP NZ ND F2 K0 KO]; subst. cbn [tdies]. constructor.
  - cbn [d_attrs]. rewrite SP, tattrs_app by exact (Forall2_len _ _ _ F2).
    destruct (tattrs_keys specs vals (off + blen cb)) as [r E]. rewrite E in ND. now apply NoDup_app_remove_r in ND.
  - destruct (ab_children a =? 0); [constructor|].
    generalize (off + blen cb + blen (flat_map snd vals)). clear - IH KO.
    induction IH as [|k ks HK H IH']; intros o; [constructor; [constructor|constructor]|].
    inversion KO; subst. apply Forall_app. split; [now apply HK | now apply IH'].
Qed.
Lemma entries_keys : forall big abb us, Forall (unit_ok big abb) us -> forall p, In p (entries us) -> NoDup (map fst (d_attrs (fst p))).
Proof.
  intros big abb us UO p I. unfold entries in I. apply in_flat_map in I. destruct I as (u & U & I).
  apply List.in_map_iff in I. destruct I as (d & <- & I). apply filter_In in I. destruct I as [I _].
  pose proof (proj1 (Forall_forall _ _) UO u U) as O1.
  exact (proj1 (Forall_forall _ _) (tdies_keys _ _ _ _ (uo_tree _ _ _ O1) _ _ _) d I).
Qed.

Lemma attr_like_get : forall k d d', Forall2 attr_like d d' ->
  match dget k d with
  | None => dget k d' = None
  | Some a => exists a', dget k d' = Some a' /\ attr_like (k, a) (k, a')
  end.
Proof.
  intros k d d' H. induction H as [|[k1 a1] [k2 a2] d d' L H IH]; [reflexivity|].
  destruct L as (L1 & L2). cbn [fst snd] in *. subst k2. cbn [dget].
  destruct (keqP k k1) as [->|N]; [|exact IH]. exists a2. split; [reflexivity|]. split; [reflexivity | exact L2].
Qed.
Lemma has_attr_get : forall d k a, NoDup (map fst (d_attrs d)) -> (has_attr d k a <-> dget k (d_attrs d) = Some a).
Proof. intros d k a N. unfold has_attr. split; [now apply In_dget | apply dget_In]. Qed.

Lemma word_of : forall e, Z.of_nat (if xe_is64 e then 8 else 4)%nat = (if xe_is64 e then 8 else 4).
Proof. intros e. destruct (xe_is64 e); reflexivity. Qed.

Lemma get_address_enc : forall e data off z, address_fits e z -> occurs data off (address_bytes e z) ->
  get_address e data off = (z, off + blen (address_bytes e z)).
Proof.
  intros e data off z F O. unfold get_address, address_bytes in *. rewrite blen_int_enc.
  rewrite <- word_of. apply get_uint_enc; [rewrite word_of; exact F | exact O].
Qed.

Lemma eval_expression : forall e b, expression_ok e b -> forall fuel, (2 < fuel)%nat ->
  (exists z, b = 3 :: address_bytes e z /\ address_fits e z /\ eval_expr fuel e b 0 [] = Ok [Some z]) \/
  ((forall z, b <> 3 :: address_bytes e z) /\ eval_expr fuel e b 0 [] = Ok [None]).
Proof.
  intros e b H fuel L. destruct fuel as [|[|fuel]]; [lia|lia|].
  assert (B0 : forall x (r : list Z), py_index (x :: r) 0 = Ok x) by reflexivity.
  assert (LT : forall x (r : list Z), (0 <? blen (x :: r)) = true) by (intros; apply Z.ltb_lt; rewrite blen_cons; pose proof (blen_nonneg r); lia).
  destruct H as [z F | x r N | z x r F N].
  - left. exists z. split; [reflexivity|]. split; [exact F|]. cbn [eval_expr]. rewrite LT, B0. cbn [bind Z.eqb Pos.eqb].
    rewrite (get_address_enc e _ _ z F) by (exists [3], []; rewrite app_nil_r; auto).
    cbn [eval_expr]. rewrite blen_cons, Z.ltb_irrefl. reflexivity.
  - right. split; [intros z E; congruence|]. cbn [eval_expr]. rewrite LT, B0. cbn [bind].
    destruct (x =? 3) eqn:X; [apply Z.eqb_eq in X; contradiction | reflexivity].
  - right. split.
    { intros z' E. injection E as E. apply (f_equal blen) in E. rewrite blen_app, blen_cons in E. unfold address_bytes in E.
      rewrite !blen_int_enc in E. pose proof (blen_nonneg r). lia. }
    cbn [eval_expr]. rewrite LT, B0. cbn [bind Z.eqb Pos.eqb].
    rewrite (get_address_enc e _ _ z F) by (exists [3], (x :: r); auto).
    destruct fuel as [|fuel]; [lia|].
    cbn [eval_expr]. rewrite blen_cons, blen_app, blen_cons. pose proof (blen_nonneg r).
    rewrite (proj2 (Z.ltb_lt (0 + 1 + blen (address_bytes e z)) (1 + (blen (address_bytes e z) + (1 + blen r))))) by lia.
    rewrite (py_index_occurs _ _ x).
    2:{ exists (3 :: address_bytes e z), r. split; [reflexivity | rewrite blen_cons; lia]. }
    cbn [bind]. destruct (x =? 3) eqn:X; [apply Z.eqb_eq in X; contradiction | reflexivity].
Qed.

Lemma address_bytes_inj : forall e z z', address_fits e z -> address_fits e z' -> address_bytes e z = address_bytes e z' -> z = z'.
Proof.
  intros e z z' F F' E. pose proof (get_address_enc e (address_bytes e z) 0 z F) as A.
  pose proof (get_address_enc e (address_bytes e z') 0 z' F') as B.
  assert (O : forall l, occurs l 0 l) by (intros l; exists [], []; rewrite app_nil_r; auto).
  specialize (A (O _)). specialize (B (O _)). congruence.
Qed.

(** the address the code finds is the address of the entry *)
Lemma die_address_spec : forall e us d d', NoDup (map fst (d_attrs d)) -> entry_ok e us d -> die_like d d' ->
  exists o, die_address e d' = Ok o /\ forall z, o = Some z <-> entry_address e d z.
Proof.
  intros e us d d' ND OK (_ & _ & _ & _ & TG & _ & AT). unfold die_address. rewrite TG.
  unfold DW_TAG_subprogram, DW_TAG_variable, DW_AT_low_pc, DW_AT_location, entry_address.
  destruct (d_tag d =? 46) eqn:T1; [apply Z.eqb_eq in T1 | apply Z.eqb_neq in T1].
  - pose proof (attr_like_get 17 _ _ AT) as G. destruct (dget 17 (d_attrs d)) as [a|] eqn:A.
    + destruct G as (a' & -> & (_ & _ & _ & _ & _ & V)). cbn [snd] in V.
      assert (HA : has_attr d 17 a) by (apply has_attr_get; assumption).
      destruct (eo_low_pc _ _ _ OK T1 a HA) as (X & z & Ez). rewrite (V X), Ez. cbn [dval_int bind].
      exists (Some z). split; [reflexivity|]. intros z'. split.
      * intros E; injection E as ->. left. split; [exact T1|]. eauto.
      * intros [(_ & a2 & H2 & E2)|(T2 & _)]; [|lia]. apply has_attr_get in H2; [|assumption]. congruence.
    + rewrite G. exists None. split; [reflexivity|]. intros z. split; [discriminate|].
      intros [(_ & a & H & _)|(T2 & _)]; [|lia]. apply has_attr_get in H; [|assumption]. congruence.
  - destruct (d_tag d =? 52) eqn:T2; [apply Z.eqb_eq in T2 | apply Z.eqb_neq in T2].
    + pose proof (attr_like_get 2 _ _ AT) as G. destruct (dget 2 (d_attrs d)) as [a|] eqn:A.
      * destruct G as (a' & -> & (_ & _ & FM & _ & _ & V)). cbn [snd] in V, FM.
        assert (HA : has_attr d 2 a) by (apply has_attr_get; assumption).
        destruct (eo_location _ _ _ OK T2 a HA) as [NI|(F24 & b & Eb & EX)].
        -- assert (GE : get_attr_eval e a' = Ok None).
           { unfold get_attr_eval. rewrite FM. cbn in NI.
             destruct (at_form a =? 14) eqn:Q1; [apply Z.eqb_eq in Q1; exfalso; apply NI; rewrite Q1; auto 6|].
             destruct (at_form a =? 31) eqn:Q2; [apply Z.eqb_eq in Q2; exfalso; apply NI; rewrite Q2; auto 6|].
             destruct (at_form a =? 8) eqn:Q3; [apply Z.eqb_eq in Q3; exfalso; apply NI; rewrite Q3; auto 6|].
             destruct (at_form a =? 24) eqn:Q4; [apply Z.eqb_eq in Q4; exfalso; apply NI; rewrite Q4; auto 6|]. reflexivity. }
           rewrite GE. cbn [bind]. exists None. split; [reflexivity|]. intros z. split; [discriminate|].
           intros [(T3 & _)|(_ & a2 & H2 & F2 & _)]; [lia|]. apply has_attr_get in H2; [|assumption].
           rewrite A in H2. injection H2 as <-. exfalso. apply NI. rewrite F2. cbn. auto 6.
        -- assert (Vb : at_value a' = DBytes b) by (rewrite V; [exact Eb | rewrite F24; reflexivity]).
           unfold get_attr_eval. rewrite FM, F24. cbn [Z.eqb Pos.eqb]. rewrite Vb.
           assert (L : (2 < S (length b))%nat \/ (exists x, b = [x] /\ x <> 3)).
           { destruct EX as [z F | x r N | z x r F N].
             - left. cbn [length]. assert (0 < length (address_bytes e z))%nat; [|lia].
               pose proof (blen_int_enc (xe_big e) (if xe_is64 e then 8 else 4)%nat z) as Q. fold (address_bytes e z) in Q.
               unfold blen in Q. destruct (xe_is64 e); lia.
             - destruct r as [|y r]; [right; eauto | left; cbn; lia].
             - left. cbn [length]. rewrite app_length. cbn [length]. lia. }
           assert (EV : (exists z, b = 3 :: address_bytes e z /\ address_fits e z /\ eval_expr (S (length b)) e b 0 [] = Ok [Some z]) \/
                        ((forall z, b <> 3 :: address_bytes e z) /\ eval_expr (S (length b)) e b 0 [] = Ok [None])).
           { destruct L as [L|(x & -> & N)]; [exact (eval_expression e b EX _ L)|].
             right. split; [intros z E; congruence|]. cbn. destruct (x =? 3) eqn:X; [apply Z.eqb_eq in X; contradiction | reflexivity]. }
           destruct EV as [(z & -> & F & EV)|(NB & EV)]; rewrite EV; cbn [bind option_map].
           ++ exists (Some z). split; [reflexivity|]. intros z'. split.
              ** intros E; injection E as ->. right. split; [exact T2|]. exists a. auto.
              ** intros [(T3 & _)|(_ & a2 & H2 & F2 & V2 & Fz)]; [lia|]. apply has_attr_get in H2; [|assumption].
                 rewrite A in H2. injection H2 as <-. rewrite Eb in V2. injection V2 as V2. f_equal.
                 exact (address_bytes_inj e z z' F Fz V2).
           ++ exists None. split; [reflexivity|]. intros z'. split; [discriminate|].
              intros [(T3 & _)|(_ & a2 & H2 & F2 & V2 & _)]; [lia|]. apply has_attr_get in H2; [|assumption].
              rewrite A in H2. injection H2 as <-. rewrite Eb in V2. injection V2 as V2. exfalso. exact (NB z' V2).
      * rewrite G. exists None. split; [reflexivity|]. intros z. split; [discriminate|].
        intros [(T3 & _)|(_ & a & H & _)]; [lia|]. apply has_attr_get in H; [|assumption]. congruence.
    + exists None. split; [reflexivity|]. intros z. split; [discriminate|]. intros [(T3 & _)|(T3 & _)]; lia.
Qed.

(** ** The name of the unit of an entry *)
Lemma text_value_str : forall e names a a' n, named_sections e names -> text_value e names a n -> attr_like (3, a) (3, a') ->
  get_attr_str e a' = Ok n.
Proof.
  intros e names a a' n NS H (_ & _ & FM & _ & _ & V). cbn [snd] in FM, V. unfold get_attr_str, get_attr_eval. rewrite FM.
  destruct H as [F8 VB U | form section data z FS F VZ SI O P].
  - assert (V' : at_value a' = DBytes (text n)) by (rewrite V; [exact VB | rewrite F8; reflexivity]).
    rewrite F8. cbn [Z.eqb Pos.eqb]. rewrite V'. rewrite (proj2 (decode_iff n) U). reflexivity.
  - assert (V' : at_value a' = DInt z).
    { rewrite V; [exact VZ|]. rewrite F. destruct FS as [[-> _]|[-> _]]; reflexivity. }
    destruct (section_lookup _ _ _ _ NS SI) as (s & LS & DS).
    assert (LK : eval_strp e section (DInt z) = Ok (Some (EStr n))).
    { unfold eval_strp. rewrite LS. cbn [bind]. unfold lookup_string. rewrite DS. cbn [bind].
      destruct (occurs_drop _ _ _ O) as [p ->]. rewrite <- app_assoc. cbn [app].
      rewrite until_zero_app by (apply text_nonzero; exact P). cbn [bind]. rewrite (decode_text _ P). reflexivity. }
    rewrite V', F. destruct FS as [[-> ->]|[-> ->]]; cbn [Z.eqb Pos.eqb]; rewrite LK; reflexivity.
Qed.

Section Names.
Variables (e : xelf) (names : list str) (us : list funit) (abb : list Z) (l : list (die * cu)).
Hypothesis NS : named_sections e names.
Hypothesis UO : Forall (unit_ok (xe_big e) abb) us.
Hypothesis OR : ordinary e names us.
Hypothesis ND : NoDup (map (fun p => d_off (fst p)) (entries us)).
Hypothesis FL : Forall2 entry_like (entries us) l.

Lemma wf_l : wf_dict (as_dict l).
Proof. unfold wf_dict. rewrite keys_as_dict, (like_offsets _ _ FL). exact ND. Qed.

Lemma Forall2_In_l : forall {A B} (R : A -> B -> Prop) xs ys x, Forall2 R xs ys -> In x xs -> exists y, In y ys /\ R x y.
Proof. intros A B R xs ys x H. induction H; cbn; [intros []|]. intros [<-|I]; [eauto | destruct (IHForall2 I) as (y0 & ? & ?); eauto]. Qed.

Lemma entry_found : forall p, In p (entries us) -> exists q, dget (d_off (fst p)) (as_dict l) = Some q /\ entry_like p q.
Proof.
  intros p I. destruct (Forall2_In_l _ _ _ _ FL I) as (q & J & L). exists q. split; [|exact L].
  apply (In_dget (K:=Z)); [exact wf_l|]. destruct L as [(D & _) _]. unfold as_dict. rewrite <- D.
  exact (List.in_map (fun p => (d_off (fst p), p)) l q J).
Qed.

Lemma root_entry : forall u, In u us -> exists d r, unit_dies u = d :: r /\ In (d, u) (entries us) /\ d_off d = cu_die_offset (u_cu u).
Proof.
  intros u U. destruct (tdies_root (cu_die_offset (u_cu u)) None 0 (u_tree u)) as (d & r & E & O & T).
  exists d, r. split; [exact E|]. split; [|exact O].
  unfold entries. apply in_flat_map. exists u. split; [exact U|]. apply (List.in_map (fun d => (d, u))). apply filter_In.
  split; [unfold unit_dies; rewrite E; now left|]. unfold relevant. rewrite T, (proj1 (proj1 OR u U)). reflexivity.
Qed.

Lemma entry_unit : forall p, In p (entries us) -> In (snd p) us.
Proof. intros p I. unfold entries in I. apply in_flat_map in I. destruct I as (u & U & I). apply List.in_map_iff in I. destruct I as (d & <- & _). exact U. Qed.

Lemma unit_name_found : forall u (q : die * cu), In u us -> snd q = u_cu u ->
  exists n, unit_name e names u n /\
   match dget (cu_die_offset (snd q)) (as_dict l) with
   | None => Err KeyError
   | Some (cd, _) => match dget DW_AT_name (d_attrs cd) with None => Err KeyError | Some a => get_attr_str e a end
   end = Ok n.
Proof.
  intros u q U E. destruct (root_entry u U) as (d & r & ED & ID & O). destruct (proj1 OR u U) as [_ (n & (d0 & r0 & a & E0 & HA & TV))].
  rewrite ED in E0. injection E0 as <- <-. exists n. split; [exists d, r, a; auto|].
  destruct (entry_found _ ID) as ((cd & cc) & G & (DL & _)). cbn [fst] in *. rewrite E, <- O, G.
  destruct DL as (_ & _ & _ & _ & _ & _ & AT). pose proof (attr_like_get 3 _ _ AT) as GA.
  apply has_attr_get in HA; [|exact (entries_keys _ _ _ UO _ ID)]. rewrite HA in GA. destruct GA as (a' & G' & AL).
  unfold DW_AT_name. rewrite G'. exact (text_value_str e names a a' n NS TV AL).
Qed.

Lemma cu_name_spec : forall p p', In p (entries us) -> entry_like p p' ->
  exists n q, get_cu_name e (as_dict l) p' = Ok n /\ origin us p q /\ unit_name e names (snd q) n.
Proof.
  intros p p' I (DL & SC). pose proof (entries_keys _ _ _ UO _ I) as K. pose proof DL as (_ & _ & _ & _ & _ & _ & AT).
  pose proof (attr_like_get 49 _ _ AT) as GA. unfold get_cu_name, DW_AT_abstract_origin.
  destruct (dget 49 (d_attrs (fst p))) as [a|] eqn:A.
  - destruct GA as (a' & -> & (_ & _ & _ & _ & _ & V)). cbn [snd] in V.
    assert (HA : has_attr (fst p) 49 a) by (apply has_attr_get; assumption).
    destruct p as [d u]. destruct (eo_origin _ _ _ (proj2 OR d u I) a HA) as (X & q & Q & Eq).
    rewrite (V X), Eq. cbn [dval_int bind]. destruct (entry_found q Q) as (q' & -> & (DQ & SQ)). cbn [bind].
    destruct (unit_name_found (snd q) q' (entry_unit q Q) SQ) as (n & UN & G). exists n, q. split; [exact G|].
    split; [right; exists a; auto | exact UN].
  - rewrite GA. cbn [bind]. destruct (unit_name_found (snd p) p' (entry_unit p I) SC) as (n & UN & G). exists n, p.
    split; [exact G|]. split; [left; split; [reflexivity|] | exact UN].
    intros a H. apply has_attr_get in H; [congruence | exact K].
Qed.
End Names.

(** ** The loop over the entries *)
Lemma add_cu_loop : forall e dies L,
  (forall p, In p L -> exists o, die_address e (fst p) = Ok o /\ exists n, get_cu_name e dies p = Ok n) ->
  forall syms, exists r, foldM (add_cu e dies) syms L = Ok r /\
  forall z, match dget z syms with
            | None => dget z r = None
            | Some (y, n0) => exists n, dget z r = Some (y, n) /\
                ((Forall (fun p => die_address e (fst p) <> Ok (Some z)) L /\ n = n0) \/
                 (exists p nm, last_with (fun p => die_address e (fst p) = Ok (Some z)) L p /\ get_cu_name e dies p = Ok nm /\ n = Some nm))
            end.
Proof.
  intros e dies L. induction L as [|p L IH]; intros H syms.
  - exists syms. split; [reflexivity|]. intros z. destruct (dget z syms) as [[y n0]|]; [|reflexivity]. exists n0. split; [reflexivity|]. left. auto.
  - destruct (H p (or_introl eq_refl)) as (o & DA & nm & CN).
    assert (H' : forall p, In p L -> exists o, die_address e (fst p) = Ok o /\ exists n, get_cu_name e dies p = Ok n) by (intros q Q; apply H; now right).
    assert (KEEP : forall syms', add_cu e dies syms p = Ok syms' ->
              (forall z, match dget z syms with
                         | None => dget z syms' = None
                         | Some (y, n0) => dget z syms' = Some (y, if match o with Some z' => z' =? z | None => false end then Some nm else n0)
                         end) ->
              exists r, foldM (add_cu e dies) syms (p :: L) = Ok r /\
              forall z, match dget z syms with
                | None => dget z r = None
                | Some (y, n0) => exists n, dget z r = Some (y, n) /\
                    ((Forall (fun p => die_address e (fst p) <> Ok (Some z)) (p :: L) /\ n = n0) \/
                     (exists q nm, last_with (fun p => die_address e (fst p) = Ok (Some z)) (p :: L) q /\ get_cu_name e dies q = Ok nm /\ n = Some nm))
                end).
    { intros syms' E ST. destruct (IH H' syms') as (r & R & Q). exists r. split; [cbn [foldM]; rewrite E; exact R|].
      intros z. specialize (ST z). specialize (Q z). destruct (dget z syms) as [[y n0]|]; [|rewrite ST in Q; exact Q].
      rewrite ST in Q. destruct Q as (n & Gn & [[FA ->]|(q & m & (pre & post & -> & QA & QF) & CQ & ->)]).
      - eexists. split; [exact Gn|]. destruct o as [z'|].
        + destruct (z' =? z) eqn:Z0; [apply Z.eqb_eq in Z0; subst z' | apply Z.eqb_neq in Z0].
          * right. exists p, nm. split; [|auto]. exists [], L. auto.
          * left. split; [constructor; [rewrite DA; congruence | exact FA] | reflexivity].
        + left. split; [constructor; [rewrite DA; discriminate | exact FA] | reflexivity].
      - eexists. split; [exact Gn|]. right. exists q, m. split; [|auto]. exists (p :: pre), post. auto. }
    unfold add_cu at 1 in KEEP. rewrite DA in KEEP. cbn [bind] in KEEP.
    destruct o as [z'|].
    + destruct (dget z' syms) as [[y n0]|] eqn:G.
      * rewrite CN in KEEP. cbn [bind] in KEEP. apply (KEEP _ eq_refl). intros z.
        destruct (Z.eq_dec z' z) as [->|N].
        -- rewrite G, Z.eqb_refl. apply dget_dset_eq.
        -- rewrite (proj2 (Z.eqb_neq z' z) N). rewrite (dget_dset_neq (K:=Z)) by congruence.
           destruct (dget z syms) as [[y1 n1]|]; reflexivity.
      * apply (KEEP _ eq_refl). intros z. destruct (dget z syms) as [[y1 n1]|] eqn:G1; [|reflexivity].
        destruct (z' =? z) eqn:Z0; [apply Z.eqb_eq in Z0; congruence | reflexivity].
    + apply (KEEP _ eq_refl). intros z. destruct (dget z syms) as [[y1 n1]|]; reflexivity.
Qed.

(** ** Symbols by address *)
Definition is_candidate (y : xsym) : bool :=
  negb (x_stsize y =? 0) && ((xsym_type y =? 2) || (xsym_type y =? 1)) && negb (x_shndx y =? 65521).
Lemma is_candidate_spec : forall y, is_candidate y = true <-> candidate y.
Proof.
  intros y. unfold is_candidate, candidate, xsym_type. change 15 with (Z.ones 4). rewrite Z.land_ones by lia.
  change (2 ^ 4) with 16. rewrite !andb_true_iff, orb_true_iff, !negb_true_iff, !Z.eqb_neq, !Z.eqb_eq. tauto.
Qed.

Lemma syms_fold : forall l acc z,
  match dget z (fold_left (fun acc y => dset (x_value y) (y, @None str) acc) l acc) with
  | None => dget z acc = None /\ Forall (fun y => x_value y <> z) l
  | Some v => (dget z acc = Some v /\ Forall (fun y => x_value y <> z) l) \/
              (exists y, v = (y, None) /\ last_with (fun y => x_value y = z) l y)
  end.
Proof.
  induction l as [|y l IH]; intros acc z.
  - cbn. destruct (dget z acc); auto.
  - cbn [fold_left]. specialize (IH (dset (x_value y) (y, None) acc) z).
    destruct (dget z (fold_left _ l (dset (x_value y) (y, None) acc))) as [v|].
    + destruct IH as [[G F]|(y' & -> & (pre & post & -> & E & F))].
      * destruct (Z.eq_dec (x_value y) z) as [E|N].
        -- rewrite <- E in G. rewrite dget_dset_eq in G. injection G as <-. right. exists y. split; [reflexivity|]. exists [], l. auto.
        -- rewrite (dget_dset_neq (K:=Z)) in G by congruence. left. auto.
      * right. exists y'. split; [reflexivity|]. exists (y :: pre), post. auto.
    + destruct IH as [G F]. destruct (Z.eq_dec (x_value y) z) as [E|N].
      * rewrite <- E in G. rewrite dget_dset_eq in G. discriminate.
      * rewrite (dget_dset_neq (K:=Z)) in G by congruence. auto.
Qed.

Lemma last_filter : forall {A} (f : A -> bool) (P : A -> Prop) l x, last_with P (filter f l) x -> last_with (fun y => f y = true /\ P y) l x.
Proof.
  intros A f P l. induction l as [|a l IH]; intros x (pre & post & E & Px & F).
  - destruct pre; discriminate.
  - cbn [filter] in E. destruct (f a) eqn:FA.
    + destruct pre as [|b pre].
      * injection E as <- <-. exists [], l. split; [reflexivity|]. split; [auto|]. apply Forall_forall. intros y I [Y1 Y2].
        apply (proj1 (Forall_forall _ _) F y); [apply filter_In; auto | exact Y2].
      * injection E as <- E. destruct (IH x) as (pre' & post' & -> & Q & R); [exists pre, post; auto|]. exists (a :: pre'), post'. auto.
    + destruct (IH x) as (pre' & post' & -> & Q & R); [exists pre, post; auto|]. exists (a :: pre'), post'. auto.
Qed.

Lemma syms_by_address_spec : forall l z,
  match dget z (syms_by_address l) with
  | None => Forall (fun y => ~ (candidate y /\ x_value y = z)) l
  | Some (y, n) => n = None /\ last_with (fun y => candidate y /\ x_value y = z) l y
  end.
Proof.
  intros l z. unfold syms_by_address. fold is_candidate.
  pose proof (syms_fold (filter is_candidate l) [] z) as H.
  change (fun y => negb (x_stsize y =? 0) && ((xsym_type y =? 2) || (xsym_type y =? 1)) && negb (x_shndx y =? 65521)) with is_candidate.
  set (r := fold_left (fun acc y => dset (x_value y) (y, @None str) acc) (filter is_candidate l) []) in H |- *. destruct (dget z r) as [[y n]|].
  - destruct H as [[G _]|(y' & E & LW)]; [discriminate|]. injection E as -> ->. split; [reflexivity|].
    apply last_filter in LW. destruct LW as (pre & post & -> & [P1 P2] & F). exists pre, post. split; [reflexivity|].
    split; [split; [now apply is_candidate_spec | exact P2]|].
    eapply Forall_impl; [|exact F]. intros a N [C V]. apply N. split; [now apply is_candidate_spec | exact V].
  - destruct H as [_ F]. apply Forall_forall. intros y I [C V]. apply (proj1 (Forall_forall _ _) F y); [|exact V].
    apply filter_In. split; [exact I | now apply is_candidate_spec].
Qed.

Lemma Forall2_In_r : forall {A B} (R : A -> B -> Prop) xs ys y, Forall2 R xs ys -> In y ys -> exists x, In x xs /\ R x y.
Proof. intros A B R xs ys y H. induction H; cbn; [intros []|]. intros [<-|I]; [eauto | destruct (IHForall2 I) as (x0 & ? & ?); eauto]. Qed.

Lemma last_like : forall {A B} (R : A -> B -> Prop) (P : A -> Prop) (Q : B -> Prop) xs ys, Forall2 R xs ys ->
  (forall x y, In x xs -> R x y -> (P x <-> Q y)) -> forall y, last_with Q ys y -> exists x, R x y /\ In x xs /\ last_with P xs x.
Proof.
  intros A B R P Q xs ys F PQ y (pre & post & E & Qy & FQ). rewrite E in F. apply Forall2_app_inv_r in F.
  destruct F as (l1 & l2 & F1 & F2 & ->). inversion F2 as [|x ? l2' ? Rx F3]; subst. exists x. split; [exact Rx|].
  assert (I : In x (l1 ++ x :: l2')) by (apply in_or_app; right; now left). split; [exact I|].
  exists l1, l2'. split; [reflexivity|]. split; [now apply (PQ x y)|]. apply Forall_forall. intros x' I' Px'.
  destruct (Forall2_In_l _ _ _ _ F3 I') as (y' & J & R').
  apply (proj1 (Forall_forall _ _) FQ y' J). apply (PQ x' y'); auto. apply in_or_app; right; now right.
Qed.

(** ** add_cus_to_symbols *)
Lemma add_cus_image : forall e names us syms, debug_image e names us -> ordinary e names us -> symbols e = Ok syms ->
  exists r, add_cus_to_symbols e = Ok r /\
  forall z, match dget z r with
            | None => Forall (fun y => ~ (candidate y /\ x_value y = z)) syms
            | Some (y, n) => last_with (fun y => candidate y /\ x_value y = z) syms y /\ symbol_unit e names us z n
            end.
Proof.
  intros e names us syms [NS (info & abb & SI & SA & UE & UO)] OR SY.
  destruct (all_dies_image e names info abb NS SI SA us UE UO) as (l & AD & FL).
  destruct (entries_offsets _ _ _ _ _ UE UO) as [_ ND].
  unfold add_cus_to_symbols. rewrite AD. cbn [bind]. rewrite SY. cbn [bind].
  assert (ML : map snd (as_dict l) = l) by (unfold as_dict; rewrite map_map; apply map_id). rewrite ML.
  assert (ADDR : forall p q, In p (entries us) -> entry_like p q ->
            exists o, die_address e (fst q) = Ok o /\ forall z, o = Some z <-> entry_address e (fst p) z).
  { intros [d u] q I (DL & _). cbn [fst] in *. apply (die_address_spec e us d (fst q)); [exact (entries_keys _ _ _ UO _ I) | exact (proj2 OR d u I) | exact DL]. }
  destruct (add_cu_loop e (as_dict l) l) with (syms := syms_by_address syms) as (r & R & Q).
  { intros q I. destruct (Forall2_In_r _ _ _ _ FL I) as (p & J & L). destruct (ADDR p q J L) as (o & A & _). exists o. split; [exact A|].
    destruct (cu_name_spec e names us abb l NS UO OR ND FL p q J L) as (n & _ & G & _). eauto. }
  exists r. split; [exact R|]. intros z. specialize (Q z). pose proof (syms_by_address_spec syms z) as S.
  destruct (dget z (syms_by_address syms)) as [[y n0]|].
  - destruct S as [-> LW]. destruct Q as (n & -> & C). split; [exact LW|].
    assert (PQ : forall x y, In x (entries us) -> entry_like x y -> (entry_address e (fst x) z <-> die_address e (fst y) = Ok (Some z))).
    { intros x y0 I L. destruct (ADDR x y0 I L) as (o & -> & H). rewrite <- H. split; congruence. }
    destruct C as [[F ->]|(q & nm & LQ & G & ->)]; cbn [symbol_unit].
    + apply Forall_forall. intros p I A. destruct (Forall2_In_l _ _ _ _ FL I) as (q & J & L).
      apply (proj1 (Forall_forall _ _) F q J). now apply (PQ p q).
    + destruct (last_like entry_like (fun p => entry_address e (fst p) z) _ _ _ FL PQ q LQ) as (p & L & I & LP).
      destruct (cu_name_spec e names us abb l NS UO OR ND FL p q I L) as (n & q0 & G' & O & UN). rewrite G in G'. injection G' as <-.
      exists p, q0. auto.
  - rewrite Q. exact S.
Qed.

(** ** whatever the debugging information is *)
Lemma add_cu_keeps : forall e dies L syms r, foldM (add_cu e dies) syms L = Ok r ->
  forall z, option_map fst (dget z r) = option_map fst (dget z syms).
Proof.
  intros e dies L. induction L as [|p L IH]; intros syms r H z; cbn [foldM] in H; [now injection H as <-|].
  destruct (add_cu e dies syms p) as [s1|] eqn:E; [|discriminate]. cbn [bind] in H. rewrite (IH _ _ H z). clear IH H.
  unfold add_cu in E. destruct (die_address e (fst p)) as [[z'|]|]; cbn [bind] in E; [|now injection E as <-|discriminate].
  destruct (dget z' syms) as [[y n0]|] eqn:G; [|now injection E as <-].
  destruct (get_cu_name e dies p) as [n|]; [|discriminate]. cbn [bind] in E. injection E as <-.
  destruct (Z.eq_dec z' z) as [->|N]; [rewrite dget_dset_eq, G; reflexivity | rewrite (dget_dset_neq (K:=Z)) by congruence; reflexivity].
Qed.
Lemma add_cus_symbols : forall e syms r, symbols e = Ok syms -> add_cus_to_symbols e = Ok r ->
  forall z, match dget z r with
            | None => Forall (fun y => ~ (candidate y /\ x_value y = z)) syms
            | Some (y, _) => last_with (fun y => candidate y /\ x_value y = z) syms y
            end.
Proof.
  intros e syms r SY H z. unfold add_cus_to_symbols in H. destruct (all_dies e) as [dies|]; [|discriminate]. cbn [bind] in H.
  rewrite SY in H. cbn [bind] in H. pose proof (add_cu_keeps _ _ _ _ _ H z) as K. pose proof (syms_by_address_spec syms z) as S.
  destruct (dget z r) as [[y n]|], (dget z (syms_by_address syms)) as [[y' n']|]; cbn in K; try discriminate; [|exact S].
  injection K as ->. apply S.
Qed.

(** ** the tables and units of a file *)
Lemma abbrev_table_image : forall e names abb c tbl l, named_sections e names ->
  section_is e names (list_ascii_of_string ".debug_abbrev") abb -> abbrevs_enc tbl l -> occurs abb (cu_abbrev_offset c) l ->
  exists tbl', abbrev_table e c = Ok tbl' /\ Forall2 abbrev_like tbl tbl'.
Proof.
  intros e names abb c tbl l NS SA AE AO. destruct (section_lookup _ _ _ _ NS SA) as (sa & LA & DA).
  unfold abbrev_table. rewrite LA. cbn [bind]. rewrite DA. cbn [bind]. apply (read_abbrevs_enc _ l AE); [exact AO|].
  pose proof (occurs_off _ _ _ AO). unfold blen in *. lia.
Qed.
Lemma CUs_image : forall e names info us, named_sections e names -> section_is e names (list_ascii_of_string ".debug_info") info ->
  units_enc (xe_big e) 0 us info -> Forall (fun u => plain_unit (fst u)) us -> CUs e = Ok (map fst us).
Proof.
  intros e names info us NS SI UE PU. unfold CUs. destruct (section_lookup _ _ _ _ NS SI) as (si & LI & DI). rewrite LI. cbn [bind]. rewrite DI. cbn [bind].
  change info with ([] ++ info) at 2. rewrite (read_cus_enc _ _ _ _ UE); [reflexivity | exact PU | reflexivity |].
  assert (G : forall off us rest, units_enc (xe_big e) off us rest -> Z.of_nat (length us) <= blen rest).
  { clear. intros off us rest H. induction H as [|off c body l r rest CO UE H IH]; [cbn; lia|].
    destruct (unit_enc_len _ _ _ _ UE) as (L1 & L2 & L3). rewrite blen_app. cbn [length]. lia. }
  apply G in UE. unfold blen in UE. lia.
Qed.
(** from the bytes of the file *)
Lemma add_cus_file : forall is64 big file h phs shs ls names us, elf_image is64 big file h phs shs ->
  Forall2 (symtab_image is64 big file) (filter is_symtab shs) ls ->
  exists e, elf_init file = Ok e /\
  (debug_image e names us -> ordinary e names us ->
   exists r, add_cus_to_symbols e = Ok r /\
   forall z, match dget z r with
             | None => Forall (fun y => ~ (candidate y /\ x_value y = z)) (concat ls)
             | Some (y, n) => last_with (fun y => candidate y /\ x_value y = z) (concat ls) y /\ symbol_unit e names us z n
             end).
Proof.
  intros is64 big file h phs shs ls names us I F. pose proof (elf_init_image _ _ _ _ _ _ I) as E.
  eexists. split; [exact E|]. intros D O. exact (add_cus_image _ _ _ _ D O (symbols_image _ _ _ _ _ _ _ _ I F E)).
Qed.
Lemma attr_like_refl : forall p, attr_like p p. Proof. intros p. repeat split. Qed.
Lemma die_like_refl : forall d, die_like d d.
Proof.
  intros d. repeat split. induction (d_attrs d); constructor; [apply attr_like_refl | assumption].
Qed.
Lemma text_value_get : forall e names a n, named_sections e names -> text_value e names a n -> get_attr_str e a = Ok n.
Proof. intros e names a n NS T. exact (text_value_str e names a a n NS T (attr_like_refl _)). Qed.
Lemma die_address_ok : forall e us d, NoDup (map fst (d_attrs d)) -> entry_ok e us d ->
  exists o, die_address e d = Ok o /\ forall z, o = Some z <-> entry_address e d z.
Proof. intros e us d N O. exact (die_address_spec e us d d N O (die_like_refl d)). Qed.
