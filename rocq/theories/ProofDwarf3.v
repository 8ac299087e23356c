(** * ProofDwarf3: abbreviations, units and trees of debugging entries are read back *)
From Coq Require Import Ascii String List ZArith Bool Lia.
From Verif Require Import Base ElfRead SpecElf ProofElf1 ProofElf2 Dwarf SpecDwarf SpecDebug ProofDwarf1 ProofDwarf2.
Import ListNotations.
Open Scope list_scope.
Open Scope Z_scope.

(** ** Abbreviations *)

Lemma read_abattr_enc : forall a l data off, abattr_enc a l -> occurs data off l ->
  exists a', read_abattr data off = Ok (a', blen l) /\ abattr_like a a'.
Proof.
  intros a l data off (la & lf & lv & -> & A & F & V) O. unfold read_abattr.
  pose proof (occurs_app_l _ _ _ _ O) as O1. pose proof (occurs_app_r _ _ _ _ O) as O23.
  pose proof (occurs_app_l _ _ _ _ O23) as O2. pose proof (occurs_app_r _ _ _ _ O23) as O3.
  rewrite (uleb_ok _ _ _ _ O1 A). cbn [bind]. rewrite (uleb_ok _ _ _ _ O2 F). cbn [bind].
  rewrite !blen_app. unfold DW_FORM_implicit_const, abattr_like.
  destruct (aa_value a) as [v|] eqn:E.
  - destruct V as [-> S]. cbn [Z.eqb Pos.eqb]. destruct (sleb_uleb _ _ S) as [U R].
    rewrite (uleb_ok _ _ _ _ O3 U). cbn [bind].
    eexists. split; [f_equal; f_equal; lia|]. cbn [aa_attr aa_form aa_value]. split; [reflexivity|]. split; [reflexivity|].
    eexists. split; [reflexivity|]. intros P. apply Z.mod_small. lia.
  - destruct V as [N ->]. destruct (aa_form a =? 33) eqn:X; [apply Z.eqb_eq in X; contradiction|].
    rewrite blen_nil. eexists. split; [f_equal; f_equal; lia|]. cbn [aa_attr aa_form aa_value]. auto.
Qed.

Lemma uleb_nonempty : forall n l, uleb_enc n l -> 1 <= blen l.
Proof. intros n l H; destruct H; rewrite blen_cons; [rewrite blen_nil; lia | pose proof (blen_nonneg l); lia]. Qed.
Lemma abattr_enc_len : forall a l, abattr_enc a l -> 2 <= blen l.
Proof.
  intros a l (la & lf & lv & -> & A & F & V). rewrite !blen_app. apply uleb_nonempty in A, F.
  pose proof (blen_nonneg lv). lia.
Qed.

Lemma read_abattrs_enc : forall b l, abattrs_enc b l -> forall fuel data off, occurs data off l -> blen l <= Z.of_nat fuel ->
  exists b', read_abattrs fuel data off = Ok (b', off + blen l) /\ Forall2 abattr_like b b'.
Proof.
  intros b l H. induction H as [la lf A F | a l b r N E H IH]; intros fuel data off O L.
  - pose proof (uleb_nonempty _ _ A). rewrite blen_app in L. pose proof (blen_nonneg lf).
    destruct fuel as [|fuel]; [lia|]. cbn [read_abattrs].
    destruct (read_abattr_enc (AbAttr 0 0 None) (la ++ lf) data off) as (a' & -> & AL); [|exact O|].
    { exists la, lf, []. rewrite app_nil_r. cbn. repeat split; try assumption. discriminate. }
    cbn [bind]. destruct AL as (A1 & A2 & A3). cbn in A1, A2, A3. rewrite A1, A2. cbn [Z.eqb andb].
    eexists; split; [reflexivity|]. constructor; [|constructor]. unfold abattr_like. cbn. auto.
  - pose proof (abattr_enc_len _ _ E). rewrite blen_app in L. destruct fuel as [|fuel]; [pose proof (blen_nonneg r); lia|].
    cbn [read_abattrs].
    destruct (read_abattr_enc a l data off E (occurs_app_l _ _ _ _ O)) as (a' & -> & AL). cbn [bind].
    destruct AL as (A1 & A2 & A3). rewrite A1, A2.
    replace ((aa_attr a =? 0) && (aa_form a =? 0)) with false.
    2:{ symmetry. apply andb_false_iff. destruct N; [left | right]; now apply Z.eqb_neq. }
    destruct (IH fuel data (off + blen l) (occurs_app_r _ _ _ _ O)) as (b' & -> & F2); [pose proof (blen_nonneg r); lia|].
    cbn [bind]. eexists; split; [rewrite blen_app; f_equal; f_equal; lia|]. constructor; [|exact F2].
    unfold abattr_like. rewrite A1, A2. auto.
Qed.

Lemma abattrs_enc_len : forall b l, abattrs_enc b l -> 2 <= blen l.
Proof.
  intros b l H. destruct H as [la lf A F | a l b r N E H].
  - rewrite blen_app. apply uleb_nonempty in A, F. lia.
  - rewrite blen_app. apply abattr_enc_len in E. pose proof (blen_nonneg r). lia.
Qed.
Lemma abbrevs_enc_len : forall b l, abbrevs_enc b l -> 1 <= blen l.
Proof.
  intros b l H. destruct H as [l U | a r lc lt la lr C LC LT CH LA LR].
  - exact (uleb_nonempty _ _ U).
  - rewrite !blen_app. apply uleb_nonempty in LC. pose proof (blen_nonneg lt). pose proof (blen_nonneg [ab_children a]).
    pose proof (blen_nonneg la). pose proof (blen_nonneg lr). lia.
Qed.

Lemma read_abbrevs_enc : forall tbl l, abbrevs_enc tbl l -> forall fuel big data off, occurs data off l ->
  blen l <= Z.of_nat fuel -> exists tbl', read_abbrevs fuel big data off = Ok tbl' /\ Forall2 abbrev_like tbl tbl'.
Proof.
  intros tbl l H. induction H as [l U | a r lc lt la lr C LC LT CH LA LR IH]; intros fuel big data off O L.
  - pose proof (uleb_nonempty _ _ U). destruct fuel as [|fuel]; [lia|]. cbn [read_abbrevs].
    rewrite (uleb_ok _ _ _ _ O U). cbn [bind Z.eqb]. exists []. auto.
  - pose proof (uleb_nonempty _ _ LC). pose proof (uleb_nonempty _ _ LT). pose proof (abattrs_enc_len _ _ LA).
    rewrite !blen_app, blen_cons, blen_nil in L. pose proof (blen_nonneg lr).
    destruct fuel as [|fuel]; [lia|]. cbn [read_abbrevs].
    pose proof (occurs_app_l _ _ _ _ O) as O1. pose proof (occurs_app_r _ _ _ _ O) as R1.
    pose proof (occurs_app_l _ _ _ _ R1) as O2. pose proof (occurs_app_r _ _ _ _ R1) as R2.
    pose proof (occurs_app_l _ _ _ _ R2) as O3. pose proof (occurs_app_r _ _ _ _ R2) as R3.
    pose proof (occurs_app_l _ _ _ _ R3) as O4. pose proof (occurs_app_r _ _ _ _ R3) as R4.
    rewrite (uleb_ok _ _ _ _ O1 LC). cbn [bind].
    destruct (ab_code a =? 0) eqn:Z0; [apply Z.eqb_eq in Z0; lia|].
    unfold read_abbrev. rewrite (uleb_ok _ _ _ _ O1 LC). cbn [bind]. rewrite (uleb_ok _ _ _ _ O2 LT). cbn [bind].
    assert (G : get_uint big 1 data (off + blen lc + blen lt) = (ab_children a, off + blen lc + blen lt + 1)).
    { change 1 with (Z.of_nat 1). apply get_uint_enc; [exact CH|]. rewrite int_enc_byte by exact CH. exact O3. }
    rewrite G. rewrite blen_cons, blen_nil in *.
    destruct (read_abattrs_enc _ _ LA (S (length data)) data (off + blen lc + blen lt + 1)) as (b' & -> & F2).
    { replace (off + blen lc + blen lt + 1) with (off + blen lc + blen lt + (1 + 0)) by lia. exact O4. }
    { pose proof (occurs_off _ _ _ O4). unfold blen in *. lia. }
    cbn [bind].
    destruct (IH fuel big data (off + blen lc + blen lt + (1 + 0) + blen la) R4) as (tbl' & E & T2); [lia|].
    replace (off + blen lc + blen lt + 1 + blen la) with (off + blen lc + blen lt + (1 + 0) + blen la) by lia.
    rewrite E. cbn [bind]. eexists; split; [reflexivity|]. constructor; [|exact T2].
    unfold abbrev_like. cbn. auto.
Qed.

(** ** Trees *)

Section TreeInd.
Variable P : tree -> Prop.
Hypothesis step : forall a cb vals kids, Forall P kids -> P (Tree a cb vals kids).
Fixpoint tree_ind' (t : tree) : P t :=
  match t with
  | Tree a cb vals kids =>
      step a cb vals kids ((fix go l : Forall P l :=
                              match l with [] => Forall_nil P | k :: r => Forall_cons k (tree_ind' k) (go r) end) kids)
  end.
End TreeInd.

Lemma tbytes_nonempty : forall big c tbl t, tree_ok big c tbl t -> 1 <= blen (tbytes t).
Proof.
  intros big c tbl t H. destruct H as [a cb vals kids specs I C U].
  cbn [tbytes]. rewrite blen_app. apply uleb_nonempty in U.
  pose proof (blen_nonneg (flat_map snd vals ++ (if ab_children a =? 0 then [] else flat_map tbytes kids ++ [0]))). lia.
Qed.

(** the attributes of one entry *)
Lemma read_attrs_enc : forall big c data specs specs' vals off acc,
  0 <= cu_address_size c ->
  Forall2 abattr_like specs specs' ->
  Forall (fun s => aa_attr s <> 0) specs -> NoDup (map aa_attr specs) ->
  (forall s, In s specs -> ~ In (aa_attr s) (keys acc)) ->
  (forall s, In s specs -> ~ In (aa_form s) unsupported /\ aa_form s <> 32) ->
  Forall2 (fun s v => attr_enc big c s (fst v) (snd v)) specs vals ->
  occurs data off (flat_map snd vals) ->
  forall tail, (forall o acc', read_attrs big c data tail o acc' = Ok (acc', o)) ->
  exists d, read_attrs big c data (specs' ++ tail) off acc = Ok (acc ++ d, off + blen (flat_map snd vals)) /\
            Forall2 attr_like (tattrs specs vals off) d.
Proof.
  intros big c data specs specs' vals off acc AS L. revert vals off acc.
  induction L as [|s s' specs specs' LS L IH]; intros vals off acc NZ ND FR RD F2 O tail T.
  - inversion F2; subst. cbn [app flat_map]. rewrite T, blen_nil. exists []. rewrite app_nil_r, Z.add_0_r. split; [reflexivity | constructor].
  - inversion F2 as [|? v ? vals' E F2']; subst. inversion NZ as [|? ? N0 NZ']; subst. inversion ND as [|? ? NI ND']; subst.
    cbn [app flat_map] in *. cbn [read_attrs]. destruct LS as (L1 & L2 & L3). rewrite L1.
    destruct (aa_attr s =? 0) eqn:Z0; [apply Z.eqb_eq in Z0; contradiction|].
    assert (E' : exists v0, attr_enc big c s' v0 (snd v) /\ (inexact (aa_form s) (fst v) = false -> v0 = fst v)).
    { destruct E as (k & w & K1 & K2 & K3). exists (form_value c s' w). split.
      - exists k, w. rewrite L2. auto.
      - intros X. rewrite K3 in *. unfold form_value in *. rewrite L2. destruct (aa_form s =? 25) eqn:F25; [reflexivity|].
        destruct (aa_form s =? 33) eqn:F33; [|reflexivity].
        destruct (aa_value s) as [z|].
        + destruct L3 as (z' & -> & P). f_equal. apply P.
          unfold inexact in X. rewrite F33 in X. apply orb_false_iff in X. destruct X as [_ X]. cbn in X.
          apply Z.ltb_ge in X. exact X.
        + rewrite L3. reflexivity. }
    destruct E' as (v0 & E' & VX).
    destruct (RD s (or_introl eq_refl)) as [U1 U2].
    destruct (get_attr_value_enc big c s' v0 (snd v) data off E') as (v' & G & EX); try (rewrite L2; assumption).
    { exact AS. } { exact (occurs_app_l _ _ _ _ O). }
    rewrite G. cbn [bind].
    set (a1 := DAttr (aa_attr s) (aa_form s') off v' (off + blen (snd v) - off)).
    assert (FR0 : ~ In (aa_attr s) (keys acc)) by (apply FR; now left).
    rewrite (dset_notin (K:=Z)) by exact FR0.
    destruct (IH vals' (off + blen (snd v)) (acc ++ [(aa_attr s, a1)]) NZ' ND') with (tail := tail) as (d & R & A2).
    + intros s0 I0. unfold keys. rewrite map_app, in_app_iff. intros [X|[X|[]]].
      * exact (FR s0 (or_intror I0) X).
      * cbn in X. apply NI. rewrite X. apply List.in_map. exact I0.
    + intros s0 I0. apply RD. now right.
    + exact F2'.
    + exact (occurs_app_r _ _ _ _ O).
    + exact T.
    + rewrite R. exists ((aa_attr s, a1) :: d). split.
      * rewrite <- app_assoc. cbn [app]. rewrite blen_app. f_equal. f_equal. lia.
      * constructor; [|exact A2]. unfold attr_like; subst a1; cbn.
        split; [reflexivity|]. split; [reflexivity|]. split; [exact L2|]. split; [reflexivity|]. split; [lia|].
        intros X. rewrite <- (VX X). apply EX. rewrite L2. unfold exact_form. unfold inexact in X.
        apply orb_false_iff in X. destruct X as [X _]. now rewrite X.
Qed.

Lemma tattrs_app : forall specs vals off x, length specs = length vals -> tattrs (specs ++ x) vals off = tattrs specs vals off.
Proof.
  induction specs as [|s specs IH]; intros [|v vals] off x L; cbn in L; try discriminate.
  - destruct x; reflexivity.
  - cbn [app tattrs]. f_equal. apply IH. congruence.
Qed.
Lemma Forall2_len : forall {A B} (R : A -> B -> Prop) l m, Forall2 R l m -> length l = length m.
Proof. intros A B R l m H; induction H; cbn; congruence. Qed.

Definition kids_dies (off : Z) (level : Z) : Z -> list tree -> list die :=
  fix go o l := match l with
                | [] => [Die o (Some off) (level + 1) 0 0 1 []]
                | k :: l' => tdies o (Some off) (level + 1) k ++ go (o + blen (tbytes k)) l'
                end.

Lemma Forall2_app2 : forall {A B} (R : A -> B -> Prop) l1 m1 l2 m2, Forall2 R l1 m1 -> Forall2 R l2 m2 -> Forall2 R (l1 ++ l2) (m1 ++ m2).
Proof. intros A B R l1 m1 l2 m2 H. induction H; intros G; cbn; [exact G | constructor; auto]. Qed.

Section Tree.
Variables (big : bool) (c : cu) (tbl tbl' : list abbrev) (data : list Z).
Hypothesis AS : 0 <= cu_address_size c.
Hypothesis POS : forall a, In a tbl -> exists a', nth_error tbl' (Z.to_nat (ab_code a - 1)) = Some a' /\ abbrev_like a a'.
Hypothesis RD : readable tbl.

Definition reads (t : tree) : Prop := tree_ok big c tbl t -> forall fuel off parent level,
  occurs data off (tbytes t) -> 2 * blen (tbytes t) <= Z.of_nat fuel ->
  exists l, get_DIE fuel big c tbl' data off parent level = Ok (l, ab_code (t_abbrev t), off + blen (tbytes t)) /\
            Forall2 die_like (tdies off parent level t) l.

Lemma tree_code : forall t, tree_ok big c tbl t -> 1 <= ab_code (t_abbrev t).
Proof. intros t H; destruct H; assumption. Qed.

Lemma get_children_enc : forall kids, Forall reads kids -> Forall (tree_ok big c tbl) kids ->
  forall fuel o off level, occurs data o (flat_map tbytes kids ++ [0]) ->
  2 * blen (flat_map tbytes kids) + 2 <= Z.of_nat fuel ->
  exists l, get_children fuel big c tbl' data o off (level + 1) = Ok (l, o + blen (flat_map tbytes kids) + 1) /\
            Forall2 die_like (kids_dies off level o kids) l.
Proof.
  intros kids R. induction R as [|k kids HK R IH]; intros TO fuel o off level O F; cbn [flat_map] in *.
  - rewrite blen_nil in F. destruct fuel as [|[|fuel]]; [lia|lia|]. cbn [get_children get_DIE].
    cbn [app] in O. rewrite (uleb_ok 0 [0] data o O) by (apply ue_last; lia). cbn [bind Z.eqb].
    rewrite blen_cons, blen_nil. eexists; split; [do 2 f_equal; lia|].
    cbn [kids_dies]. constructor; [|constructor]. unfold die_like; cbn. repeat split; try lia. constructor.
  - inversion TO as [|? ? T1 T2]; subst. pose proof (tbytes_nonempty _ _ _ _ T1). rewrite blen_app in *.
    pose proof (blen_nonneg (flat_map tbytes kids)).
    destruct fuel as [|fuel]; [lia|]. cbn [get_children]. rewrite <- app_assoc in O.
    destruct (HK T1 fuel o (Some off) (level + 1) (occurs_app_l _ _ _ _ O)) as (l1 & -> & D1); [lia|]. cbn [bind].
    pose proof (tree_code _ T1). destruct (ab_code (t_abbrev k) =? 0) eqn:Z0; [apply Z.eqb_eq in Z0; lia|].
    destruct (IH T2 fuel (o + blen (tbytes k)) off level (occurs_app_r _ _ _ _ O)) as (l2 & -> & D2); [lia|]. cbn [bind].
    eexists; split; [do 2 f_equal; lia|].
    cbn [kids_dies]. apply Forall2_app2; assumption.
Qed.

Lemma get_DIE_enc : forall t, reads t.
Proof.
  induction t as [a cb vals kids IH] using tree_ind'. intros TO fuel off parent level O F.
  inversion TO as [? ? ? ? specs I C U SP NZ ND F2 K0 KO]; subst.
  cbn [tbytes t_abbrev] in *. rewrite !blen_app in F.
  pose proof (uleb_nonempty _ _ U). pose proof (blen_nonneg (flat_map snd vals)).
  pose proof (occurs_app_l _ _ _ _ O) as O1. pose proof (occurs_app_r _ _ _ _ O) as R1.
  pose proof (occurs_app_l _ _ _ _ R1) as O2. pose proof (occurs_app_r _ _ _ _ R1) as O3.
  set (tailb := if ab_children a =? 0 then [] else flat_map tbytes kids ++ [0]) in *. pose proof (blen_nonneg tailb).
  destruct fuel as [|fuel]; [lia|]. cbn [get_DIE].
  rewrite (uleb_ok _ _ _ _ O1 U). cbn [bind].
  destruct (ab_code a =? 0) eqn:Z0; [apply Z.eqb_eq in Z0; lia|].
  destruct (POS a I) as (a' & -> & (A1 & A2 & A3 & A4)). rewrite A1, Z.eqb_refl. cbn [negb].
  rewrite SP in A4. apply Forall2_app_inv_l in A4. destruct A4 as (s1 & s2 & L1 & L2 & ->).
  inversion L2 as [|? e0 ? ? (E1 & E2 & E3) L3]; subst. inversion L3; subst. cbn in E1, E2, E3.
  destruct (read_attrs_enc big c data specs s1 vals (off + blen cb) [] AS L1 NZ ND) with (tail := [e0]) as (d & RA & AL).
  { intros s _ []. }
  { intros s X. apply (RD a s I). rewrite SP. apply in_or_app; now left. }
  { exact F2. } { exact O2. }
  { intros o acc'. cbn [read_attrs]. rewrite E1. reflexivity. }
  cbn [app] in RA. rewrite RA. cbn [bind]. rewrite A3.
  assert (TA : tattrs (ab_attrs a) vals (off + blen cb) = tattrs specs vals (off + blen cb)).
  { rewrite SP. apply tattrs_app. exact (Forall2_len _ _ _ F2). }
  destruct (ab_children a =? 0) eqn:CH.
  - subst tailb. rewrite !blen_app, blen_nil in *. eexists; split; [do 2 f_equal; lia|].
    cbn [tdies]. rewrite CH. cbn [tbytes]. rewrite CH, !blen_app, blen_nil, TA, A2.
    constructor; [|constructor]. unfold die_like; cbn. repeat split; try lia. exact AL.
  - subst tailb. rewrite !blen_app, blen_cons, blen_nil in *.
    assert (KR : Forall reads kids) by exact IH.
    destruct (get_children_enc kids KR KO fuel (off + blen cb + blen (flat_map snd vals)) off level O3) as (l & -> & DL); [lia|].
    cbn [bind]. eexists; split; [do 2 f_equal; lia|].
    cbn [tdies]. rewrite CH. cbn [tbytes]. rewrite CH, !blen_app, blen_cons, blen_nil, TA, A2.
    constructor; [|exact DL]. unfold die_like; cbn. repeat split; try lia. exact AL.
Qed.
End Tree.

Lemma numbered_lookup : forall tbl tbl', numbered tbl -> Forall2 abbrev_like tbl tbl' ->
  forall a, In a tbl -> exists a', nth_error tbl' (Z.to_nat (ab_code a - 1)) = Some a' /\ abbrev_like a a'.
Proof.
  intros tbl tbl' N F a I. apply In_nth_error in I. destruct I as [i E]. rewrite (N i a E).
  replace (Z.to_nat (Z.of_nat i + 1 - 1)) with i by lia. clear N.
  revert i E. induction F as [|x x' l l' X F IH]; intros [|i] E; cbn in E; try discriminate.
  - inversion E; subst. exists x'. auto.
  - exact (IH i E).
Qed.

(** the entries of one unit *)
Lemma unit_DIEs_enc : forall big c tbl tbl' t info table,
  0 <= cu_address_size c -> numbered tbl -> readable tbl -> Forall2 abbrev_like tbl tbl' -> table = Ok tbl' ->
  tree_ok big c tbl t -> occurs info (cu_die_offset c) (tbytes t) ->
  exists l, unit_DIEs big info table c = Ok l /\ Forall2 die_like (tdies (cu_die_offset c) None 0 t) l.
Proof.
  intros big c tbl tbl' t info table AS N RD F -> TO O. unfold unit_DIEs.
  assert (U : exists cb rest, tbytes t = cb ++ rest /\ uleb_enc (ab_code (t_abbrev t)) cb /\ 1 <= ab_code (t_abbrev t)).
  { destruct TO as [a cb vals kids specs I C U]. exists cb. eexists. cbn. eauto. }
  destruct U as (cb & rest & E & U & C1).
  assert (O1 : occurs info (cu_die_offset c) cb) by (rewrite E in O; exact (occurs_app_l _ _ _ _ O)).
  rewrite (uleb_ok _ _ _ _ O1 U). cbn [bind].
  destruct (ab_code (t_abbrev t) =? 0) eqn:Z0; [apply Z.eqb_eq in Z0; lia|]. cbn [bind].
  destruct (get_DIE_enc big c tbl tbl' info AS (numbered_lookup _ _ N F) RD t TO (2 * length info + 2)%nat (cu_die_offset c) None 0 O)
    as (l & G & D).
  { pose proof (occurs_off _ _ _ O). unfold blen in *. lia. }
  rewrite G. cbn [bind]. exists l. auto.
Qed.

(** ** Units *)


Lemma get_uint_at : forall big n m data off v o l, m = Z.of_nat n -> o = off + m -> fits m v -> l = int_enc big n v ->
  occurs data off l -> get_uint big m data off = (v, o).
Proof. intros; subst. now apply get_uint_enc. Qed.

Lemma occurs_eq : forall data off off' l, occurs data off l -> off = off' -> occurs data off' l.
Proof. intros; subst; assumption. Qed.

Lemma read_cu_enc : forall big c body l data, unit_enc big c body l -> plain_unit c -> occurs data (cu_offset c) l ->
  read_cu big data (cu_offset c) = Ok c.
Proof.
  intros big c body l data H PU O. destruct H as [hdr UH AS AF LEN RNG ULL DO].
  unfold read_cu. unfold get_bytes. cbn [fst].
  pose proof (occurs_app_l _ _ _ _ O) as OL. pose proof (occurs_app_r _ _ _ _ O) as OR.
  pose proof (occurs_app_l _ _ _ _ OR) as OH. clear O OR.
  assert (START : exists o2, get_uint big 4 data (cu_offset c) =
              (if cu_is64 c then 4294967295 else cu_length c, cu_offset c + 4) /\
            blen (slice data (cu_offset c) 4) = 4 /\
            (if cu_is64 c then get_uint big 8 data (cu_offset c + 4) else (cu_length c, cu_offset c + 4)) = (cu_length c, o2) /\
            (cu_is64 c = true -> blen (slice data (cu_offset c + 4) 8) = 8) /\
            o2 = cu_offset c + cu_ullen c /\
            blen (unit_length_bytes big (cu_is64 c) (cu_length c)) = cu_ullen c).
  { rewrite ULL. unfold unit_length_bytes in *. destruct (cu_is64 c).
    - exists (cu_offset c + 12). pose proof (occurs_app_l _ _ _ _ OL) as OA. pose proof (occurs_app_r _ _ _ _ OL) as OB.
      change (blen [255; 255; 255; 255]) with 4 in OB.
      repeat split.
      + apply (get_uint_at big 4 4 data _ _ _ [255;255;255;255]); try reflexivity; [split; [lia|reflexivity] | destruct big; reflexivity | exact OA].
      + change 4 with (blen [255;255;255;255]) at 1. rewrite (occurs_slice _ _ _ OA). reflexivity.
      + refine (get_uint_at big 8 8 data _ _ _ _ eq_refl _ RNG eq_refl OB). lia.
      + intros _. pose proof (occurs_slice _ _ _ OB) as SS. rewrite blen_int_enc in SS. change (Z.of_nat 8) with 8 in SS.
        rewrite SS. apply blen_int_enc.
      + rewrite blen_app, blen_int_enc. reflexivity.
    - exists (cu_offset c + 4). repeat split.
      + refine (get_uint_at big 4 4 data _ _ _ _ eq_refl eq_refl _ eq_refl OL). unfold fits. change (256 ^ 4) with 4294967296. lia.
      + pose proof (occurs_slice _ _ _ OL) as SS. rewrite blen_int_enc in SS. change (Z.of_nat 4) with 4 in SS.
        rewrite SS. apply blen_int_enc.
      + discriminate.
      + apply blen_int_enc. }
  destruct START as (o2 & G4 & S4 & G8 & S8 & E2 & BL). rewrite G4, S4.
  assert (IS : (if cu_is64 c then 4294967295 else cu_length c) =? 4294967295 = cu_is64 c).
  { destruct (cu_is64 c); [reflexivity|]. apply Z.eqb_neq. lia. }
  rewrite IS.
  replace (if cu_is64 c then get_uint big 8 data (cu_offset c + 4) else (if cu_is64 c then 4294967295 else cu_length c, cu_offset c + 4))
    with (cu_length c, o2) by (rewrite <- G8; destruct (cu_is64 c); reflexivity).
  assert (UL : (if cu_is64 c then 4 + blen (slice data (cu_offset c + 4) 8) else 4) = cu_ullen c).
  { rewrite ULL. destruct (cu_is64 c); [rewrite S8 by reflexivity; reflexivity | reflexivity]. }
  rewrite UL. clear UL G8 S8 IS. rewrite BL, <- E2 in OH.
  assert (OFF : forall o v, occurs data o (int_enc big (if cu_is64 c then 8%nat else 4%nat) v) -> fits (off_size (cu_is64 c)) v ->
            get_uint big (off_size (cu_is64 c)) data o = (v, o + off_size (cu_is64 c))).
  { intros o v OO FF. refine (get_uint_at big (if cu_is64 c then 8%nat else 4%nat) _ data o v _ _ _ eq_refl FF eq_refl OO). destruct (cu_is64 c); reflexivity. }
  assert (BYTE : forall o v, occurs data o [v] -> 0 <= v < 256 -> get_uint big 1 data o = (v, o + 1)).
  { intros o v OO FF. apply (get_uint_at big 1 1 data o v _ [v] eq_refl eq_refl FF); [symmetry; now apply int_enc_byte | exact OO]. }
  assert (HALF : forall v, occurs data o2 (int_enc big 2 v) -> 0 <= v < 65536 -> get_uint big 2 data o2 = (v, o2 + 2)).
  { intros v OO FF. apply (get_uint_at big 2 2 data o2 v _ _ eq_refl eq_refl FF eq_refl OO). }
  assert (ASB : 0 <= cu_address_size c < 256) by lia.
  assert (A48 : (cu_address_size c =? 4) || (cu_address_size c =? 8) = true) by (apply orb_true_iff; rewrite !Z.eqb_eq; exact AS).
  destruct c as [coff ull len is64 ver ut asz aoff doff].
  cbn [cu_offset cu_ullen cu_length cu_is64 cu_version cu_unit_type cu_address_size cu_abbrev_offset cu_die_offset] in *.
  inversion UH; subst; unfold plain_unit in PU; cbn in PU.
  - pose proof (occurs_app_l _ _ _ _ OH) as P1. pose proof (occurs_app_r _ _ _ _ OH) as P2. rewrite blen_int_enc in P2.
    pose proof (occurs_app_l _ _ _ _ P2) as P3. pose proof (occurs_app_r _ _ _ _ P2) as P4. rewrite blen_int_enc in P4.
    change (Z.of_nat 2) with 2 in *.
    rewrite (HALF _ P1) by lia.
    destruct (ver =? 5) eqn:V5; [apply Z.eqb_eq in V5; lia|].
    destruct (ver <=? 4) eqn:V4; [|apply Z.leb_gt in V4; lia].
    rewrite (OFF _ _ P3 AF).
    rewrite (BYTE _ asz); [| eapply occurs_eq; [exact P4 | destruct is64; cbn; lia] | exact ASB].
    cbn [bind]. rewrite A48. f_equal. f_equal. rewrite !blen_app, !blen_int_enc, blen_cons, blen_nil. destruct is64; cbn; lia.
  - pose proof (occurs_app_l _ _ _ _ OH) as P1. pose proof (occurs_app_r _ _ _ _ OH) as P2. rewrite blen_int_enc in P2.
    pose proof (occurs_app_l _ _ _ _ P2) as P3. pose proof (occurs_app_r _ _ _ _ P2) as P4.
    pose proof (occurs_app_l _ _ _ _ P4) as P5. pose proof (occurs_app_r _ _ _ _ P4) as P6.
    change (Z.of_nat 2) with 2 in *. rewrite !blen_cons, !blen_nil in *.
    rewrite (HALF _ P1) by lia. cbn [Z.eqb Pos.eqb].
    rewrite (BYTE _ _ P3) by lia.
    rewrite (BYTE _ asz); [| eapply occurs_eq; [exact P5 | lia] | exact ASB].
    rewrite (OFF _ aoff); [| eapply occurs_eq; [exact P6 | lia] | exact AF].
    cbn [bind]. rewrite A48. f_equal. f_equal. rewrite !blen_app, !blen_int_enc, !blen_cons, !blen_nil. destruct is64; cbn; lia.
  - exfalso. destruct PU as [X|[X|X]]; inversion X; lia.
  - exfalso. destruct PU as [X|[X|X]]; inversion X; lia.
Qed.

Lemma unit_enc_len : forall big c body l, unit_enc big c body l -> blen l = cu_ullen c + cu_length c /\ 4 <= cu_ullen c /\ 0 <= cu_length c.
Proof.
  intros big c body l [hdr UH AS AF LEN RNG ULL DO]. rewrite !blen_app, LEN, ULL.
  unfold unit_length_bytes. pose proof (blen_nonneg hdr). pose proof (blen_nonneg body).
  destruct (cu_is64 c); [rewrite blen_app, blen_int_enc; change (blen [255; 255; 255; 255]) with 4; lia | rewrite blen_int_enc; lia].
Qed.

Lemma read_cus_enc : forall big off us rest, units_enc big off us rest -> Forall (fun u => plain_unit (fst u)) us ->
  forall fuel pre, off = blen pre -> (length us < fuel)%nat ->
  read_cus fuel big (pre ++ rest) off = Ok (map fst us).
Proof.
  intros big off us rest H. induction H as [off | off c body l r rest CO UE H IH]; intros PU fuel pre E F.
  - destruct fuel as [|fuel]; [lia|]. cbn [read_cus]. rewrite app_nil_r, E.
    destruct (blen pre <? blen pre) eqn:L; [apply Z.ltb_lt in L; lia | reflexivity].
  - inversion PU as [|? ? P1 P2]; subst. cbn [fst] in P1. destruct (unit_enc_len _ _ _ _ UE) as (L1 & L2 & L3).
    destruct fuel as [|fuel]; [lia|]. cbn [read_cus].
    rewrite !blen_app. pose proof (blen_nonneg rest).
    destruct (cu_offset c <? blen pre + (blen l + blen rest)) eqn:L; [|apply Z.ltb_ge in L; lia].
    rewrite (read_cu_enc big c body l _ UE P1).
    2:{ exists pre, rest. auto. }
    cbn [bind]. replace (cu_offset c + cu_ullen c + cu_length c) with (cu_offset c + blen l) by lia.
    rewrite app_assoc. rewrite (IH P2 fuel (pre ++ l)).
    + reflexivity.
    + rewrite blen_app. lia.
    + cbn [length] in F. lia.
Qed.
