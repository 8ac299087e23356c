(** * Listings: symbols and abbreviations *)
From Coq Require Import Ascii String List ZArith Bool Lia.
From Verif Require Import Base ElfRead Dwarf Names Table Dump SpecMap SpecTable SpecElf SpecDwarf SpecDebug SpecDump
  ProofElf1 ProofElf2 ProofTable ProofDwarf1 ProofDwarf2 ProofDwarf3 ProofDwarf4 ProofDump1 ProofDump2 ProofDump3.
Import ListNotations.
Open Scope list_scope.
Open Scope Z_scope.

(** ** unit headers of all types: what follows the offset of the abbreviations is not skipped *)
Definition with_die (d : Z) (c : cu) : cu :=
  Cu (cu_offset c) (cu_ullen c) (cu_length c) (cu_is64 c) (cu_version c) (cu_unit_type c) (cu_address_size c) (cu_abbrev_offset c) d.
Lemma read_cu_any : forall big c body l data, unit_enc big c body l -> occurs data (cu_offset c) l ->
  exists d, read_cu big data (cu_offset c) = Ok (with_die d c).
Proof.
  intros big c body l data H O. destruct H as [hdr UH AS AF LEN RNG ULL DO].
  unfold read_cu. unfold get_bytes. cbn [fst].
  pose proof (occurs_app_l _ _ _ _ O) as OL. pose proof (occurs_app_r _ _ _ _ O) as OR.
  pose proof (occurs_app_l _ _ _ _ OR) as OH. clear O OR.
  assert (START : exists o2, get_uint big 4 data (cu_offset c) =
              (if cu_is64 c then 4294967295 else cu_length c, cu_offset c + 4) /\
            blen (slice data (cu_offset c) 4) = 4 /\
            (if cu_is64 c then get_uint big 8 data (cu_offset c + 4) else (cu_length c, cu_offset c + 4)) = (cu_length c, o2) /\
            (cu_is64 c = true -> blen (slice data (cu_offset c + 4) 8) = 8) /\
            o2 = cu_offset c + cu_ullen c /\
            blen (unit_length_bytes big (cu_is64 c) (cu_length c)) = cu_ullen c).
  { rewrite ULL. unfold unit_length_bytes in *. destruct (cu_is64 c).
    - exists (cu_offset c + 12). pose proof (occurs_app_l _ _ _ _ OL) as OA. pose proof (occurs_app_r _ _ _ _ OL) as OB.
      change (blen [255; 255; 255; 255]) with 4 in OB.
      repeat split.
      + apply (get_uint_at big 4 4 data _ _ _ [255;255;255;255]); try reflexivity; [split; [lia|reflexivity] | destruct big; reflexivity | exact OA].
      + change 4 with (blen [255;255;255;255]) at 1. rewrite (occurs_slice _ _ _ OA). reflexivity.
      + refine (get_uint_at big 8 8 data _ _ _ _ eq_refl _ RNG eq_refl OB). lia.
      + intros _. pose proof (occurs_slice _ _ _ OB) as SS. rewrite blen_int_enc in SS. change (Z.of_nat 8) with 8 in SS.
        rewrite SS. apply blen_int_enc.
      + rewrite blen_app, blen_int_enc. reflexivity.
    - exists (cu_offset c + 4). repeat split.
      + refine (get_uint_at big 4 4 data _ _ _ _ eq_refl eq_refl _ eq_refl OL). unfold fits. change (256 ^ 4) with 4294967296. lia.
      + pose proof (occurs_slice _ _ _ OL) as SS. rewrite blen_int_enc in SS. change (Z.of_nat 4) with 4 in SS.
        rewrite SS. apply blen_int_enc.
      + discriminate.
      + apply blen_int_enc. }
  destruct START as (o2 & G4 & S4 & G8 & S8 & E2 & BL). rewrite G4, S4.
  assert (IS : (if cu_is64 c then 4294967295 else cu_length c) =? 4294967295 = cu_is64 c).
  { destruct (cu_is64 c); [reflexivity|]. apply Z.eqb_neq. lia. }
  rewrite IS.
  replace (if cu_is64 c then get_uint big 8 data (cu_offset c + 4) else (if cu_is64 c then 4294967295 else cu_length c, cu_offset c + 4))
    with (cu_length c, o2) by (rewrite <- G8; destruct (cu_is64 c); reflexivity).
  assert (UL : (if cu_is64 c then 4 + blen (slice data (cu_offset c + 4) 8) else 4) = cu_ullen c).
  { rewrite ULL. destruct (cu_is64 c); [rewrite S8 by reflexivity; reflexivity | reflexivity]. }
  rewrite UL. clear UL G8 S8 IS. rewrite BL, <- E2 in OH.
  assert (OFF : forall o v, occurs data o (int_enc big (if cu_is64 c then 8%nat else 4%nat) v) -> fits (off_size (cu_is64 c)) v ->
            get_uint big (off_size (cu_is64 c)) data o = (v, o + off_size (cu_is64 c))).
  { intros o v OO FF. refine (get_uint_at big (if cu_is64 c then 8%nat else 4%nat) _ data o v _ _ _ eq_refl FF eq_refl OO). destruct (cu_is64 c); reflexivity. }
  assert (BYTE : forall o v, occurs data o [v] -> 0 <= v < 256 -> get_uint big 1 data o = (v, o + 1)).
  { intros o v OO FF. apply (get_uint_at big 1 1 data o v _ [v] eq_refl eq_refl FF); [symmetry; now apply int_enc_byte | exact OO]. }
  assert (HALF : forall v, occurs data o2 (int_enc big 2 v) -> 0 <= v < 65536 -> get_uint big 2 data o2 = (v, o2 + 2)).
  { intros v OO FF. apply (get_uint_at big 2 2 data o2 v _ _ eq_refl eq_refl FF eq_refl OO). }
  assert (ASB : 0 <= cu_address_size c < 256) by lia.
  assert (A48 : (cu_address_size c =? 4) || (cu_address_size c =? 8) = true) by (apply orb_true_iff; rewrite !Z.eqb_eq; exact AS).
  destruct c as [coff ull len is64 ver ut asz aoff doff].
  cbn [cu_offset cu_ullen cu_length cu_is64 cu_version cu_unit_type cu_address_size cu_abbrev_offset cu_die_offset] in *.
  inversion UH; subst; unfold with_die; cbn [cu_offset cu_ullen cu_length cu_is64 cu_version cu_unit_type cu_address_size cu_abbrev_offset].
  - pose proof (occurs_app_l _ _ _ _ OH) as P1. pose proof (occurs_app_r _ _ _ _ OH) as P2. rewrite blen_int_enc in P2.
    pose proof (occurs_app_l _ _ _ _ P2) as P3. pose proof (occurs_app_r _ _ _ _ P2) as P4. rewrite blen_int_enc in P4.
    change (Z.of_nat 2) with 2 in *.
    rewrite (HALF _ P1) by lia.
    destruct (ver =? 5) eqn:V5; [apply Z.eqb_eq in V5; lia|].
    destruct (ver <=? 4) eqn:V4; [|apply Z.leb_gt in V4; lia].
    rewrite (OFF _ _ P3 AF).
    rewrite (BYTE _ asz); [| eapply occurs_eq; [exact P4 | destruct is64; cbn; lia] | exact ASB].
    cbn [bind]. rewrite A48. eexists. reflexivity.
  - pose proof (occurs_app_l _ _ _ _ OH) as P1. pose proof (occurs_app_r _ _ _ _ OH) as P2. rewrite blen_int_enc in P2.
    pose proof (occurs_app_l _ _ _ _ P2) as P3. pose proof (occurs_app_r _ _ _ _ P2) as P4.
    pose proof (occurs_app_l _ _ _ _ P4) as P5. pose proof (occurs_app_r _ _ _ _ P4) as P6.
    change (Z.of_nat 2) with 2 in *. rewrite !blen_cons, !blen_nil in *.
    rewrite (HALF _ P1) by lia. cbn [Z.eqb Pos.eqb].
    rewrite (BYTE _ _ P3) by lia.
    rewrite (BYTE _ asz); [| eapply occurs_eq; [exact P5 | lia] | exact ASB].
    rewrite (OFF _ aoff); [| eapply occurs_eq; [exact P6 | lia] | exact AF].
    cbn [bind]. rewrite A48. eexists. reflexivity.
  - pose proof (occurs_app_l _ _ _ _ OH) as P1. pose proof (occurs_app_r _ _ _ _ OH) as P2. rewrite blen_int_enc in P2.
    pose proof (occurs_app_l _ _ _ _ P2) as P3. pose proof (occurs_app_r _ _ _ _ P2) as P4.
    pose proof (occurs_app_l _ _ _ _ P4) as P5. pose proof (occurs_app_r _ _ _ _ P4) as P6.
    change (Z.of_nat 2) with 2 in *. rewrite !blen_cons, !blen_nil in *.
    rewrite (HALF _ P1) by lia. cbn [Z.eqb Pos.eqb].
    rewrite (BYTE _ _ P3) by lia.
    rewrite (BYTE _ asz); [| eapply occurs_eq; [exact P5 | lia] | exact ASB].
    pose proof (occurs_app_l _ _ _ _ P6) as P7. rewrite (OFF _ aoff); [| eapply occurs_eq; [exact P7 | lia] | exact AF].
    cbn [bind]. rewrite A48. eexists. reflexivity.
  - pose proof (occurs_app_l _ _ _ _ OH) as P1. pose proof (occurs_app_r _ _ _ _ OH) as P2. rewrite blen_int_enc in P2.
    pose proof (occurs_app_l _ _ _ _ P2) as P3. pose proof (occurs_app_r _ _ _ _ P2) as P4.
    pose proof (occurs_app_l _ _ _ _ P4) as P5. pose proof (occurs_app_r _ _ _ _ P4) as P6.
    change (Z.of_nat 2) with 2 in *. rewrite !blen_cons, !blen_nil in *.
    rewrite (HALF _ P1) by lia. cbn [Z.eqb Pos.eqb].
    rewrite (BYTE _ _ P3) by lia.
    rewrite (BYTE _ asz); [| eapply occurs_eq; [exact P5 | lia] | exact ASB].
    pose proof (occurs_app_l _ _ _ _ P6) as P7. rewrite (OFF _ aoff); [| eapply occurs_eq; [exact P7 | lia] | exact AF].
    cbn [bind]. rewrite A48. eexists. reflexivity.
Qed.

Definition cu_like (c c' : cu) : Prop := exists d, c' = with_die d c.
Lemma read_cus_any : forall big off us rest, units_enc big off us rest ->
  forall fuel pre, off = blen pre -> (length us < fuel)%nat ->
  exists l, read_cus fuel big (pre ++ rest) off = Ok l /\ Forall2 cu_like (map fst us) l.
Proof.
  intros big off us rest H. induction H as [off | off c body l r rest CO UE H IH]; intros fuel pre E F.
  - destruct fuel as [|fuel]; [lia|]. cbn [read_cus]. rewrite app_nil_r, E.
    destruct (blen pre <? blen pre) eqn:L; [apply Z.ltb_lt in L; lia|]. exists []. split; [reflexivity|constructor].
  - destruct (unit_enc_len _ _ _ _ UE) as (L1 & L2 & L3). subst off.
    destruct fuel as [|fuel]; [lia|]. cbn [read_cus].
    rewrite !blen_app. pose proof (blen_nonneg rest).
    destruct (cu_offset c <? blen pre + (blen l + blen rest)) eqn:L; [|apply Z.ltb_ge in L; lia].
    destruct (read_cu_any big c body l (pre ++ l ++ rest) UE) as (d & RC); [exists pre, rest; auto|].
    rewrite RC. cbn [bind with_die cu_ullen cu_length]. replace (cu_offset c + cu_ullen c + cu_length c) with (cu_offset c + blen l) by lia.
    rewrite app_assoc. destruct (IH fuel (pre ++ l)) as (cs & EC & FC); [rewrite blen_app; lia|cbn [length] in F; lia|].
    rewrite EC. cbn [bind]. eexists. split; [reflexivity|]. cbn [map fst]. constructor; [now exists d|exact FC].
Qed.
Lemma units_enc_len big off us rest : units_enc big off us rest -> Z.of_nat (length us) <= blen rest.
Proof.
  intros H. induction H as [|off c body l r rest CO UE H IH]; [cbn; lia|].
  destruct (unit_enc_len _ _ _ _ UE) as (L1 & L2 & L3). rewrite blen_app. cbn [length]. lia.
Qed.
Lemma CUs_any e names info us : named_sections e names -> section_is e names (list_ascii_of_string ".debug_info") info ->
  units_enc (xe_big e) 0 us info -> exists l, CUs e = Ok l /\ Forall2 cu_like (map fst us) l.
Proof.
  intros NS SI UE. unfold CUs. destruct (section_lookup _ _ _ _ NS SI) as (si & LI & DI). rewrite LI. cbn [bind]. rewrite DI. cbn [bind].
  pose proof (units_enc_len _ _ _ _ UE) as L. unfold blen in L.
  exact (read_cus_any _ _ _ _ UE (S (length info)) [] eq_refl ltac:(lia)).
Qed.

(** ** abbreviations *)
Definition at_like (p q : Z * abattr) : Prop := fst q = fst p /\ abattr_like (snd p) (snd q).
Definition located_like (a b : located) : Prop :=
  l_off b = l_off a /\ l_code b = l_code a /\ l_tag b = l_tag a /\ l_children b = l_children a /\ Forall2 at_like (l_attrs a) (l_attrs b).
Lemma attrs_at_len off b l : attrs_at off b l -> 2 <= blen l.
Proof.
  intros H. destruct H as [off la lf A F | off a l b r N E H].
  - rewrite blen_app. apply uleb_nonempty in A, F. lia.
  - rewrite blen_app. apply abattr_enc_len in E. pose proof (blen_nonneg r). lia.
Qed.
Lemma located_attrs_enc off b l : attrs_at off b l -> forall fuel data, occurs data off l -> blen l <= Z.of_nat fuel ->
  exists b', located_attrs fuel data off = Ok (b', off + blen l) /\ Forall2 at_like b b'.
Proof.
  intros H. induction H as [off la lf A F | off a l b r N E H IH]; intros fuel data O L.
  - destruct (read_abattr_enc (AbAttr 0 0 None) (la ++ lf) data off) as (a' & R & (A1 & A2 & A3)); [|exact O|].
    { exists la, lf, []. rewrite app_nil_r. cbn. split; [reflexivity|]. split; [exact A|]. split; [exact F|]. split; [lia|reflexivity]. }
    pose proof (uleb_nonempty _ _ A). pose proof (uleb_nonempty _ _ F). rewrite blen_app in L. destruct fuel as [|fuel]; [lia|]. cbn [located_attrs]. rewrite R. cbn [bind]. rewrite A1, A2. cbn.
    eexists. split; [reflexivity|]. constructor; [|constructor]. split; [reflexivity|]. split; [exact A1|]. split; [exact A2|exact A3].
  - pose proof (abattr_enc_len _ _ E). pose proof (blen_nonneg r). rewrite blen_app in L. destruct fuel as [|fuel]; [lia|]. cbn [located_attrs].
    destruct (read_abattr_enc a l data off E (occurs_app_l _ _ _ _ O)) as (a' & R & LK). rewrite R. cbn [bind]. pose proof LK as (A1 & A2 & A3). rewrite A1, A2.
    assert (Z0 : (aa_attr a =? 0) && (aa_form a =? 0) = false) by (rewrite andb_false_iff, !Z.eqb_neq; exact N). rewrite Z0.
    destruct (IH fuel data (occurs_app_r _ _ _ _ O) ltac:(lia)) as (b' & RB & FB). rewrite RB. cbn [bind]. eexists. rewrite blen_app, Z.add_assoc. split; [reflexivity|]. constructor; [now split|exact FB].
Qed.
Lemma located_abbrevs_enc off tbl l : abbrevs_at off tbl l -> forall fuel big data, occurs data off l ->
  blen l <= Z.of_nat fuel -> exists tbl', located_abbrevs fuel big data off = Ok tbl' /\ Forall2 located_like tbl tbl'.
Proof.
  intros H. induction H as [off l U | off a r lc lt la lr OF C LC LT CH LA LR IH]; intros fuel big data O L.
  - pose proof (uleb_nonempty _ _ U). destruct fuel as [|fuel]; [lia|]. cbn [located_abbrevs].
    rewrite (uleb_ok _ _ _ _ O U). cbn [bind Z.eqb]. exists []. auto.
  - pose proof (uleb_nonempty _ _ LC). pose proof (uleb_nonempty _ _ LT). pose proof (attrs_at_len _ _ _ LA).
    rewrite !blen_app, blen_cons, blen_nil in L. pose proof (blen_nonneg lr).
    destruct fuel as [|fuel]; [lia|]. cbn [located_abbrevs].
    pose proof (occurs_app_l _ _ _ _ O) as O1. pose proof (occurs_app_r _ _ _ _ O) as R1.
    pose proof (occurs_app_l _ _ _ _ R1) as O2. pose proof (occurs_app_r _ _ _ _ R1) as R2.
    pose proof (occurs_app_l _ _ _ _ R2) as O3. pose proof (occurs_app_r _ _ _ _ R2) as R3.
    pose proof (occurs_app_l _ _ _ _ R3) as O4. pose proof (occurs_app_r _ _ _ _ R3) as R4.
    rewrite (uleb_ok _ _ _ _ O1 LC). cbn [bind].
    destruct (l_code a =? 0) eqn:Z0; [apply Z.eqb_eq in Z0; lia|].
    unfold located_abbrev. rewrite (uleb_ok _ _ _ _ O1 LC). cbn [bind]. rewrite (uleb_ok _ _ _ _ O2 LT). cbn [bind].
    assert (G : get_uint big 1 data (off + blen lc + blen lt) = (l_children a, off + blen lc + blen lt + 1)).
    { change 1 with (Z.of_nat 1). apply get_uint_enc; [exact CH|]. rewrite int_enc_byte by exact CH. exact O3. }
    rewrite G. rewrite blen_cons, blen_nil in *. change (1 + 0) with 1 in *.
    destruct (located_attrs_enc _ _ _ LA (S (length data)) data O4) as (b' & -> & F2).
    { pose proof (occurs_off _ _ _ O4). unfold blen in *. lia. }
    cbn [bind].
    destruct (IH fuel big data R4) as (tbl' & E & T2); [lia|].
    rewrite E. cbn [bind]. eexists; split; [reflexivity|]. constructor; [|exact T2].
    unfold located_like. cbn. auto.
Qed.
(** offsets are not negative *)
Lemma attrs_at_placed off b l : attrs_at off b l -> 0 <= off -> Forall (fun p => 0 <= fst p) b.
Proof.
  induction 1 as [off la lf A F | off a l b r N E H IH]; intros P; constructor; try exact P; [constructor|]. apply IH. pose proof (blen_nonneg l). lia.
Qed.
Lemma abbrevs_at_placed off t l : abbrevs_at off t l -> 0 <= off -> Forall (fun a => 0 <= l_off a /\ Forall (fun p => 0 <= fst p) (l_attrs a)) t.
Proof.
  induction 1 as [off l U | off a r lc lt la lr OF C LC LT CH LA LR IH]; intros P; [constructor|].
  pose proof (blen_nonneg lc). pose proof (blen_nonneg lt). pose proof (blen_nonneg la). constructor; [split; [lia|]|apply IH; lia].
  eapply attrs_at_placed; [exact LA|lia].
Qed.

Lemma specs_done l l' : Forall2 at_like l l' -> Forall (fun p => 0 <= fst p) l ->
  exists ls, each (fun p => say (spec_line p)) l' = (ls, Ok tt) /\ Forall2 spec_row l ls.
Proof.
  induction 1 as [|p q l l' (E1 & E2 & E3 & _) F IH]; intros P; [exists []; split; [reflexivity|constructor]|]. inversion P as [|? ? P1 P2]; subst.
  destruct (IH P2) as (ls & E & R). cbn [each]. rewrite say_then, E. eexists. split; [reflexivity|]. constructor; [|exact R].
  exists (hex_zeros 10 (fst p)), (get_attr_name (aa_attr (snd p))), (get_form_name (aa_form (snd p))).
  split; [apply hex_zeros_number; [lia|assumption]|]. split; [apply attr_shown|]. split; [apply form_shown|]. unfold spec_line. rewrite E1, E2, E3.
  replace (Dump.tx "<" ++ hex_zeros 10 (fst p) ++ Dump.tx ">" ++ Dump.tx "      " ++ left_in 30 (get_attr_name (aa_attr (snd p))) ++ Dump.tx " " ++ get_form_name (aa_form (snd p)))
    with ((Dump.tx "<" ++ hex_zeros 10 (fst p) ++ Dump.tx ">") ++ Dump.tx "      " ++ left_in 30 (get_attr_name (aa_attr (snd p))) ++ " "%char :: get_form_name (aa_form (snd p))) by (rewrite <- !app_assoc; reflexivity).
  constructor; [discriminate|repeat constructor|]. apply cells_left, cells_last.
Qed.
Lemma entries_done t t' : Forall2 located_like t t' -> Forall (fun a => 0 <= l_off a /\ Forall (fun p => 0 <= fst p) (l_attrs a)) t ->
  exists ls, each (fun a => having _ <- say (entry_line a); each (fun p => say (spec_line p)) (l_attrs a)) t' = (ls, Ok tt) /\ entry_lines t ls.
Proof.
  induction 1 as [|a b t t' (E1 & E2 & E3 & E4 & E5) F IH]; intros P; [exists []; split; [reflexivity|constructor]|]. inversion P as [|? ? (P1 & P1') P2]; subst.
  destruct (specs_done _ _ E5 P1') as (l1 & S1 & R1). destruct (IH P2) as (l2 & S2 & R2). cbn [each]. rewrite say_then, S1. unfold and_then at 1. cbn [fst snd]. rewrite S2. eexists. split; [reflexivity|].
  constructor; [|exact R1|exact R2]. exists (hex_zeros 10 (l_off a)), (show_Z (l_code a)), (get_tag_name (l_tag a)), (show_Z (l_children a)).
  split; [apply hex_zeros_number; [lia|assumption]|]. split; [apply show_Z_written|]. split; [apply tag_shown|]. split; [apply show_Z_written|]. unfold entry_line. now rewrite E1, E2, E3, E4.
Qed.

Section Abbrevs.
  Variables (e : xelf) (names : list str) (abb : list Z).
  Hypothesis NS : named_sections e names.
  Hypothesis SA : section_is e names (list_ascii_of_string ".debug_abbrev") abb.
  Lemma table_done c c' b t : cu_like c c' -> 0 <= cu_abbrev_offset c -> abbrevs_of abb (c, b) t ->
    exists ls, (having l <- lift (located_table e c'); each (fun a => having _ <- say (entry_line a); each (fun p => say (spec_line p)) (l_attrs a)) l) = (ls, Ok tt) /\ entry_lines t ls.
  Proof.
    intros (d & ->) P (l & A & O). cbn [fst] in A, O. unfold located_table. destruct (section_lookup _ _ _ _ NS SA) as (s & LA & DA). rewrite LA. cbn [bind]. rewrite DA. cbn [bind with_die cu_abbrev_offset].
    destruct (located_abbrevs_enc _ _ _ A (S (length abb)) (xe_big e) abb O) as (t' & E & F); [pose proof (occurs_off _ _ _ O); unfold blen in *; lia|].
    rewrite E, lift_then. exact (entries_done _ _ F (abbrevs_at_placed _ _ _ A P)).
  Qed.
  Lemma abbrev_units_done us : forall off rest ts cs i, units_enc (xe_big e) off us rest -> 0 <= off -> Forall2 (abbrevs_of abb) us ts -> Forall2 cu_like (map fst us) cs ->
    exists lines, each_from (fun idx c => having _ <- say (unit_line idx c); having l <- lift (located_table e c);
      each (fun a => having _ <- say (entry_line a); each (fun p => say (spec_line p)) (l_attrs a)) l) (Z.of_nat i) cs = (lines, Ok tt) /\
      abbrev_lines i (combine (map fst us) ts) lines.
  Proof.
    induction us as [|(c, b) us IH]; intros off rest ts cs i U P A C.
    - inversion A; subst. inversion C; subst. exists []. split; [reflexivity|constructor].
    - cbn [map fst] in C. inversion A as [|? t ? ts' A1 A2]; subst. inversion C as [|? c' ? cs' C1 C2]; subst. inversion U as [|? ? ? l ? rest' CO U1 U2]; subst.
      assert (P1 : 0 <= cu_abbrev_offset c) by (destruct U1 as [? ? ? AF]; destruct AF; lia).
      destruct (table_done c c' b t C1 P1 A1) as (l1 & E1 & R1).
      destruct (IH (cu_offset c + blen l) rest' ts' cs' (S i)) as (l2 & E2 & R2); [exact U2|pose proof (blen_nonneg l); lia|exact A2|exact C2|].
      cbn [each_from]. rewrite say_then, E1. unfold and_then at 1. cbn [fst snd]. replace (Z.of_nat i + 1) with (Z.of_nat (S i)) by lia. rewrite E2. eexists. split; [reflexivity|].
      cbn [map fst combine]. constructor; [|exact R1|exact R2]. destruct C1 as (d & ->).
      exists (hex_zeros 10 (cu_abbrev_offset c)), (show_Z (Z.of_nat i)), (hex_zeros 10 (cu_offset c)). split; [apply hex_zeros_number; [lia|assumption]|]. split; [apply show_Z_written|]. split; [apply hex_zeros_number; [lia|assumption]|reflexivity].
  Qed.
End Abbrevs.
Lemma abbrevs_done file e names info abb us ts o : elf_init file = Ok e ->
  named_sections e names -> section_is e names (list_ascii_of_string ".debug_info") info -> section_is e names (list_ascii_of_string ".debug_abbrev") abb ->
  units_enc (xe_big e) 0 us info -> Forall2 (abbrevs_of abb) us ts -> o_debug o = Some DebugAbbrev ->
  exists lines, elf_program o file = (lines, Ok tt) /\ abbrev_lines 0 (combine (map fst us) ts) lines.
Proof.
  intros I NS SI SA U A D. unfold elf_program. rewrite I, lift_then, D. unfold dump_abbrev_table.
  destruct (CUs_any _ names info us NS SI U) as (cs & E & C). rewrite E, lift_then.
  exact (abbrev_units_done _ names abb NS SA us 0 info ts cs 0 U (Z.le_refl 0) A C).
Qed.

(** ** sections and symbols *)
Lemma sections_listed is64 big file h phs shs e names o : elf_image is64 big file h phs shs -> elf_init file = Ok e -> named_sections e names ->
  o_debug o = None -> o_symbols o = false -> o_sections o = true ->
  exists lines, elf_program o file = (section_titles :: lines, Ok tt) /\ rows section_row (combine shs names) lines.
Proof. intros I E. rewrite (elf_init_image _ _ _ _ _ _ I) in E. injection E as <-. intros NS. exact (sections_done is64 big file h phs shs I names o NS). Qed.
Lemma nothing_listed is64 big file h phs shs : elf_image is64 big file h phs shs -> elf_program (Options false false None) file = ([], Ok tt).
Proof. intros I. unfold elf_program. rewrite (elf_init_image _ _ _ _ _ _ I), lift_then. reflexivity. Qed.
Lemma sym_nonneg is64 y : sym_ok is64 y -> 0 <= x_value y /\ 0 <= x_shndx y.
Proof. unfold sym_ok, xfits, fits. intros H. destruct H as (_ & _ & _ & H1 & H2 & _). split; [exact (proj1 H2)|exact (proj1 H1)]. Qed.
Lemma syms_nonneg is64 big file shs ls : Forall2 (symtab_image is64 big file) (filter is_symtab shs) ls -> Forall (fun y => 0 <= x_value y /\ 0 <= x_shndx y) (concat ls).
Proof.
  induction 1 as [|s l ss ls S F IH]; [constructor|]. cbn [concat]. apply Forall_app. split; [|exact IH]. eapply Forall_impl; [|exact (st_syms _ _ _ _ _ S)]. intros y. apply sym_nonneg.
Qed.
Lemma Forall2_combine {A B} (R : A -> B -> Prop) l m : Forall2 R l m -> forall p, In p (combine l m) -> R (fst p) (snd p).
Proof. induction 1 as [|a b l m H F IH]; intros p I; [destruct I|]. destruct I as [<-|I]; [exact H|now apply IH]. Qed.
Lemma map_fst_combine {A B} (l : list A) (m : list B) : length l = length m -> map fst (combine l m) = l.
Proof. revert m. induction l as [|a l IH]; intros [|b m] L; try discriminate L; [reflexivity|]. cbn [combine map fst]. f_equal. apply IH. now injection L. Qed.

Lemma symbols_listed is64 big file h phs shs ls e names ns o : elf_image is64 big file h phs shs -> elf_init file = Ok e -> named_sections e names ->
  Forall2 (symtab_image is64 big file) (filter is_symtab shs) ls ->
  Forall2 (symbol_named e) (concat ls) ns -> Forall usual (concat ls) ->
  o_debug o = None -> o_symbols o = true ->
  exists lines, elf_program o file = (symbol_titles :: lines, Ok tt) /\
    rows (symbol_row names) (map (fun yn => (yn, None)) (combine (concat ls) ns)) lines.
Proof.
  intros I E NS F N U D S. pose proof (symbols_image _ _ _ _ _ _ _ _ I F E) as Y. unfold elf_program. rewrite E, lift_then, D, S. unfold dump_symbol_table. rewrite Y, lift_then.
  pose proof (syms_nonneg _ _ _ _ _ F) as P. rewrite (elf_init_image _ _ _ _ _ _ I) in E. injection E as <-.
  replace (map (fun y : xsym => (y, @None str)) (concat ls)) with (map (fun ync : xsym * str * option str => (fst (fst ync), snd ync)) (map (fun yn => (yn, None)) (combine (concat ls) ns))).
  2:{ rewrite map_map. cbn [fst snd]. rewrite <- (map_fst_combine (concat ls) ns) at 2 by exact (Forall2_len _ _ _ N). now rewrite map_map. }
  apply (symbol_list_done is64 big file h phs shs names); [exact NS|]. apply Forall_forall. intros [[y n] c] J. apply List.in_map_iff in J. destruct J as ((y', n') & Q & J). injection Q as -> -> <-.
  pose proof (Forall2_combine _ _ _ N _ J) as Ny. cbn [fst snd] in Ny. apply in_combine_l in J. rewrite Forall_forall in P, U. destruct (P y J). auto.
Qed.

(** with the units *)
Lemma add_cus_wf e r : add_cus_to_symbols e = Ok r -> wf_dict r.
Proof.
  unfold add_cus_to_symbols. destruct (all_dies e) as [dies|]; [|discriminate]. cbn [bind]. destruct (symbols e) as [l|]; [|discriminate]. cbn [bind].
  assert (W : wf_dict (syms_by_address l)).
  { unfold syms_by_address. generalize (filter (fun y => negb (x_stsize y =? 0) && ((xsym_type y =? 2) || (xsym_type y =? 1)) && negb (x_shndx y =? 65521)) l). intros m.
    assert (G : forall (acc : dict Z (xsym * option str)), wf_dict acc -> wf_dict (fold_left (fun acc y => dset (x_value y) (y, None) acc) m acc)) by (induction m as [|y m IH]; intros acc W; [exact W|]; apply IH; now apply wf_dset).
    apply G, wf_nil. }
  revert W. generalize (syms_by_address l). generalize (map snd dies). intros ds. induction ds as [|d ds IH]; intros s W H; cbn [foldM] in H; [now injection H as <-|].
  unfold add_cu at 1 in H. destruct (die_address e (fst d)) as [[z|]|]; cbn [bind] in H; [|now apply (IH s)|discriminate H].
  destruct (dget z s) as [(y, c)|]; [|now apply (IH s)]. destruct (get_cu_name e dies d) as [n|]; cbn [bind] in H; [|discriminate H]. apply (IH (dset z (y, Some n) s)); [now apply wf_dset|exact H].
Qed.
Lemma pick_names e (r : list (xsym * option str)) : Forall (fun yc => exists n, symbol_named e (fst yc) n) r ->
  exists l : list (xsym * str * option str), map (fun ync => (fst (fst ync), snd ync)) l = r /\ Forall (fun ync => symbol_named e (fst (fst ync)) (snd (fst ync))) l.
Proof.
  induction 1 as [|(y, c) r (n & N) F (l & E & G)]; [exists []; split; [reflexivity|constructor]|]. exists ((y, n, c) :: l). cbn [map fst snd]. rewrite E. split; [reflexivity|now constructor].
Qed.
Lemma files_listed is64 big file h phs shs ls e names us o : elf_image is64 big file h phs shs -> elf_init file = Ok e ->
  Forall2 (symtab_image is64 big file) (filter is_symtab shs) ls ->
  Forall (fun y => usual y /\ exists n, symbol_named e y n) (concat ls) ->
  debug_image e names us -> ordinary e names us -> o_debug o = Some DebugFiles ->
  exists lines l, elf_program o file = (symbol_titles :: lines, Ok tt) /\ rows (symbol_row names) l lines /\
    NoDup (map (fun ync => x_value (fst (fst ync))) l) /\
    (forall y n c, In (y, n, c) l -> symbol_named e y n /\ symbol_unit e names us (x_value y) c /\
      last_with (fun y' => candidate y' /\ x_value y' = x_value y) (concat ls) y) /\
    (forall y, In y (concat ls) -> candidate y -> In (x_value y) (map (fun ync => x_value (fst (fst ync))) l)).
Proof.
  intros I E F U D O Q. pose proof (symbols_image _ _ _ _ _ _ _ _ I F E) as Y. pose proof (syms_nonneg _ _ _ _ _ F) as P.
  destruct (add_cus_image _ _ _ _ D O Y) as (r & R & C). pose proof (add_cus_wf _ _ R) as W.
  assert (K : forall z y c, In (z, (y, c)) r -> x_value y = z /\ In y (concat ls) /\ last_with (fun y' => candidate y' /\ x_value y' = z) (concat ls) y /\ symbol_unit e names us z c).
  { intros z y c J. apply (In_dget (K:=Z)) in J; [|exact W]. specialize (C z). rewrite J in C. destruct C as (L & S). destruct L as (pre & post & L1 & (L2 & L3) & L4). split; [exact L3|].
    split; [rewrite L1; apply in_or_app; right; now left|]. split; [now exists pre, post|exact S]. }
  destruct (pick_names e (map snd r)) as (l & El & Fl).
  { apply Forall_forall. intros (y, c) J. apply List.in_map_iff in J. destruct J as ((z, yc) & <- & J). cbn [snd]. destruct yc as (y', c'). rewrite Forall_forall in U. exact (proj2 (U _ (proj1 (proj2 (K _ _ _ J))))). }
  assert (V : map (fun ync => x_value (fst (fst ync))) l = map fst r).
  { transitivity (map (fun yc : xsym * option str => x_value (fst yc)) (map snd r)); [rewrite <- El, map_map; reflexivity|]. rewrite map_map. apply map_ext_in. intros (z, (y, c)) J. exact (proj1 (K _ _ _ J)). }
  assert (M : forall y n c, In (y, n, c) l -> In (x_value y, (y, c)) r).
  { intros y n c J. apply (in_map (fun ync => (fst (fst ync), snd ync))) in J. rewrite El in J. cbn [fst snd] in J. apply List.in_map_iff in J. destruct J as ((z, yc) & Eq & J). cbn [snd] in Eq. subst yc. now rewrite (proj1 (K _ _ _ J)). }
  unfold elf_program. rewrite E, lift_then, Q. unfold dump_symbol_cu. rewrite R, lift_then, <- El. pose proof (di_names _ _ _ D) as NS.
  assert (G : Forall (fun ync : xsym * str * option str => let '(y, n, c) := ync in 0 <= x_value y /\ 0 <= x_shndx y /\ usual y /\ symbol_named e y n) l).
  { apply Forall_forall. intros [[y n] c] J. rewrite Forall_forall in Fl, P, U. pose proof (Fl _ J) as Nm. cbn [fst snd] in Nm. apply M in J. destruct (K _ _ _ J) as (_ & Iy & _). destruct (P _ Iy). destruct (U _ Iy). auto. }
  assert (X : exists lines, dump_symbol_list (Some e) e (map (fun ync => (fst (fst ync), snd ync)) l) = (symbols_header :: lines, Ok tt) /\ rows (symbol_row names) l lines).
  { pose proof E as E'. rewrite (elf_init_image _ _ _ _ _ _ I) in E'. injection E' as <-. exact (symbol_list_done is64 big file h phs shs names l NS G). }
  destruct X as (lines & X1 & X2). exists lines, l. split; [exact X1|]. split; [exact X2|]. rewrite V. split; [exact W|]. split.
  - intros y n c J. rewrite Forall_forall in Fl. pose proof (Fl _ J) as Nm. cbn [fst snd] in Nm. apply M in J. destruct (K _ _ _ J) as (_ & _ & K1 & K2). auto.
  - intros y J Cy. specialize (C (x_value y)). destruct (dget (x_value y) r) as [(y', c)|] eqn:Dg; [apply dget_In in Dg; exact (in_map fst _ _ Dg)|].
    rewrite Forall_forall in C. destruct (C y J). now split.
Qed.
