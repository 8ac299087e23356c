From Coq Require Import Ascii String List ZArith Lia Bool.
From Verif Require Import Base MemMap SpecTree Pipeline SpecPipe ProofRegions.
Import ListNotations.
Open Scope list_scope.
Open Scope Z_scope.

Lemma region_at_some regions a r : region_at regions a = Some r -> In r regions /\ in_region r a.
Proof.
  unfold region_at, in_region. intros E. apply find_some in E. destruct E as [I E]. split; [exact I|].
  destruct (Z.ltb_spec a (sr_origin r)), (Z.leb_spec (sr_origin r + sr_length r) a); simpl in E; try discriminate. lia.
Qed.
Lemma region_at_none regions a : region_at regions a = None -> forall r, In r regions -> ~ in_region r a.
Proof.
  unfold region_at, in_region. intros E r I L. pose proof (find_none _ _ E r I) as H. cbv beta in H.
  destruct (Z.ltb_spec a (sr_origin r)), (Z.leb_spec (sr_origin r + sr_length r) a); simpl in H; try discriminate; lia.
Qed.

Definition rends (regions : list sregion) := map (fun r => sr_origin r + sr_length r) regions.
Definition left_rends regions a : nat := length (filter (fun e => Z.ltb a e) (rends regions)).

Lemma left_rends_max regions a : (left_rends regions a <= length regions)%nat.
Proof.
  unfold left_rends, rends. induction regions as [|r l IH]; simpl; [lia|]. destruct (a <? _); simpl; lia.
Qed.

(** an additive measure of input sections is conserved by cutting *)
Definition additive (F : isection -> Z) : Prop :=
  forall cut i, zsumf F (fst (split_isec cut i)) + zsumf F (snd (split_isec cut i)) = F i.

Lemma cut_conserves F cut s : additive F ->
  zsumf F (o_isecs (fst (cut_section cut s))) + zsumf F (o_isecs (snd (cut_section cut s))) = zsumf F (o_isecs s).
Proof.
  intros H. unfold cut_section. cbn [fst snd o_isecs]. rewrite !zsumf_flat_map, <- zsumf_plus.
  apply zsumf_ext. intros i _. apply H.
Qed.

Definition cut_keeps (P : osection -> Prop) : Prop :=
  forall cut s, o_addr s < cut < o_addr s + o_size s -> P s -> P (fst (cut_section cut s)) /\ P (snd (cut_section cut s)).

Lemma split_section_ok regions : forall fuel s, (left_rends regions (o_addr s) < fuel)%nat ->
  exists ps, split_section fuel regions s = Ok ps /\
    section_parts regions s ps /\
    (forall F, additive F -> zsumf (fun p => zsumf F (o_isecs p)) ps = zsumf F (o_isecs s)) /\
    (forall P, cut_keeps P -> P s -> Forall P ps).
Proof.
  induction fuel as [|fuel IH]; intros s L; [lia|]. cbn [split_section].
  destruct (region_at regions (o_addr s)) as [r|] eqn:R.
  - pose proof R as R'. apply region_at_some in R'. destruct R' as [Ir [Ra Rb]].
    destruct (Z.leb_spec (o_addr s + o_size s) (sr_origin r + sr_length r)) as [Fit|NFit].
    + exists [s]. split; [reflexivity|]. split; [|split].
      * split; [apply sect_tiles_cons; constructor|]. constructor; [|constructor]. split; [reflexivity|]. left. exists r.
        unfold in_region. auto.
      * intros F _. rewrite zsumf_cons, zsumf_nil. lia.
      * intros P _ HP. constructor; [exact HP|constructor].
    + set (cut := sr_origin r + sr_length r) in *.
      destruct (IH (snd (cut_section cut s))) as (ps & E & (T & Fa) & C & K).
      { cbn [cut_section snd o_addr]. unfold left_rends in *.
        pose proof (filter_lt_strict (rends regions) (o_addr s) cut) as Hs.
        assert (In cut (rends regions)) by (apply in_map_iff; exists r; auto). specialize (Hs Rb H). lia. }
      rewrite E. exists (fst (cut_section cut s) :: ps). split; [reflexivity|]. split; [|split].
      * cbn [cut_section snd o_addr o_size] in T.
        split.
        -- assert (T1 : sect_tiles (o_addr (fst (cut_section cut s))) (o_addr s + o_size s) (fst (cut_section cut s) :: ps)).
           { apply sect_tiles_cons. cbn [cut_section fst o_addr o_size].
             replace (o_addr s + (cut - o_addr s)) with cut by lia.
             replace (o_addr s + o_size s) with (cut + (o_size s - (cut - o_addr s))) by lia. exact T. }
           exact T1.
        -- constructor; [|exact Fa]. split; [reflexivity|]. left. exists r. cbn [cut_section fst o_addr o_size].
           unfold in_region. split; [exact Ir|]. lia.
      * intros F HF. rewrite zsumf_cons, (C F HF). apply cut_conserves, HF.
      * intros P HP Ps. destruct (HP cut s) as [P1 P2]; [lia|exact Ps|]. constructor; [exact P1|apply K; assumption].
  - exists [s]. split; [reflexivity|]. split; [|split].
    + split; [apply sect_tiles_cons; constructor|]. constructor; [|constructor]. split; [reflexivity|]. right.
      apply region_at_none. exact R.
    + intros F _. rewrite zsumf_cons, zsumf_nil. lia.
    + intros P _ HP. constructor; [exact HP|constructor].
Qed.

Lemma section_fuel_enough regions a : (left_rends regions a < section_fuel regions)%nat.
Proof. unfold section_fuel. pose proof (left_rends_max regions a). lia. Qed.

Definition parts_of (regions : list sregion) (s : osection) (ps : list osection) : Prop :=
  section_parts regions s ps /\
  (forall F, additive F -> zsumf (fun p => zsumf F (o_isecs p)) ps = zsumf F (o_isecs s)) /\
  (forall P, cut_keeps P -> P s -> Forall P ps).

Lemma split_map_ok sections regions :
  exists groups, split_map_sections (section_fuel regions) sections regions = Ok (concat groups) /\
    Forall2 (parts_of regions) (rev sections) groups.
Proof.
  unfold split_map_sections.
  assert (H : forall l, exists groups, mapM (split_section (section_fuel regions) regions) l = Ok groups /\
                        Forall2 (parts_of regions) l groups).
  { induction l as [|s l (gs & E & F)].
    - exists []. split; [reflexivity|constructor].
    - destruct (split_section_ok regions (section_fuel regions) s (section_fuel_enough _ _)) as (ps & E1 & H).
      exists (ps :: gs). cbn [mapM]. rewrite E1. cbn [bind]. rewrite E. split; [reflexivity|]. constructor; assumption. }
  destruct (H (rev sections)) as (gs & E & F). exists gs. rewrite E. auto.
Qed.

(** ** measures *)

Lemma additive_if (p : isection -> bool) (F : isection -> Z) :
  (forall cut i j, In j (fst (split_isec cut i)) \/ In j (snd (split_isec cut i)) -> p j = p i) ->
  additive F -> additive (fun i => if p i then F i else 0).
Proof.
  intros Hp HF cut i. specialize (HF cut i).
  rewrite (zsumf_ext (fun i0 => if p i0 then F i0 else 0) (fun i0 => if p i then F i0 else 0) (fst (split_isec cut i))) by
    (intros j I; rewrite (Hp cut i j) by auto; reflexivity).
  rewrite (zsumf_ext (fun i0 => if p i0 then F i0 else 0) (fun i0 => if p i then F i0 else 0) (snd (split_isec cut i))) by
    (intros j I; rewrite (Hp cut i j) by auto; reflexivity).
  destruct (p i); [exact HF|]. rewrite !zsumf_zero by reflexivity. reflexivity.
Qed.

Lemma split_isec_fields cut i j : In j (fst (split_isec cut i)) \/ In j (snd (split_isec cut i)) ->
  i_archive j = i_archive i /\ i_object j = i_object i /\ i_name j = i_name i.
Proof.
  unfold split_isec. destruct (_ <=? cut); [|destruct (cut <? _)]; cbn [fst snd];
    intros [I|I]; simpl in I; try contradiction; destruct I as [<-|[]]; auto.
Qed.

Lemma additive_size : additive i_size.
Proof.
  intros cut i. unfold split_isec. destruct (_ <=? cut); [|destruct (cut <? _)]; cbn [fst snd];
    rewrite ?zsumf_cons, ?zsumf_nil; cbn [i_size]; lia.
Qed.
Lemma additive_fill : additive i_fill.
Proof.
  intros cut i. unfold split_isec. destruct (_ <=? cut); [|destruct (cut <? _)]; cbn [fst snd];
    rewrite ?zsumf_cons, ?zsumf_nil; cbn [i_fill]; lia.
Qed.
Lemma split_symbols_sum cut y l :
  zsumf sy_size (filter (fun s => sy_name s =?= y) (fst (split_symbols cut l))) +
  zsumf sy_size (filter (fun s => sy_name s =?= y) (snd (split_symbols cut l))) =
  zsumf sy_size (filter (fun s => sy_name s =?= y) l).
Proof.
  unfold split_symbols. cbn [fst snd]. rewrite !zsumf_filter, !zsumf_flat_map, <- zsumf_plus.
  apply zsumf_ext. intros s _. unfold split_symbol.
  destruct (_ <=? cut); [|destruct (cut <? _)]; cbn [fst snd]; rewrite ?zsumf_cons, ?zsumf_nil; cbn [sy_name sy_size];
    destruct (sy_name s =?= y); lia.
Qed.
Lemma additive_symbols y : additive (fun i => zsumf sy_size (filter (fun s => sy_name s =?= y) (i_symbols i))).
Proof.
  intros cut i. unfold split_isec. destruct (_ <=? cut); [|destruct (cut <? _)]; cbn [fst snd];
    rewrite ?zsumf_cons, ?zsumf_nil; cbn [i_symbols]; try lia.
  pose proof (split_symbols_sum cut y (i_symbols i)). lia.
Qed.

Lemma additive_object F a o : additive F ->
  additive (fun i => if (i_archive i =?= a) && (i_object i =?= o) then F i else 0).
Proof.
  intros H. apply additive_if; [|exact H]. intros cut i j I. apply split_isec_fields in I. destruct I as (-> & -> & _). reflexivity.
Qed.

Lemma Forall2_weaken {A B} (P Q : A -> B -> Prop) : (forall a b, P a b -> Q a b) ->
  forall l l', Forall2 P l l' -> Forall2 Q l l'.
Proof. intros H l l' F. induction F; constructor; auto. Qed.

(** C14, C15 *)
Lemma split_conserves sections regions :
  exists groups, split_map_sections (section_fuel regions) sections regions = Ok (concat groups) /\
    Forall2 (fun s ps => section_parts regions s ps /\
      (forall a o, zsumf (fun p => object_bytes a o (o_isecs p)) ps = object_bytes a o (o_isecs s)) /\
      (forall a, zsumf (fun p => archive_bytes a (o_isecs p)) ps = archive_bytes a (o_isecs s)) /\
      (forall a o, zsumf (fun p => object_padding a o (o_isecs p)) ps = object_padding a o (o_isecs s)) /\
      (forall a o y, zsumf (fun p => symbol_bytes a o y (o_isecs p)) ps = symbol_bytes a o y (o_isecs s)))
      (rev sections) groups.
Proof.
  destruct (split_map_ok sections regions) as (gs & E & F). exists gs. split; [exact E|].
  eapply Forall2_weaken; [|exact F]. intros s ps (H1 & H2 & _). split; [exact H1|].
  split; [|split; [|split]].
  - intros a o. unfold object_bytes. rewrite zsumf_filter, <- (H2 _ (additive_object _ a o additive_size)).
    apply zsumf_ext. intros p _. apply zsumf_filter.
  - intros a. unfold archive_bytes. rewrite zsumf_filter.
    assert (A : additive (fun i => if i_archive i =?= a then i_size i else 0)).
    { apply additive_if; [|exact additive_size]. intros cut i j I. apply split_isec_fields in I. destruct I as (-> & _). reflexivity. }
    rewrite <- (H2 _ A). apply zsumf_ext. intros p _. apply zsumf_filter.
  - intros a o. unfold object_padding. rewrite zsumf_filter, <- (H2 _ (additive_object _ a o additive_fill)).
    apply zsumf_ext. intros p _. apply zsumf_filter.
  - intros a o y. unfold symbol_bytes. rewrite zsumf_filter, <- (H2 _ (additive_object _ a o (additive_symbols y))).
    apply zsumf_ext. intros p _. apply zsumf_filter.
Qed.

(** C16 *)
Lemma split_symbol_inside cut i y i1 i2 :
  symbol_inside i y -> 0 <= i_size i -> i_addr i <= cut < i_addr i + i_size i \/ i_addr i + i_size i <= cut ->
  i_addr i1 = i_addr i -> i_size i1 = Z.min (cut - i_addr i) (i_size i) ->
  i_addr i2 = cut -> i_size i2 = i_size i - i_size i1 ->
  Forall (symbol_inside i1) (fst (split_symbol cut y)) /\ Forall (symbol_inside i2) (snd (split_symbol cut y)).
Proof.
  unfold symbol_inside, split_symbol. intros (H1 & H2 & H3) S0 C A1 S1 A2 S2.
  destruct (Z.leb_spec (sy_addr y + sy_size y) cut); [|destruct (Z.ltb_spec cut (sy_addr y))]; cbn [fst snd];
    split; repeat constructor; cbn [sy_addr sy_size]; lia.
Qed.

Lemma cut_keeps_inside : cut_keeps content_inside.
Proof.
  intros cut s C H. unfold content_inside in *.
  assert (HI : forall i, isec_inside s i ->
    Forall (isec_inside (fst (cut_section cut s))) (fst (split_isec cut i)) /\
    Forall (isec_inside (snd (cut_section cut s))) (snd (split_isec cut i))).
  { intros i (H1 & H2 & H3 & H4 & H5). unfold split_isec, isec_inside, cut_section.
    destruct (Z.leb_spec (i_addr i + i_size i + i_fill i) cut); [|destruct (Z.ltb_spec cut (i_addr i))]; cbn [fst snd o_addr o_size].
    - split; repeat constructor; try lia. exact H5.
    - split; repeat constructor; try lia. exact H5.
    - set (i1 := ISection _ (i_addr i) _ _ _ _ _). set (i2 := ISection _ cut _ _ _ _ _).
      assert (HS : Forall (symbol_inside i1) (fst (split_symbols cut (i_symbols i))) /\
                   Forall (symbol_inside i2) (snd (split_symbols cut (i_symbols i)))).
      { unfold split_symbols. cbn [fst snd]. rewrite !Forall_flat_map.
        rewrite Forall_forall in H5. split; apply Forall_forall; intros y Iy;
          destruct (split_symbol_inside cut i y i1 i2) as [X1 X2]; try assumption; try reflexivity; auto; lia. }
      destruct HS as [HS1 HS2].
      split; repeat constructor; try exact HS1; try exact HS2; cbn [i1 i2 i_addr i_size i_fill]; lia. }
  rewrite Forall_forall in H. cbn [cut_section fst snd o_isecs]. rewrite !Forall_flat_map.
  split; apply Forall_forall; intros i I; destruct (HI i (H i I)) as [H1 H2]; assumption.
Qed.

Lemma split_inside sections regions parts :
  split_map_sections (section_fuel regions) sections regions = Ok parts ->
  Forall content_inside sections -> Forall content_inside parts.
Proof.
  intros E H. destruct (split_map_ok sections regions) as (gs & E' & F). rewrite E in E'. injection E' as ->.
  apply Forall_rev in H. clear E. revert F H. generalize (rev sections). intros l F.
  induction F as [|s ps l' gs' (_ & _ & K) F IH]; simpl; intros H; [constructor|].
  inversion H; subst. apply Forall_app. split; [apply K; [exact cut_keeps_inside|assumption]|auto].
Qed.

Lemma split_tiles sections regions :
  exists groups, split_map_sections (section_fuel regions) sections regions = Ok (concat groups) /\
    Forall2 (section_parts regions) (rev sections) groups.
Proof.
  destruct (split_map_ok sections regions) as (gs & E & F). exists gs. split; [exact E|].
  eapply Forall2_weaken; [|exact F]. intros s ps (H & _). exact H.
Qed.
