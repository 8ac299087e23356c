From Coq Require Import Ascii String List ZArith Lia Bool.
From Verif Require Import Base MemMap SpecTree Pipeline SpecPipe.
Import ListNotations.
Open Scope list_scope.
Open Scope Z_scope.

Lemma type_base_ok t a b : type_base t a = Some b ->
  window t b (b + ct_length t) /\ b <= a < b + ct_length t.
Proof.
  unfold type_base, window. intros E.
  destruct (Z.leb_spec (ct_primary t) a), (Z.ltb_spec a (ct_primary t + ct_length t)); simpl in E;
  try (injection E as <-; split; [left; auto|lia]);
  (destruct (Z.eqb_spec (ct_secondary t) 0) as [|N]; simpl in E; [discriminate|];
   destruct (Z.leb_spec (ct_secondary t) a), (Z.ltb_spec a (ct_secondary t + ct_length t)); simpl in E; try discriminate;
   injection E as <-; split; [right; auto|lia]).
Qed.

Lemma type_base_none t a : type_base t a = None -> ~ covers t a.
Proof.
  unfold type_base, covers, window. intros E (lo & hi & [[-> ->]|(N & -> & ->)] & L);
  destruct (Z.leb_spec (ct_primary t) a), (Z.ltb_spec a (ct_primary t + ct_length t)); simpl in E; try discriminate; try lia;
  (destruct (Z.eqb_spec (ct_secondary t) 0); simpl in E; try congruence; try lia);
  destruct (Z.leb_spec (ct_secondary t) a), (Z.ltb_spec a (ct_secondary t + ct_length t)); simpl in E; try discriminate; lia.
Qed.

Lemma find_type_ok types a t b : find_type types a = Some (t, b) ->
  first_covering types a t /\ window t b (b + ct_length t) /\ b <= a < b + ct_length t.
Proof.
  induction types as [|u types IH]; simpl; intros E; [discriminate|].
  destruct (type_base u a) as [b'|] eqn:B.
  - injection E as <- <-. apply type_base_ok in B. split; [|exact B].
    exists [], types. split; [reflexivity|]. split; [|intros ? []]. exists b', (b' + ct_length u). exact B.
  - destruct (IH E) as ((l1 & l2 & -> & C & N) & H). split; [|exact H].
    exists (u :: l1), l2. split; [reflexivity|]. split; [exact C|].
    intros v [<-|I]; [apply type_base_none; assumption|apply N; assumption].
Qed.

Lemma find_type_none types a : find_type types a = None <-> ~ covered types a.
Proof.
  split.
  - induction types as [|u types IH]; simpl; intros E (t & I & C); [destruct I|].
    destruct (type_base u a) eqn:B; [discriminate|]. destruct I as [<-|I].
    + apply type_base_none in B. contradiction.
    + apply IH; [assumption|]. exists t. auto.
  - intros N. destruct (find_type types a) as [[t b]|] eqn:E; [|reflexivity].
    exfalso. apply N. apply find_type_ok in E. destruct E as ((l1 & l2 & -> & C & _) & _).
    exists t. split; [apply in_or_app; right; left; reflexivity|exact C].
Qed.

Lemma first_covering_In types a t : first_covering types a t -> In t types.
Proof. intros (l1 & l2 & -> & _). apply in_or_app. right. left. reflexivity. Qed.

(** the loop never ends once a non-empty rest is matched by its end *)
Lemma split_stuck fuel types r origin len acc s :
  find_type types origin = None -> len <> 0 ->
  find (fun s => origin + len =? sr_origin s + sr_length s) acc = Some s ->
  split_region fuel types r origin len acc = Err OutOfFuel.
Proof.
  revert acc s. induction fuel as [|fuel IH]; intros acc s E N F; [reflexivity|].
  simpl. rewrite E, F. destruct (Z.eqb_spec len 0); [contradiction|].
  apply IH with (s := s); auto.
  clear IH. induction acc as [|x acc IHa]; simpl in *; [discriminate|].
  destruct (origin + len =? sr_origin x + sr_length x); auto.
Qed.

(** window ends beyond an address bound the number of rounds *)
Definition ends (types : list chip_type) : list Z :=
  flat_map (fun t => [ct_primary t + ct_length t; ct_secondary t + ct_length t]) types.
Definition left_ends (types : list chip_type) (a : Z) : nat := length (filter (fun e => a <? e) (ends types)).

Lemma ends_length types : length (ends types) = (2 * length types)%nat.
Proof. induction types as [|t types IH]; simpl; [reflexivity|]. rewrite IH. lia. Qed.

Lemma filter_lt (l : list Z) a b : a <= b ->
  (length (filter (fun e => Z.ltb b e) l) <= length (filter (fun e => Z.ltb a e) l))%nat.
Proof.
  intros L. induction l as [|x l IH]; simpl; [lia|].
  destruct (Z.ltb_spec b x), (Z.ltb_spec a x); simpl; lia.
Qed.
Lemma filter_lt_strict (l : list Z) a b : a < b -> In b l ->
  (length (filter (fun e => Z.ltb b e) l) < length (filter (fun e => Z.ltb a e) l))%nat.
Proof.
  intros L. induction l as [|x l IH]; simpl; intros I; [contradiction|].
  assert (Hf := filter_lt l a b). destruct I as [->|I].
  - destruct (Z.ltb_spec b b); [lia|]. destruct (Z.ltb_spec a b); [|lia]. simpl. specialize (Hf ltac:(lia)). lia.
  - specialize (IH I). destruct (Z.ltb_spec b x), (Z.ltb_spec a x); simpl; lia.
Qed.

Lemma left_ends_step types a t b :
  In t types -> window t b (b + ct_length t) -> b <= a < b + ct_length t ->
  (left_ends types (b + ct_length t) < left_ends types a)%nat.
Proof.
  intros I W L. apply filter_lt_strict; [lia|]. unfold ends. apply in_flat_map. exists t. split; [assumption|].
  destruct W as [[-> _]|(_ & -> & _)]; simpl; auto.
Qed.

Lemma left_ends_max types a : (left_ends types a <= 2 * length types)%nat.
Proof.
  unfold left_ends. rewrite <- ends_length.
  induction (ends types) as [|x l IH]; simpl; [lia|]. destruct (a <? x); simpl; lia.
Qed.

Lemma tiles_app a b c ps qs : tiles a b ps -> tiles b c qs -> tiles a c (ps ++ qs).
Proof. intros H. induction H; simpl; intros Q; [assumption|]. constructor. auto. Qed.

Definition part_ok types (r : region) (p : sregion) : Prop :=
  part_inside p /\ In (sr_type p) types /\ sr_name p = r_name r /\ sr_attrs p = r_attrs r /\
  0 <= sr_length p /\ (0 < sr_length p -> first_covering types (sr_origin p) (sr_type p) /\ part_whole r p).
Definition acc_ok types (acc : list sregion) : Prop := Forall (fun p => part_inside p /\ In (sr_type p) types /\ 0 <= sr_length p) acc.

(** both outcomes of the loop, with fuel for all window ends *)
Lemma split_region_outcome types r : forall fuel origin len acc,
  0 <= len -> r_origin r + r_length r = origin + len -> acc_ok types acc -> (left_ends types origin < fuel)%nat ->
  (exists ps stop,
     split_region fuel types r origin len acc = Ok (acc ++ ps) /\
     (forall fuel', split_region fuel' types r origin len acc = Ok (acc ++ ps) \/
                    split_region fuel' types r origin len acc = Err OutOfFuel) /\
     tiles origin stop ps /\ Forall (part_ok types r) ps /\
     (forall a, origin <= a < stop -> covered types a) /\
     (stop = origin + len \/
      (origin <= stop < origin + len /\ ~ covered types stop /\
       ~ exists p, In p acc /\ sr_origin p + sr_length p = origin + len))) \/
  ((forall fuel', split_region fuel' types r origin len acc = Err OutOfFuel) /\
   exists stop, origin <= stop < origin + len /\ (forall a, origin <= a < stop -> covered types a) /\
     ~ covered types stop /\ exists p, In p acc /\ sr_origin p + sr_length p = origin + len).
Proof.
  induction fuel as [|fuel IH]; intros origin len acc L Re A F; [lia|].
  destruct (find_type types origin) as [[t b]|] eqn:E.
  - pose proof E as E'. apply find_type_ok in E'. destruct E' as (Fc & W & B).
    set (used := Z.min len (ct_length t - (origin - b))).
    set (p := SRegion (r_name r) origin used (r_attrs r) t).
    assert (Hu : 0 <= used <= len) by (unfold used; lia).
    assert (Pok : part_ok types r p).
    { unfold part_ok, p; cbn. split.
      - exists b, (b + ct_length t). cbn. split; [exact W|]. unfold used. lia.
      - split; [eapply first_covering_In; eauto|]. split; [reflexivity|]. split; [reflexivity|]. split; [lia|]. intros _. split; [exact Fc|]. exists b, (b + ct_length t). cbn. split; [exact W|]. unfold used. lia. }
    assert (Cov : forall a, origin <= a < origin + used -> covered types a).
    { intros a La. exists t. split; [eapply first_covering_In; eauto|]. exists b, (b + ct_length t). split; [exact W|].
      unfold used in La. lia. }
    destruct (Z.eqb_spec (len - used) 0) as [Z0|NZ].
    + left. exists [p], (origin + used). split; [|split; [|split; [|split; [|split]]]].
      * simpl. rewrite E. fold used. destruct (Z.eqb_spec (len - used) 0); [reflexivity|contradiction].
      * intros [|fuel']; [right; reflexivity|]. left. simpl. rewrite E. fold used.
        destruct (Z.eqb_spec (len - used) 0); [reflexivity|contradiction].
      * apply (tiles_cons p). constructor.
      * constructor; [exact Pok|constructor].
      * exact Cov.
      * left. lia.
    + assert (Eu : used = ct_length t - (origin - b)) by (unfold used in *; lia).
      assert (A' : acc_ok types (acc ++ [p])).
      { apply Forall_app. split; [exact A|]. constructor; [|constructor]. split; [apply Pok|]. cbn. split; [eapply first_covering_In; eauto|lia]. }
      assert (F' : (left_ends types (origin + used) < fuel)%nat).
      { rewrite Eu. replace (origin + (ct_length t - (origin - b))) with (b + ct_length t) by lia.
        pose proof (left_ends_step types origin t b (first_covering_In _ _ _ Fc) W B). lia. }
      assert (St : forall k, split_region (S k) types r origin len acc =
                             split_region k types r (origin + used) (len - used) (acc ++ [p])).
      { intros k. simpl. rewrite E. fold used. destruct (Z.eqb_spec (len - used) 0); [contradiction|]. reflexivity. }
      destruct (IH (origin + used) (len - used) (acc ++ [p]) ltac:(lia) ltac:(lia) A' F') as
        [(ps & stop & H1 & H2 & H3 & H4 & H5 & H6)|(H1 & stop & H2 & H3 & H4 & H5)].
      * left. exists (p :: ps), stop. rewrite <- app_assoc in H1. split; [|split; [|split; [|split; [|split]]]].
        -- rewrite St, H1. reflexivity.
        -- intros [|k]; [right; reflexivity|]. rewrite St. specialize (H2 k). rewrite <- app_assoc in H2. exact H2.
        -- apply (tiles_cons p). exact H3.
        -- constructor; assumption.
        -- intros a La. destruct (Z_lt_ge_dec a (origin + used)); [apply Cov; lia|apply H5; lia].
        -- destruct H6 as [->|(H6 & H7 & H8)]; [left; lia|]. right. split; [lia|]. split; [assumption|].
           intros (q & Iq & Eq). apply H8. exists q. split; [apply in_or_app; auto|lia].
      * right. split.
        -- intros [|k]; [reflexivity|]. rewrite St. apply H1.
        -- exists stop. split; [lia|]. split; [|split; [assumption|]].
           ++ intros a La. destruct (Z_lt_ge_dec a (origin + used)); [apply Cov; lia|apply H3; lia].
           ++ destruct H5 as (q & Iq & Eq). apply in_app_or in Iq. destruct Iq as [Iq|[<-|[]]].
              ** exists q. split; [assumption|lia].
              ** cbn in Eq. lia.
  - assert (NC : ~ covered types origin) by (apply find_type_none; exact E).
    destruct (find (fun s => origin + len =? sr_origin s + sr_length s) acc) as [s|] eqn:Fs.
    + destruct (Z.eq_dec len 0) as [->|N0].
      * left. pose proof Fs as Fs'. apply find_some in Fs'. destruct Fs' as [Is Es]. apply Z.eqb_eq in Es.
        set (p := SRegion (r_name r) origin 0 (r_attrs r) (sr_type s)).
        exists [p], origin. split; [|split; [|split; [|split; [|split]]]].
        -- cbn [split_region]. rewrite E, Fs. reflexivity.
        -- intros [|k]; [right; reflexivity|]. left. cbn [split_region]. rewrite E, Fs. reflexivity.
        -- replace origin with (sr_origin p + sr_length p) at 2 by (cbn; lia). apply (tiles_cons p). constructor.
        -- constructor; [|constructor]. unfold acc_ok in A. rewrite Forall_forall in A. destruct (A s Is) as [(lo & hi & W & L1 & L2) [It L0]].
           unfold part_ok, p; cbn. split; [|split; [exact It|]].
           ++ exists lo, hi. cbn. split; [exact W|]. lia.
           ++ repeat split; lia.
        -- intros a La. lia.
        -- left. lia.
      * right. split; [intros fuel'; eapply split_stuck; eauto|].
        exists origin. apply find_some in Fs. destruct Fs as [Is Es]. apply Z.eqb_eq in Es.
        split; [lia|]. split; [intros a La; lia|]. split; [assumption|]. exists s. split; [assumption|lia].
    + left. exists [], origin. rewrite app_nil_r. split; [|split; [|split; [|split; [|split]]]].
      * cbn [split_region]. rewrite E, Fs. reflexivity.
      * intros [|k]; [right; reflexivity|]. left. cbn [split_region]. rewrite E, Fs. reflexivity.
      * constructor.
      * constructor.
      * intros a La. lia.
      * destruct (Z.eq_dec len 0) as [->|]; [left; lia|]. right. split; [lia|]. split; [assumption|].
        intros (q & Iq & Eq). pose proof (find_none _ _ Fs q Iq) as Hn. cbv beta in Hn. apply Z.eqb_neq in Hn. lia.
Qed.

Lemma acc_ok_app types r acc ps : acc_ok types acc -> Forall (part_ok types r) ps -> acc_ok types (acc ++ ps).
Proof.
  intros A H. apply Forall_app. split; [exact A|]. eapply Forall_impl; [|exact H].
  intros p (H1 & H2 & _ & _ & H3 & _). auto.
Qed.

Lemma region_fuel_enough types a : (left_ends types a < region_fuel types)%nat.
Proof. unfold region_fuel. pose proof (left_ends_max types a). lia. Qed.

(** ** all regions *)

Definition srun fuel types acc regions : res (list sregion) :=
  foldM (fun acc r => split_region fuel types r (r_origin r) (r_length r) acc) acc regions.

Lemma srun_cons fuel types acc r regions :
  srun fuel types acc (r :: regions) =
  do a <- split_region fuel types r (r_origin r) (r_length r) acc; srun fuel types a regions.
Proof. reflexivity. Qed.

Lemma srun_outcome types : forall regions acc,
  Forall (fun r => 0 <= r_length r) regions -> acc_ok types acc ->
  (exists groups,
     srun (region_fuel types) types acc regions = Ok (acc ++ concat groups) /\
     Forall2 (region_parts types) regions groups /\ acc_ok types (acc ++ concat groups) /\
     (forall l1 r l2, regions = l1 ++ r :: l2 -> exists e,
        srun (region_fuel types) types acc l1 = Ok e /\ ~ blocked types e r)) \/
  ((forall fuel, srun fuel types acc regions = Err OutOfFuel) /\
   exists l1 r l2 e, regions = l1 ++ r :: l2 /\ srun (region_fuel types) types acc l1 = Ok e /\ blocked types e r).
Proof.
  induction regions as [|r regions IH]; intros acc L A.
  - left. exists []. simpl. rewrite app_nil_r. split; [reflexivity|]. split; [constructor|]. split; [exact A|].
    intros [|? l1] ? ? E; discriminate E.
  - inversion L as [|? ? Lr Lrs]; subst.
    destruct (split_region_outcome types r (region_fuel types) (r_origin r) (r_length r) acc Lr eq_refl A (region_fuel_enough _ _))
      as [(ps & stop & H1 & H2 & H3 & H4 & H5 & H6)|(H1 & stop & H2 & H3 & H4 & H5)].
    + destruct (IH (acc ++ ps) Lrs (acc_ok_app _ _ _ _ A H4)) as [(gs & G1 & G2 & G3 & G4)|(G1 & l1 & r' & l2 & e & G2 & G3 & G4)].
      * left. exists (ps :: gs). rewrite srun_cons, H1. cbn [bind concat]. rewrite app_assoc. split; [exact G1|]. split; [|split; [exact G3|]].
        -- constructor; [|exact G2]. exists stop. split; [exact H3|]. split; [exact H4|].
           destruct H6 as [H6|(H6 & H7 & _)]; auto.
        -- intros [|x l1] r0 l2 E; injection E as <- E.
           ++ exists acc. split; [reflexivity|]. intros (s' & B1 & B2 & B3 & B4).
              destruct H6 as [H6|(H6 & H7 & H8)].
              ** apply B3, H5. lia.
              ** contradiction.
           ++ destruct (G4 _ _ _ E) as (e & E1 & E2). exists e. split; [|exact E2]. rewrite srun_cons, H1. exact E1.
      * right. split.
        -- intros fuel. rewrite srun_cons. destruct (H2 fuel) as [->| ->]; [|reflexivity]. apply G1.
        -- exists (r :: l1), r', l2, e. split; [rewrite G2; reflexivity|]. split; [|exact G4]. rewrite srun_cons, H1. exact G3.
    + right. split.
      * intros fuel. rewrite srun_cons, H1. reflexivity.
      * exists [], r, regions, acc. split; [reflexivity|]. split; [reflexivity|]. exists stop. auto.
Qed.

(** C12 *)
Lemma split_regions_parts fuel types regions parts :
  Forall (fun r => 0 <= r_length r) regions ->
  split_memory_regions fuel regions types = Ok parts ->
  exists groups, parts = concat groups /\ Forall2 (region_parts types) regions groups.
Proof.
  intros L E. change (srun fuel types [] regions = Ok parts) in E.
  destruct (srun_outcome types regions [] L) as [(gs & G1 & G2 & _)|(G1 & _)].
  - constructor.
  - simpl in G1. exists gs. split; [|exact G2].
    assert (Hf : forall regions acc x y f g, srun f types acc regions = Ok x -> srun g types acc regions = Ok y -> x = y).
    { clear. induction regions as [|r regions IH]; intros acc x y f g E1 E2; [unfold srun in *; cbn [foldM] in *; congruence|].
      rewrite srun_cons in E1, E2.
      destruct (split_region f types r (r_origin r) (r_length r) acc) as [a1|] eqn:S1; [|discriminate E1].
      destruct (split_region g types r (r_origin r) (r_length r) acc) as [a2|] eqn:S2; [|discriminate E2]. cbn [bind] in E1, E2.
      assert (a1 = a2); [|subst; eapply IH; eauto].
      clear - S1 S2. revert S1 S2. generalize (r_origin r) (r_length r). revert g acc a1 a2.
      induction f as [|f IHf]; intros [|g] acc a1 a2 o l; simpl; try discriminate.
      destruct (find_type types o) as [[t b]|].
      - destruct (l - Z.min l (ct_length t - (o - b)) =? 0); [congruence|]. apply IHf.
      - destruct (find _ acc); [|congruence]. destruct (l =? 0); [congruence|]. apply IHf. }
    eapply Hf; eauto.
  - rewrite G1 in E. discriminate.
Qed.

(** C13 *)
Lemma split_regions_terminates types regions :
  Forall (fun r => 0 <= r_length r) regions ->
  (exists parts, split_memory_regions (region_fuel types) regions types = Ok parts) <->
  (forall l1 r l2 e, regions = l1 ++ r :: l2 ->
     split_memory_regions (region_fuel types) l1 types = Ok e -> ~ blocked types e r).
Proof.
  intros L. destruct (srun_outcome types regions [] L ltac:(constructor)) as [(gs & G1 & G2 & G3 & G4)|(G1 & l1 & r & l2 & e & G2 & G3 & G4)].
  - split; [|intros _; eexists; exact G1]. intros _ l1 r l2 e E E1. destruct (G4 _ _ _ E) as (e' & E2 & B).
    change (srun (region_fuel types) types [] l1 = Ok e) in E1. rewrite E2 in E1. injection E1 as ->. exact B.
  - split.
    + intros (parts & E). change (srun (region_fuel types) types [] regions = Ok parts) in E. rewrite G1 in E. discriminate.
    + intros H. exfalso. eapply H; eauto.
Qed.

Lemma split_regions_diverges types regions :
  Forall (fun r => 0 <= r_length r) regions ->
  split_memory_regions (region_fuel types) regions types = Err OutOfFuel ->
  forall fuel, split_memory_regions fuel regions types = Err OutOfFuel.
Proof.
  intros L E. destruct (srun_outcome types regions [] L ltac:(constructor)) as [(gs & G1 & _)|(G1 & _)]; [|exact G1].
  change (srun (region_fuel types) types [] regions = Err OutOfFuel) in E. rewrite E in G1. discriminate.
Qed.

Lemma split_regions_covered types regions :
  Forall (fun r => 0 <= r_length r) regions ->
  (forall r a, In r regions -> r_origin r <= a < r_origin r + r_length r -> covered types a) ->
  exists parts, split_memory_regions (region_fuel types) regions types = Ok parts.
Proof.
  intros L C. apply split_regions_terminates; [exact L|]. intros l1 r l2 e -> _ (stop & B1 & _ & B2 & _).
  apply B2. apply (C r); [apply in_or_app; right; left; reflexivity|lia].
Qed.


Lemma split_regions_terminates_any types regions :
  Forall (fun r => 0 <= r_length r) regions ->
  (exists fuel parts, split_memory_regions fuel regions types = Ok parts) <->
  (forall l1 r l2 e, regions = l1 ++ r :: l2 ->
     split_memory_regions (region_fuel types) l1 types = Ok e -> ~ blocked types e r).
Proof.
  intros L. rewrite <- (split_regions_terminates types regions L). split.
  - intros (fuel & parts & E).
    destruct (srun_outcome types regions [] L ltac:(constructor)) as [(gs & G1 & _)|(G1 & _)].
    + eexists. apply G1.
    + specialize (G1 fuel). change (srun fuel types [] regions = Ok parts) in E. rewrite E in G1. discriminate.
  - intros (parts & E). exists (region_fuel types), parts. exact E.
Qed.
