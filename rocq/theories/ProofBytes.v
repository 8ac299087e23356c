From Coq Require Import Ascii String List ZArith Lia Bool Permutation Sorted.
From Verif Require Import Base MemMap SpecTree Pipeline SpecPipe SpecBuild SpecBytes ProofRegions ProofSplit ProofArch ProofTypes ProofBuild ProofSyms ProofStrip ProofExpand ProofGet.
Import ListNotations.
Open Scope list_scope.
Open Scope Z_scope.

Lemma f2_In_l {A B} (R : A -> B -> Prop) xs ys x : Forall2 R xs ys -> In x xs -> exists y, In y ys /\ R x y.
Proof. intros H. induction H as [|a b xs ys R0 F IH]; cbn; [intros []|]. intros [<-|I]; [eauto|]. destruct (IH I) as (y0 & ? & ?); eauto. Qed.
Lemma f2_In_r {A B} (R : A -> B -> Prop) xs ys y : Forall2 R xs ys -> In y ys -> exists x, In x xs /\ R x y.
Proof. intros H. induction H as [|a b xs ys R0 F IH]; cbn; [intros []|]. intros [<-|I]; [eauto|]. destruct (IH I) as (y0 & ? & ?); eauto. Qed.

(** ** counting *)

Lemma count_app P : forall n m a, count P a (n + m) = count P a n + count P (a + Z.of_nat n) m.
Proof.
  induction n as [|n IH]; intros m a; cbn [count Nat.add].
  - rewrite Z.add_0_r. reflexivity.
  - rewrite IH. replace (a + Z.of_nat (S n)) with (a + 1 + Z.of_nat n) by lia. lia.
Qed.
Lemma bytes_app P a n m : 0 <= n -> 0 <= m -> bytes_with P a (n + m) = bytes_with P a n + bytes_with P (a + n) m.
Proof.
  intros Hn Hm. unfold bytes_with. rewrite Z2Nat.inj_add, count_app by assumption. rewrite Z2Nat.id by assumption. reflexivity.
Qed.
Lemma bytes_none P a n : n <= 0 -> bytes_with P a n = 0.
Proof. intros H. unfold bytes_with. replace (Z.to_nat n) with O by lia. reflexivity. Qed.
Lemma count_const P b : forall n a, (forall x, a <= x < a + Z.of_nat n -> P x = b) -> count P a n = if b then Z.of_nat n else 0.
Proof.
  induction n as [|n IH]; intros a H; cbn [count]; [destruct b; reflexivity|].
  rewrite (H a) by lia. rewrite IH by (intros x Hx; apply H; lia). destruct b; lia.
Qed.
Lemma bytes_const P b a n : 0 <= n -> (forall x, a <= x < a + n -> P x = b) -> bytes_with P a n = if b then n else 0.
Proof.
  intros Hn H. unfold bytes_with. rewrite (count_const P b) by (intros x Hx; apply H; lia). destruct b; lia.
Qed.
Lemma bytes_nonneg P a n : 0 <= bytes_with P a n.
Proof. unfold bytes_with. generalize (Z.to_nat n). intros k. revert a. induction k as [|k IH]; intros a; cbn [count]; [lia|]. specialize (IH (a + 1)). destruct (P a); lia. Qed.

(** the bytes of the pieces of an input section *)
Lemma additive_bytes P : additive (fun i => bytes_with P (i_addr i) (i_size i)).
Proof.
  intros cut i. unfold split_isec.
  destruct (Z.leb_spec (i_addr i + i_size i + i_fill i) cut); cbn [fst snd]; [rewrite zsumf_cons, !zsumf_nil; lia|].
  destruct (Z.ltb_spec cut (i_addr i)); cbn [fst snd]; [rewrite zsumf_cons, !zsumf_nil; lia|].
  rewrite !zsumf_cons, !zsumf_nil. cbn [i_addr i_size]. rewrite !Z.add_0_r.
  destruct (Z.le_gt_cases (i_size i) 0) as [N|N].
  - rewrite !bytes_none by lia. lia.
  - destruct (Z.le_gt_cases (cut - i_addr i) (i_size i)).
    + rewrite Z.min_l by lia. pose proof (bytes_app P (i_addr i) (cut - i_addr i) (i_size i - (cut - i_addr i)) ltac:(lia) ltac:(lia)) as B.
      replace (cut - i_addr i + (i_size i - (cut - i_addr i))) with (i_size i) in B by lia.
      replace (i_addr i + (cut - i_addr i)) with cut in B by lia. symmetry. exact B.
    + rewrite Z.min_r by lia. rewrite (bytes_none P cut) by lia. lia.
Qed.

(** ** windows *)

Lemma covering_spreads types a t lo hi a' :
  windows_separate types -> first_covering types a t -> window t lo hi -> lo <= a < hi -> lo <= a' < hi -> first_covering types a' t.
Proof.
  intros Sep (l1 & l2 & -> & _ & N) W La La'. exists l1, l2. split; [reflexivity|]. split; [exists lo, hi; auto|].
  intros u Iu (lo' & hi' & W' & L'). apply (N u Iu).
  destruct (Sep u t lo' hi' lo hi) as [[-> ->]|[H|H]]; auto; try (apply in_or_app; simpl; auto); try lia. exists lo, hi. auto.
Qed.

Lemma first_covering_unique types a t u : first_covering types a t -> first_covering types a u -> t = u.
Proof.
  intros (l1 & l2 & E & C & N) (m1 & m2 & E' & C' & N'). rewrite E in E'.
  destruct (decomp _ _ _ _ _ _ E') as [H|[[_ I]|[I _]]]; [exact H| |].
  - exfalso. apply (N' t); auto.
  - exfalso. apply (N u); auto.
Qed.

Lemma part_owner types p a : windows_separate types -> part_inside p -> (0 < sr_length p -> first_covering types (sr_origin p) (sr_type p)) ->
  in_region p a -> first_covering types a (sr_type p).
Proof.
  intros Sep (lo & hi & W & L1 & L2) F [A1 A2].
  apply (covering_spreads types (sr_origin p) (sr_type p) lo hi a Sep); [apply F; lia|exact W|lia|lia].
Qed.

(** ** region parts *)

(** where the part of a region ends *)
Definition part_end (regions : list region) (p : sregion) : Prop :=
  exists r, In r regions /\ r_origin r <= sr_origin p /\
    (sr_origin p + sr_length p = r_origin r + r_length r \/
     exists lo hi, window (sr_type p) lo hi /\ lo <= sr_origin p < hi /\ sr_origin p + sr_length p = hi).

Lemma split_region_ends regions types r : In r regions -> forall fuel origin len acc out,
  0 <= len -> r_origin r <= origin -> origin + len = r_origin r + r_length r -> Forall (part_end regions) acc ->
  split_region fuel types r origin len acc = Ok out -> Forall (part_end regions) out.
Proof.
  intros Ir. induction fuel as [|fuel IH]; intros origin len acc out L O E F X; [discriminate X|]. cbn [split_region] in X.
  destruct (find_type types origin) as [[t b]|] eqn:Ft.
  - apply find_type_ok in Ft. destruct Ft as (Fc & W & B).
    set (used := Z.min len (ct_length t - (origin - b))) in *.
    assert (F' : Forall (part_end regions) (acc ++ [SRegion (r_name r) origin used (r_attrs r) t])).
    { apply Forall_app. split; [exact F|]. constructor; [|constructor]. exists r. split; [exact Ir|]. cbn [sr_origin sr_length sr_type]. split; [exact O|].
      destruct (Z.le_gt_cases len (ct_length t - (origin - b))).
      - left. unfold used. lia.
      - right. exists b, (b + ct_length t). split; [exact W|]. unfold used. lia. }
    destruct (Z.eqb_spec (len - used) 0); [injection X as <-; exact F'|].
    eapply IH; [| | |exact F'|exact X]; unfold used in *; lia.
  - destruct (find _ acc) as [s|] eqn:Fi; [|injection X as <-; exact F].
    assert (F' : Forall (part_end regions) (acc ++ [SRegion (r_name r) origin len (r_attrs r) (sr_type s)])).
    { apply Forall_app. split; [exact F|]. constructor; [|constructor]. exists r. split; [exact Ir|]. cbn [sr_origin sr_length sr_type]. split; [exact O|]. left. lia. }
    destruct (Z.eqb_spec len 0); [injection X as <-; exact F'|]. eapply IH; [| | |exact F'|exact X]; lia.
Qed.

Lemma split_regions_ends fuel types regions parts : Forall (fun r => 0 <= r_length r) regions ->
  split_memory_regions fuel regions types = Ok parts -> Forall (part_end regions) parts.
Proof.
  intros L. unfold split_memory_regions. intros E.
  assert (G : forall l acc out, incl l regions -> Forall (part_end regions) acc ->
    foldM (fun acc r => split_region fuel types r (r_origin r) (r_length r) acc) acc l = Ok out -> Forall (part_end regions) out).
  { clear E. induction l as [|r l IH]; intros acc out I F E; cbn [foldM] in E; [injection E as <-; exact F|].
    destruct (split_region fuel types r (r_origin r) (r_length r) acc) as [acc'|] eqn:S0; cbn [bind] in E; [|discriminate E].
    assert (Ir : In r regions) by (apply I; simpl; auto).
    eapply IH; [intros x Hx; apply I; simpl; auto| |exact E].
    eapply split_region_ends; [exact Ir| | | |exact F|exact S0]; try lia. rewrite Forall_forall in L. apply L, Ir. }
  eapply G; [|constructor|exact E]. intros x H. exact H.
Qed.

(** a mapped byte is in a region part *)
Lemma tiles_cover a b ps x : tiles a b ps -> Forall (fun p => 0 <= sr_length p) ps -> a <= x < b -> exists p, In p ps /\ in_region p x.
Proof.
  induction 1 as [|p b ps T IH]; intros F L; [lia|]. inversion F as [|? ? F1 F2]; subst.
  destruct (Z.lt_ge_cases x (sr_origin p + sr_length p)).
  - exists p. split; [simpl; auto|]. unfold in_region. lia.
  - destruct (IH F2 ltac:(lia)) as (q & I & H1). exists q. simpl. auto.
Qed.

Lemma mapped_part fuel regions types parts a : Forall (fun r => 0 <= r_length r) regions ->
  split_memory_regions fuel (filter_memory_regions regions) types = Ok parts -> mapped regions types a ->
  exists p, In p parts /\ in_region p a.
Proof.
  intros L E (r & Ir & Nd & La & C).
  assert (L' : Forall (fun r => 0 <= r_length r) (filter_memory_regions regions)).
  { rewrite Forall_forall in *. intros x Hx. apply L. unfold filter_memory_regions in Hx. apply filter_In in Hx. apply Hx. }
  assert (Ir' : In r (filter_memory_regions regions)).
  { unfold filter_memory_regions. apply filter_In. split; [exact Ir|]. destruct (keqP (r_name r) (list_ascii_of_string "*default*")); [contradiction|reflexivity]. }
  destruct (split_regions_parts _ _ _ _ L' E) as (gs & -> & G).
  destruct (f2_In_l _ _ _ _ G Ir') as (ps & Ips & (stop & T & Fp & St)).
  assert (Ls : a < stop).
  { destruct St as [->|[St Nc]]; [lia|]. destruct (Z.lt_ge_cases a stop); [assumption|]. exfalso. apply Nc, C. lia. }
  destruct (tiles_cover _ _ _ a T) as (p & Ip & H); [eapply Forall_impl; [|exact Fp]; cbn; tauto|lia|].
  exists p. split; [apply in_concat; exists ps; auto|exact H].
Qed.

(** everything known of the region parts *)
Lemma parts_known fuel regions types parts : Forall (fun r => 0 <= r_length r) regions ->
  split_memory_regions fuel (filter_memory_regions regions) types = Ok parts ->
  Forall (fun p => part_inside p /\ (0 < sr_length p -> first_covering types (sr_origin p) (sr_type p)) /\ In (sr_type p) types /\
     exists r, In r regions /\ r_name r <> "*default*" /\ r_origin r <= sr_origin p /\
       (sr_origin p + sr_length p = r_origin r + r_length r \/
        exists lo hi, window (sr_type p) lo hi /\ lo <= sr_origin p < hi /\ sr_origin p + sr_length p = hi)) parts.
Proof.
  intros L E.
  assert (L' : Forall (fun r => 0 <= r_length r) (filter_memory_regions regions)).
  { rewrite Forall_forall in *. intros x Hx. apply L. unfold filter_memory_regions in Hx. apply filter_In in Hx. apply Hx. }
  pose proof (split_regions_ends _ _ _ _ L' E) as Ends.
  destruct (split_regions_parts _ _ _ _ L' E) as (gs & -> & G).
  rewrite Forall_forall in *. intros p Ip. destruct (Ends p Ip) as (r & Ir & H1 & H2).
  apply in_concat in Ip. destruct Ip as (ps & Ips & Ip). destruct (f2_In_r _ _ _ _ G Ips) as (r0 & _ & (stop & _ & Fp & _)).
  rewrite Forall_forall in Fp. destruct (Fp p Ip) as (P1 & P2 & _ & _ & _ & P3).
  split; [exact P1|]. split; [intros X; exact (proj1 (P3 X))|]. split; [exact P2|]. unfold filter_memory_regions in Ir. apply filter_In in Ir. destruct Ir as [Ir Nd].
  exists r. split; [exact Ir|]. split; [|auto]. intros X. rewrite X in Nd. discriminate Nd.
Qed.

(** ** parts of a section *)

Lemma split_section_cuts regions : forall fuel s ps, split_section fuel regions s = Ok ps ->
  Forall (fun p => o_addr p + o_size p = o_addr s + o_size s \/
    exists r, In r regions /\ in_region r (o_addr p) /\ o_addr p + o_size p = sr_origin r + sr_length r) ps.
Proof.
  induction fuel as [|fuel IH]; intros s ps E; [discriminate E|]. cbn [split_section] in E.
  destruct (region_at regions (o_addr s)) as [r|] eqn:R.
  - apply region_at_some in R. destruct R as [Ir Rr].
    destruct (o_addr s + o_size s <=? sr_origin r + sr_length r).
    + injection E as <-. constructor; [auto|constructor].
    + destruct (split_section fuel regions _) as [rest|] eqn:Er; cbn [bind] in E; [|discriminate E]. injection E as <-.
      apply IH in Er. cbn [cut_section fst snd o_addr o_size] in *. constructor.
      * right. exists r. cbn [o_addr o_size]. split; [exact Ir|]. split; [exact Rr|lia].
      * eapply Forall_impl; [|exact Er]. intros p [H|H]; [left; cbn [o_addr o_size] in H; lia|right; exact H].
  - injection E as <-. constructor; [auto|constructor].
Qed.

Lemma ext_ram_unique types T T' : ext_ram types T -> ext_ram types T' -> T = T'.
Proof. intros H H'. apply ext_alias_spec in H, H'. congruence. Qed.

Definition parts_fact (regions : list region) (types : list chip_type) (parts : list sregion) : Prop :=
  Forall (fun p => part_inside p /\ (0 < sr_length p -> first_covering types (sr_origin p) (sr_type p)) /\ In (sr_type p) types /\
     exists r, In r regions /\ r_name r <> "*default*" /\ r_origin r <= sr_origin p /\
       (sr_origin p + sr_length p = r_origin r + r_length r \/
        exists lo hi, window (sr_type p) lo hi /\ lo <= sr_origin p < hi /\ sr_origin p + sr_length p = hi)) parts /\
  (forall a, mapped regions types a -> exists p, In p parts /\ in_region p a).

Lemma parts_fact_split fuel regions types parts : Forall (fun r => 0 <= r_length r) regions ->
  split_memory_regions fuel (filter_memory_regions regions) types = Ok parts -> parts_fact regions types parts.
Proof. intros L E. split; [eapply parts_known; eassumption|]. intros a M. eapply mapped_part; eassumption. Qed.

Lemma owner_in_part regions types parts r a : windows_separate types -> parts_fact regions types parts -> In r parts -> in_region r a ->
  first_covering types a (sr_type r).
Proof. intros Sep [F _] I H. rewrite Forall_forall in F. destruct (F r I) as (P1 & P2 & _). apply part_owner; assumption. Qed.

Lemma part_type regions types parts s ps p :
  windows_separate types -> parts_fact regions types parts ->
  section_mapped regions types s -> section_parts parts s ps -> Forall (fun q => 0 < o_size q) ps -> In p ps ->
  o_addr s <= o_addr p -> o_addr p + o_size p <= o_addr s + o_size s ->
  exists T, dest types parts (add_archives p) (Some (T, false)) /\
    forall a, byte_of p a -> forall T', byte_goes types (o_name s) a T' <-> T' = T.
Proof.
  intros Sep PF M [_ Fp] Pos Ip B1 B2. rewrite Forall_forall in Fp, Pos. destruct (Fp p Ip) as [En Pl]. specialize (Pos p Ip).
  pose proof (route_dest types parts (add_archives p)) as D.
  destruct (route (ext_ram_alias types) (py_sorted sr_origin false parts) (add_archives p)) as [[T ov]|] eqn:R; rewrite ?R in D.
  2: { exfalso. inversion D; cbn [add_archives as_name as_addr] in *; subst.
       - destruct M as [M|M]; [rewrite En in *; contradiction|].
         destruct PF as [PF1 PF2]. destruct (PF2 (o_addr p)) as (r & Ir & Hr); [apply M; unfold byte_of; lia|].
         match goal with H : all_above _ _ |- _ => specialize (H r Ir) end. unfold in_region in Hr. lia.
       - destruct M as [M|M]; [rewrite En in *; contradiction|].
         destruct PF as [PF1 PF2]. destruct (PF2 (o_addr p)) as (r & Ir & Hr); [apply M; unfold byte_of; lia|].
         match goal with H : in_no_region _ _ |- _ => apply (H r Ir Hr) end. }
  destruct M as [M|M].
  - inversion D; cbn [add_archives as_name as_addr] in *; subst; rewrite En in *; try contradiction.
    exists T. split; [constructor; cbn [add_archives as_name]; rewrite ?En; assumption|]. intros a _ T'. split.
    + intros [[_ E]|[N _]]; [|contradiction]. eapply ext_ram_unique; eassumption.
    + intros ->. left. split; [apply M|assumption].
  - assert (Mp : mapped regions types (o_addr p)) by (apply M; unfold byte_of; lia).
    destruct (proj2 PF (o_addr p) Mp) as (r0 & Ir0 & Hr0).
    inversion D as [? X1 X2 X3|r X1 X2 X3|q X1 X2 X3 X4 X5|q X1 X2 X3 X4 X5| |]; cbn [add_archives as_name as_addr] in *; subst.
    + exists T. split; [exact D|]. intros a _ T'. split.
      * intros [[_ E]|[N _]]; [eapply ext_ram_unique; eassumption|]. exfalso. apply N. rewrite <- En. split; [eexists; exact X1|exact X2].
      * intros ->. left. rewrite <- En. split; assumption.
    + exists (ct_name (sr_type r)). split; [exact D|]. intros a Ha T'. rewrite <- En.
      destruct (containing_In _ _ _ X2) as [Ir Hr].
      destruct Pl as [(r2 & Ir2 & Hr2 & Er2)|Pl]; [|exfalso; apply (Pl r0 Ir0 Hr0)].
      assert (O1 : first_covering types (o_addr p) (sr_type r)) by (eapply owner_in_part; eassumption).
      assert (O2 : first_covering types (o_addr p) (sr_type r2)) by (eapply owner_in_part; eassumption).
      assert (Et : sr_type r = sr_type r2) by (eapply first_covering_unique; eassumption).
      assert (O3 : first_covering types a (sr_type r2)).
      { eapply owner_in_part; try eassumption. unfold in_region, byte_of in *. lia. }
      split.
      * intros [[N E]|[_ (t & Ft & <-)]]; [exfalso; apply X1; split; [eexists; exact E|exact N]|].
        rewrite Et. f_equal. eapply first_covering_unique; eassumption.
      * intros ->. right. split; [exact X1|]. exists (sr_type r2). split; [exact O3|]. rewrite Et. reflexivity.
    + exfalso. apply (X2 r0 Ir0 Hr0).
    + exfalso. specialize (X2 r0 Ir0). unfold in_region in Hr0. lia.
Qed.

(** parts in order *)
Lemma sect_tiles_split a b l1 p l2 : sect_tiles a b (l1 ++ p :: l2) -> sect_tiles a (o_addr p) l1 /\ sect_tiles (o_addr p + o_size p) b l2.
Proof.
  revert a. induction l1 as [|q l1 IH]; intros a T; cbn [app] in T; inversion T; subst; [split; [constructor|assumption]|].
  match goal with H : sect_tiles _ _ (l1 ++ _) |- _ => apply IH in H; destruct H as [H1 H2] end. split; [constructor; exact H1|exact H2].
Qed.
Lemma sect_tiles_le a b l : sect_tiles a b l -> Forall (fun q => 0 < o_size q) l -> a <= b.
Proof. induction 1 as [|p b l T IH]; intros F; [lia|]. inversion F; subst. specialize (IH ltac:(assumption)). lia. Qed.
Lemma sect_tiles_in a b l p : sect_tiles a b l -> Forall (fun q => 0 < o_size q) l -> In p l -> a <= o_addr p /\ o_addr p + o_size p <= b.
Proof.
  intros T F I. apply in_split in I. destruct I as (l1 & l2 & ->). apply Forall_app in F. destruct F as [F1 F2]. inversion F2; subst.
  apply sect_tiles_split in T. destruct T as [T1 T2]. apply sect_tiles_le in T1, T2; auto.
Qed.

(** at most one part of an unbroken section belongs to a memory type *)
Lemma one_part regions types parts fuel s ps l1 p l2 q T :
  windows_separate types -> parts_fact regions types parts -> section_mapped regions types s -> unbroken regions types s ->
  split_section fuel parts s = Ok ps -> section_parts parts s ps -> Forall (fun q => 0 < o_size q) ps ->
  ps = l1 ++ p :: l2 -> In q l2 ->
  (forall a, byte_of p a -> byte_goes types (o_name s) a T) -> (forall a, byte_of q a -> byte_goes types (o_name s) a T) -> False.
Proof.
  intros Sep PF M U E SP Pos -> Iq Hp Hq.
  pose proof (split_section_cuts _ _ _ _ E) as C. rewrite Forall_forall in C, Pos.
  destruct SP as [T0 Fp].
  assert (Pf : Forall (fun q => 0 < o_size q) (l1 ++ p :: l2)) by (apply Forall_forall; exact Pos).
  assert (Ip : In p (l1 ++ p :: l2)) by (apply in_or_app; simpl; auto).
  assert (Iq' : In q (l1 ++ p :: l2)) by (apply in_or_app; simpl; auto).
  destruct (sect_tiles_in _ _ _ _ T0 Pf Ip) as [P1 P2]. destruct (sect_tiles_in _ _ _ _ T0 Pf Iq') as [Q1 Q2].
  pose proof (Pos p Ip) as Pp. pose proof (Pos q Iq') as Pq.
  assert (Lq : o_addr p + o_size p <= o_addr q).
  { destruct (sect_tiles_split _ _ _ _ _ T0) as [_ T2]. apply Forall_app in Pf. destruct Pf as [_ Pf]. inversion Pf; subst.
    eapply sect_tiles_in in T2; [|assumption|exact Iq]. lia. }
  destruct (C p Ip) as [X|(r & Ir & Hr & Er)]; [lia|].
  destruct (U (o_addr p) (o_addr q) T) as [U1 U2]; try (unfold byte_of; lia).
  - apply Hp. unfold byte_of. lia.
  - apply Hq. unfold byte_of. lia.
  - destruct PF as [PF _]. rewrite Forall_forall in PF. destruct (PF r Ir) as (_ & _ & It & R & IR & Nd & LR & [End|(lo & hi & W & Lw & End)]).
    + specialize (U1 R IR Nd). unfold in_region in Hr. lia.
    + specialize (U2 (sr_type r) lo hi It W). unfold in_region in Hr. lia.
Qed.
