From Coq Require Import Ascii String List ZArith Lia Bool Permutation.
From Verif Require Import Base MemMap SpecTree SpecOps ProofDiff ProofOps ProofTrim Fixtures.
Import ListNotations.
Open Scope list_scope.
Open Scope Z_scope.

(** ** The common loop over contributions *)

Record contrib := Contrib { c_name : str; c_abbrev : str; c_t : str; c_s : str; c_size : Z; c_diff : Z }.

Definition add_c (mts : dict str stype) (acc : dict str sentry) (c : contrib) :=
  summary_add mts acc (c_name c) (c_abbrev c) (c_t c) (c_s c) (c_size c) (c_diff c).
Definition collect (mts : dict str stype) (l : list contrib) := fold_left (add_c mts) l [].

Definition of_name (n : str) (c : contrib) : bool := c_name c =?= n.
Definition of_type (n t : str) (c : contrib) : bool := (c_name c =?= n) && (c_t c =?= t).
Definition of_sect (n t s : str) (c : contrib) : bool := (c_name c =?= n) && (c_t c =?= t) && (c_s c =?= s).

Lemma of_name_self c : of_name (c_name c) c = true. Proof. apply keq_refl. Qed.
Lemma of_type_self c : of_type (c_name c) (c_t c) c = true.
Proof. unfold of_type. rewrite !keq_refl. reflexivity. Qed.
Lemma of_sect_self c : of_sect (c_name c) (c_t c) (c_s c) c = true.
Proof. unfold of_sect. rewrite !keq_refl. reflexivity. Qed.

Definition lastval {A B} (f : A -> B) (d : B) (l : list A) : B := last (map f l) d.

(** one section value after the contributions *)
Definition sect_inv (l : list contrib) n t s (S0 Q : ssect) : Prop :=
  ss_abbrev Q = ss_abbrev S0 /\
  ss_size Q = lastval c_size (ss_size S0) (filter (of_sect n t s) l) /\
  ss_diff Q = lastval c_diff (ss_diff S0) (filter (of_sect n t s) l).

Definition type_inv (l : list contrib) n t (T0 T : stype) : Prop :=
  keys (st_sections T) = keys (st_sections T0) /\
  st_size T = st_size T0 + zsumf c_size (filter (of_type n t) l) /\
  st_diff T = st_diff T0 + zsumf c_diff (filter (of_type n t) l) /\
  forall s, match dget s (st_sections T0), dget s (st_sections T) with
            | Some S0, Some Q => sect_inv l n t s S0 Q
            | None, None => True
            | _, _ => False
            end.

Definition entry_inv (l : list contrib) (mts : dict str stype) n (e : sentry) : Prop :=
  Some (se_abbrev e) = hd_error (map c_abbrev (filter (of_name n) l)) /\
  se_size e = zsumf c_size (filter (of_name n) l) /\
  se_diff e = zsumf c_diff (filter (of_name n) l) /\
  keys (se_types e) = keys mts /\
  forall t, match dget t mts, dget t (se_types e) with
            | Some T0, Some T => type_inv l n t T0 T
            | None, None => True
            | _, _ => False
            end.

Definition collect_inv (l : list contrib) (mts : dict str stype) (acc : dict str sentry) : Prop :=
  wf_dict acc /\
  forall n, match dget n acc with
            | None => filter (of_name n) l = []
            | Some e => entry_inv l mts n e
            end.

Lemma last_snoc {A} (l : list A) x d : last (l ++ [x]) d = x.
Proof. apply last_last. Qed.

Lemma filter_snoc {A} (p : A -> bool) l x : filter p (l ++ [x]) = filter p l ++ (if p x then [x] else []).
Proof. rewrite filter_app. simpl. destruct (p x); reflexivity. Qed.

Lemma zsumf_one {A} (f : A -> Z) x : zsumf f [x] = f x.
Proof. unfold zsumf. simpl. lia. Qed.

Definition upd_entry (c : contrib) (e : sentry) : sentry :=
  SEntry (se_abbrev e) (se_size e + c_size c) (se_diff e + c_diff c)
    (dupd (c_t c) (fun t => SType (st_size t + c_size c) (st_diff t + c_diff c)
         (dupd (c_s c) (fun s => SSect (c_size c) (c_diff c) (ss_abbrev s)) (st_sections t))) (se_types e)).

Lemma sect_inv_snoc l c n t s S0 Q :
  sect_inv l n t s S0 Q ->
  sect_inv (l ++ [c]) n t s S0 (if of_sect n t s c then SSect (c_size c) (c_diff c) (ss_abbrev Q) else Q).
Proof.
  intros (A & B & C). unfold sect_inv, lastval. rewrite filter_snoc.
  destruct (of_sect n t s c).
  - rewrite !map_app. simpl. rewrite !last_snoc. auto.
  - rewrite app_nil_r. auto.
Qed.

Lemma type_inv_snoc_same l c n t T0 T :
  c_name c = n -> c_t c = t -> type_inv l n t T0 T ->
  type_inv (l ++ [c]) n t T0
    (SType (st_size T + c_size c) (st_diff T + c_diff c)
       (dupd (c_s c) (fun s => SSect (c_size c) (c_diff c) (ss_abbrev s)) (st_sections T))).
Proof.
  intros <- <- (A & B & C & D). unfold type_inv. cbn [st_sections st_size st_diff].
  rewrite keys_dupd, filter_snoc, of_type_self.
  rewrite !zsumf_app, !zsumf_one. repeat split; try lia; [exact A|].
  intros s. specialize (D s).
  destruct (keqP s (c_s c)) as [->|N].
  - rewrite dget_dupd_eq. destruct (dget (c_s c) (st_sections T0)) as [S0|], (dget (c_s c) (st_sections T)) as [Q|]; simpl; auto.
    apply sect_inv_snoc with (c := c) in D. rewrite of_sect_self in D. exact D.
  - rewrite dget_dupd_neq by congruence.
    destruct (dget s (st_sections T0)) as [S0|], (dget s (st_sections T)) as [Q|]; simpl; auto.
    apply sect_inv_snoc with (c := c) in D.
    assert (E : (c_s c =?= s) = false) by (apply keq_neq; congruence).
    assert (E2 : of_sect (c_name c) (c_t c) s c = false) by (unfold of_sect; rewrite E; apply andb_false_r).
    rewrite E2 in D. exact D.
Qed.

Lemma type_inv_snoc_other l c n t T0 T :
  of_type n t c = false -> type_inv l n t T0 T -> type_inv (l ++ [c]) n t T0 T.
Proof.
  intros E (A & B & C & D). unfold type_inv. rewrite filter_snoc, E, app_nil_r. repeat split; auto.
  intros s. specialize (D s).
  destruct (dget s (st_sections T0)) as [S0|], (dget s (st_sections T)) as [Q|]; auto.
  apply sect_inv_snoc with (c := c) in D.
  replace (of_sect n t s c) with false in D; [exact D|].
  unfold of_sect. unfold of_type in E. rewrite E. reflexivity.
Qed.

Lemma entry_inv_snoc_same l c mts e :
  entry_inv l mts (c_name c) e -> entry_inv (l ++ [c]) mts (c_name c) (upd_entry c e).
Proof.
  intros (A & B & C & D & F). unfold entry_inv, upd_entry. cbn [se_abbrev se_size se_diff se_types].
  rewrite filter_snoc, of_name_self.
  rewrite keys_dupd, !zsumf_app, !zsumf_one, map_app. repeat split; try lia; [|exact D|].
  - destruct (map c_abbrev (filter (of_name (c_name c)) l)); [discriminate A|exact A].
  - intros t. specialize (F t). destruct (keqP t (c_t c)) as [->|N].
    + rewrite dget_dupd_eq. destruct (dget (c_t c) mts) as [T0|], (dget (c_t c) (se_types e)) as [T|]; simpl; auto.
      apply type_inv_snoc_same; auto.
    + rewrite dget_dupd_neq by congruence.
      destruct (dget t mts) as [T0|], (dget t (se_types e)) as [T|]; auto.
      apply type_inv_snoc_other; [|assumption]. unfold of_type.
      assert (E : (c_t c =?= t) = false) by (apply keq_neq; congruence). rewrite E. apply andb_false_r.
Qed.

Lemma entry_inv_snoc_other l c mts n e :
  c_name c <> n -> entry_inv l mts n e -> entry_inv (l ++ [c]) mts n e.
Proof.
  intros N (A & B & C & D & F).
  assert (E : of_name n c = false) by (apply keq_neq; assumption).
  unfold entry_inv. rewrite filter_snoc, E, app_nil_r. repeat split; auto.
  intros t. specialize (F t). destruct (dget t mts) as [T0|], (dget t (se_types e)) as [T|]; auto.
  apply type_inv_snoc_other; [|assumption]. unfold of_type. unfold of_name in E. rewrite E. reflexivity.
Qed.

(** a new entry, just before its first contribution *)
Lemma first_entry_inv l c mts :
  filter (of_name (c_name c)) l = [] ->
  entry_inv (l ++ [c]) mts (c_name c) (upd_entry c (SEntry (c_abbrev c) 0 0 mts)).
Proof.
  intros E. unfold entry_inv, upd_entry. cbn [se_abbrev se_size se_diff se_types].
  rewrite filter_snoc, E, of_name_self. simpl.
  unfold zsumf. simpl. rewrite keys_dupd. repeat split; try lia.
  assert (ET : forall t, filter (of_type (c_name c) t) l = []).
  { intros t. apply filter_false. intros a I. unfold of_type.
    destruct (c_name a =?= c_name c) eqn:K; [|reflexivity].
    assert (In a (filter (of_name (c_name c)) l)) by (apply filter_In; auto). rewrite E in H. destruct H. }
  assert (ES : forall t s, filter (of_sect (c_name c) t s) l = []).
  { intros t s. apply filter_false. intros a I. unfold of_sect.
    destruct (c_name a =?= c_name c) eqn:K; [|reflexivity].
    assert (In a (filter (of_name (c_name c)) l)) by (apply filter_In; auto). rewrite E in H. destruct H. }
  assert (TI : forall t T0, type_inv l (c_name c) t T0 T0).
  { intros t T0. unfold type_inv. rewrite ET. unfold zsumf. simpl. repeat split; try lia.
    intros s. destruct (dget s (st_sections T0)) as [S0|]; [|exact I].
    unfold sect_inv, lastval. rewrite ES. auto. }
  intros t. destruct (keqP t (c_t c)) as [->|N].
  - rewrite dget_dupd_eq. destruct (dget (c_t c) mts) as [T0|]; simpl; [|exact I].
    apply type_inv_snoc_same; auto.
  - rewrite dget_dupd_neq by congruence. destruct (dget t mts) as [T0|]; [|exact I].
    apply type_inv_snoc_other; [|apply TI]. unfold of_type.
    assert (K : (c_t c =?= t) = false) by (apply keq_neq; congruence). rewrite K. apply andb_false_r.
Qed.

Lemma collect_ok mts l : collect_inv l mts (collect mts l).
Proof.
  induction l as [|c l IH] using rev_ind.
  - split; [constructor|]. intros n. reflexivity.
  - unfold collect. rewrite fold_left_app. simpl. fold (collect mts l).
    set (acc := collect mts l) in *. destruct IH as [W IH].
    unfold add_c, summary_add.
    change (fun e : sentry => SEntry (se_abbrev e) (se_size e + c_size c) (se_diff e + c_diff c)
      (dupd (c_t c) (fun t : stype => SType (st_size t + c_size c) (st_diff t + c_diff c)
         (dupd (c_s c) (fun s : ssect => SSect (c_size c) (c_diff c) (ss_abbrev s)) (st_sections t))) (se_types e)))
      with (upd_entry c).
    split.
    + apply wf_dupd. destruct (dmem (c_name c) acc); [assumption|]. apply wf_dset. assumption.
    + intros n. pose proof (IH n) as Hn. destruct (keqP n (c_name c)) as [->|N].
      * rewrite dget_dupd_eq. unfold dmem. destruct (dget (c_name c) acc) as [e|] eqn:E.
        { rewrite E. simpl. apply entry_inv_snoc_same. assumption. }
        { rewrite dget_dset_eq. simpl. apply first_entry_inv. assumption. }
      * rewrite dget_dupd_neq by congruence.
        assert (E : dget n (if dmem (c_name c) acc then acc else dset (c_name c) (SEntry (c_abbrev c) 0 0 mts) acc) = dget n acc).
        { destruct (dmem (c_name c) acc); [reflexivity|]. apply dget_dset_neq. congruence. }
        rewrite E. destruct (dget n acc) as [e|].
        { apply entry_inv_snoc_other; [congruence|assumption]. }
        { rewrite filter_snoc, Hn. unfold of_name. simpl.
          assert (K : (c_name c =?= n) = false) by (apply keq_neq; congruence). rewrite K. reflexivity. }
Qed.

(** ** partition of a sum by a key *)
Lemma zsumf_partition {A K} `{Eqb K} (f : A -> Z) (key : A -> K) (L : list K) (l : list A) :
  NoDup L -> (forall a, In a l -> In (key a) L) ->
  zsumf (fun k => zsumf f (filter (fun a => key a =?= k) l)) L = zsumf f l.
Proof.
  intros N. induction l as [|a l IH]; intros I.
  - simpl. apply zsumf_zero. reflexivity.
  - rewrite zsumf_cons, <- IH by (intros b J; apply I; right; exact J).
    assert (E : forall M, NoDup M -> zsumf (fun k => zsumf f (filter (fun a0 => key a0 =?= k) (a :: l))) M =
       (if mem (key a) M then f a else 0) + zsumf (fun k => zsumf f (filter (fun a0 => key a0 =?= k) l)) M).
    { induction M as [|k M IHM]; intros NM; [reflexivity|]. inversion NM; subst.
      rewrite !zsumf_cons, IHM by assumption. simpl. unfold mem. simpl. fold (mem (key a) M).
      destruct (keqP (key a) k) as [<-|Ne]; simpl.
      - rewrite zsumf_cons. assert (mem (key a) M = false) by (apply mem_not_In; assumption). rewrite H0. lia.
      - lia. }
    rewrite E by assumption.
    assert (M : mem (key a) L = true) by (apply mem_In, I; left; reflexivity). rewrite M. reflexivity.
Qed.

Definition ckey (c : contrib) : str * (str * str) := (c_name c, (c_t c, c_s c)).

Lemma of_sect_key n t s c : of_sect n t s c = (ckey c =?= (n, (t, s))).
Proof.
  unfold of_sect, ckey. unfold keq at 4. simpl. unfold keq at 5. simpl. rewrite andb_assoc. reflexivity.
Qed.

Lemma NoDup_key_filter {A K} `{Eqb K} (key : A -> K) (k : K) l :
  NoDup (map key l) ->
  filter (fun a => key a =?= k) l = [] \/ exists a, In a l /\ key a = k /\ filter (fun a => key a =?= k) l = [a].
Proof.
  induction l as [|a l IH]; simpl; intros N; [auto|]. inversion N; subst.
  destruct (keqP (key a) k) as [<-|Ne].
  - right. exists a. repeat split; auto. f_equal. apply filter_false.
    intros b I. apply keq_neq. intros E. apply H2. rewrite <- E. apply in_map. assumption.
  - destruct (IH H3) as [|(b & I & E & F)]; [auto|]. right. exists b. auto.
Qed.

(** mts with all values zero *)
Definition zero_mts (mts : dict str stype) : Prop :=
  wf_dict mts /\
  forall t T, dget t mts = Some T -> wf_dict (st_sections T) /\ st_size T = 0 /\ st_diff T = 0 /\
    forall s Q, dget s (st_sections T) = Some Q -> ss_size Q = 0 /\ ss_diff Q = 0.

Definition known (mts : dict str stype) (c : contrib) : Prop :=
  exists T, dget (c_t c) mts = Some T /\ In (c_s c) (keys (st_sections T)).

Lemma oval_keys {V} (f : V -> Z) (d : dict str V) : wf_dict d ->
  zsumf (fun kv => f (snd kv)) d = zsumf (fun k => oval f (dget k d)) (keys d).
Proof. intros W. symmetry. apply zsumf_keys; auto. Qed.

(** totals of the memory types add up to the total; always *)
Lemma collect_total mts l n e :
  zero_mts mts -> Forall (known mts) l -> dget n (collect mts l) = Some e ->
  se_size e = zsumf (fun kv => st_size (snd kv)) (se_types e) /\
  se_diff e = zsumf (fun kv => st_diff (snd kv)) (se_types e).
Proof.
  intros [W Z] K E. destruct (collect_ok mts l) as [_ H]. specialize (H n). rewrite E in H.
  destruct H as (_ & B & C & D & F).
  assert (We : wf_dict (se_types e)) by (unfold wf_dict; rewrite D; exact W).
  assert (Kn : forall c, In c (filter (of_name n) l) -> In (c_t c) (keys mts)).
  { intros c I. apply filter_In in I. rewrite Forall_forall in K. destruct (K c (proj1 I)) as (T & ET & _).
    eapply dget_Some_key; eauto. }
  rewrite B, C, !oval_keys by assumption. rewrite D.
  rewrite <- (zsumf_partition c_size c_t (keys mts)) by (auto; apply W).
  rewrite <- (zsumf_partition c_diff c_t (keys mts)) by (auto; apply W).
  split; apply zsumf_ext; intros t It; apply In_key_dget in It; destruct It as [T0 ET0];
    specialize (F t); rewrite ET0 in F; destruct (dget t (se_types e)) as [T|]; try contradiction;
    destruct F as (_ & F1 & F2 & _); destruct (Z t T0 ET0) as (_ & Z1 & Z2 & _); simpl;
    rewrite filter_filter; [rewrite F1, Z1|rewrite F2, Z2]; reflexivity.
Qed.

(** section values: zero without contribution, the contribution if there is one;
    they add up to the memory type's total *)
Lemma collect_sections mts l n e t T :
  zero_mts mts -> Forall (known mts) l -> NoDup (map ckey l) ->
  dget n (collect mts l) = Some e -> dget t (se_types e) = Some T ->
  st_size T = zsumf (fun kv => ss_size (snd kv)) (st_sections T) /\
  st_diff T = zsumf (fun kv => ss_diff (snd kv)) (st_sections T).
Proof.
  intros [W Z] K N E ET. destruct (collect_ok mts l) as [_ H]. specialize (H n). rewrite E in H.
  destruct H as (_ & _ & _ & D & F). specialize (F t). rewrite ET in F.
  destruct (dget t mts) as [T0|] eqn:ET0; [|contradiction].
  destruct F as (F0 & F1 & F2 & F3). destruct (Z t T0 ET0) as (Z0 & Z1 & Z2 & Z3).
  assert (WT : wf_dict (st_sections T)) by (unfold wf_dict; rewrite F0; exact Z0).
  assert (Kn : forall c, In c (filter (of_type n t) l) -> In (c_s c) (keys (st_sections T0))).
  { intros c I. apply filter_In in I. destruct I as [I I2]. rewrite Forall_forall in K. destruct (K c I) as (T' & ET' & I').
    unfold of_type in I2. apply andb_true_iff in I2. destruct I2 as [_ I2]. apply keq_true in I2. subst t.
    rewrite ET0 in ET'. injection ET' as <-. exact I'. }
  rewrite !oval_keys by assumption. rewrite F0, F1, F2, Z1, Z2, !Z.add_0_l.
  rewrite <- (zsumf_partition c_size c_s (keys (st_sections T0))) by auto.
  rewrite <- (zsumf_partition c_diff c_s (keys (st_sections T0))) by auto.
  assert (G : forall s, In s (keys (st_sections T0)) ->
     exists Q, dget s (st_sections T) = Some Q /\
       ss_size Q = zsumf c_size (filter (fun c => c_s c =?= s) (filter (of_type n t) l)) /\
       ss_diff Q = zsumf c_diff (filter (fun c => c_s c =?= s) (filter (of_type n t) l))).
  { intros s Is. apply In_key_dget in Is. destruct Is as [S0 ES0]. specialize (F3 s). rewrite ES0 in F3.
    destruct (dget s (st_sections T)) as [Q|]; [|contradiction]. exists Q. split; [reflexivity|].
    destruct F3 as (_ & G1 & G2). destruct (Z3 s S0 ES0) as [ZS1 ZS2].
    rewrite filter_filter. change (fun a => of_type n t a && (c_s a =?= s)) with (of_sect n t s).
    assert (EF : filter (of_sect n t s) l = filter (fun c => ckey c =?= (n, (t, s))) l)
      by (apply filter_ext_in'; intros; apply of_sect_key).
    rewrite EF in *. rewrite G1, G2, ZS1, ZS2. unfold lastval.
    destruct (NoDup_key_filter ckey (n, (t, s)) l N) as [->|(c & _ & _ & ->)]; simpl; unfold zsumf; simpl; lia. }
  split; apply zsumf_ext; intros s Is; destruct (G s Is) as (Q & ES & G1 & G2); rewrite ES; simpl; auto.
Qed.

Lemma collect_value mts l n e t T s Q :
  zero_mts mts -> NoDup (map ckey l) ->
  dget n (collect mts l) = Some e -> dget t (se_types e) = Some T -> dget s (st_sections T) = Some Q ->
  (ss_size Q = 0 /\ ss_diff Q = 0 /\ forall c, In c l -> ckey c <> (n, (t, s))) \/
  (exists c, In c l /\ ckey c = (n, (t, s)) /\ ss_size Q = c_size c /\ ss_diff Q = c_diff c).
Proof.
  intros [W Z] N E ET ES. destruct (collect_ok mts l) as [_ H]. specialize (H n). rewrite E in H.
  destruct H as (_ & _ & _ & D & F). specialize (F t). rewrite ET in F.
  destruct (dget t mts) as [T0|] eqn:ET0; [|contradiction].
  destruct F as (F0 & F1 & F2 & F3). destruct (Z t T0 ET0) as (Z0 & Z1 & Z2 & Z3).
  specialize (F3 s). rewrite ES in F3. destruct (dget s (st_sections T0)) as [S0|] eqn:ES0; [|contradiction].
  destruct F3 as (_ & G1 & G2). destruct (Z3 s S0 ES0) as [ZS1 ZS2].
  assert (EF : filter (of_sect n t s) l = filter (fun c => ckey c =?= (n, (t, s))) l)
    by (apply filter_ext_in'; intros; apply of_sect_key).
  rewrite EF in *. unfold lastval in *.
  destruct (NoDup_key_filter ckey (n, (t, s)) l N) as [E0|(c & I & Ec & E0)]; rewrite E0 in *; simpl in *.
  - left. repeat split; try lia. intros c I Ec.
    assert (In c (filter (fun c => ckey c =?= (n, (t, s))) l)).
    { apply filter_In. split; [assumption|]. rewrite Ec. apply keq_refl. }
    rewrite E0 in H. destruct H.
  - right. exists c. auto.
Qed.

Lemma collect_keys mts l n :
  dget n (collect mts l) <> None <-> exists c, In c l /\ c_name c = n.
Proof.
  destruct (collect_ok mts l) as [_ H]. specialize (H n). split.
  - intros E. destruct (dget n (collect mts l)) as [e|]; [|contradiction].
    destruct H as (A & _). destruct (filter (of_name n) l) as [|c r] eqn:F; [discriminate A|].
    exists c. assert (I : In c (filter (of_name n) l)) by (rewrite F; left; reflexivity).
    apply filter_In in I. split; [tauto|]. apply keq_true, I.
  - intros (c & I & E) F. rewrite F in H.
    assert (In c (filter (of_name n) l)) by (apply filter_In; split; [assumption|]; apply keq_eq; assumption).
    rewrite H in H0. destruct H0.
Qed.

(** ** The empty rows *)

Lemma fold_dset_map {V W} (f : str * V -> W) (d : dict str V) acc :
  wf_dict d -> (forall k, In k (keys d) -> ~ In k (keys acc)) ->
  fold_left (fun acc kv => dset (fst kv) (f kv) acc) d acc = acc ++ map (fun kv => (fst kv, f kv)) d.
Proof.
  revert acc. induction d as [|[k v] d IH]; simpl; intros acc W0 D; [symmetry; apply app_nil_r|].
  unfold wf_dict in W0. simpl in W0. inversion W0; subst.
  rewrite dset_notin by (apply D; auto). rewrite IH; [rewrite <- app_assoc; reflexivity|assumption|].
  intros k' I. unfold keys. rewrite map_app, in_app_iff. simpl. intros [J|[<-|[]]]; [|contradiction].
  apply (D k'); auto.
Qed.

Lemma summary_mts m : wf_map m ->
  get_summary_memory_types m =
  dmap (fun T => SType 0 0 (dmap (fun s : sect => SSect 0 0 (n_abbrev s)) (t_sections T))) (m_types m).
Proof.
  intros [W F]. unfold get_summary_memory_types.
  rewrite (fold_dset_map (fun t => SType 0 0 (fold_left (fun acc' s => dset (fst s) (SSect 0 0 (n_abbrev (snd s))) acc')
                            (t_sections (snd t)) []))) by (auto; intros k _ []).
  simpl. unfold dmap. apply map_ext_in. intros [t T] I. simpl. f_equal. f_equal.
  rewrite Forall_forall in F. destruct (F _ I) as [WT _]. simpl in WT.
  rewrite (fold_dset_map (fun s => SSect 0 0 (n_abbrev (snd s)))) by (auto; intros k _ []). reflexivity.
Qed.

Lemma summary_mts_zero m : wf_map m -> zero_mts (get_summary_memory_types m).
Proof.
  intros W. rewrite summary_mts by assumption. split.
  - apply wf_dmap, W.
  - intros t T E. rewrite dget_dmap in E. destruct (dget t (m_types m)) as [U|] eqn:EU; [|discriminate].
    injection E as <-. simpl. repeat split.
    + apply wf_dmap. apply (wf_map_type _ _ _ W EU).
    + rewrite dget_dmap in H. destruct (dget s (t_sections U)); [|discriminate]. injection H as <-. reflexivity.
    + rewrite dget_dmap in H. destruct (dget s (t_sections U)); [|discriminate]. injection H as <-. reflexivity.
Qed.

Lemma known_in m c T Q :
  wf_map m -> In (c_t c, T) (m_types m) -> In (c_s c, Q) (t_sections T) ->
  known (get_summary_memory_types m) c.
Proof.
  intros W I J. unfold known. rewrite summary_mts by assumption. rewrite dget_dmap.
  rewrite (In_dget _ _ _ (proj1 W) I). eexists. split; [reflexivity|]. simpl. rewrite keys_dmap.
  apply (in_map fst) in J. exact J.
Qed.
