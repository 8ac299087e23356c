From Coq Require Import Ascii String List ZArith Lia Bool Permutation Sorted.
From Verif Require Import Base MemMap SpecTree Pipeline SpecPipe SpecBuild.
Import ListNotations.
Open Scope list_scope.
Open Scope Z_scope.


Lemma tiles_app a b c l m : isec_tiles a b l -> isec_tiles b c m -> isec_tiles a c (l ++ m).
Proof. induction 1 as [|p b l H IH]; intros M; [exact M|]. simpl. constructor. apply IH, M. Qed.

Lemma tiles_one p a b : a = i_addr p -> b = i_addr p + i_size p -> isec_tiles a b [p].
Proof. intros -> ->. constructor. constructor. Qed.

Lemma set_last_fill_size f l : zsumf i_size (set_last_fill f l) = zsumf i_size l.
Proof.
  unfold set_last_fill. rewrite <- (rev_involutive l) at 2. destruct (rev l) as [|i l']; [reflexivity|].
  simpl. rewrite !zsumf_app, !zsumf_cons, !zsumf_nil. reflexivity.
Qed.

Lemma set_last_fill_snoc f l i : set_last_fill f (l ++ [i]) =
  l ++ [ISection (i_name i) (i_addr i) (i_size i) f (i_archive i) (i_object i) (i_symbols i)].
Proof. unfold set_last_fill. rewrite rev_app_distr. simpl. rewrite rev_involutive. reflexivity. Qed.

Lemma covered_step symbols a y i n : covered_by ((a, y) :: symbols) i -> a < i_addr i + i_size i ->
  0 <= n -> n <= i_size i -> covered_by symbols (move_isec i n).
Proof.
  intros (H1 & (a' & y' & I & H2) & H3) L N1 N2. split; [cbn; lia|]. split.
  - destruct I as [E|I]; [injection E as <- <-; lia|]. exists a', y'. cbn. split; [exact I|lia].
  - intros b z Ib R. cbn [move_isec i_addr i_size] in *. replace (i_addr i + n + (i_size i - n)) with (i_addr i + i_size i) in * by lia. apply H3; [simpl; auto|lia].
Qed.

(** the state of the loop: [i] is what is left of [i0], [new] are its pieces *)
Lemma expand_inv all i0 : forall symbols i acc new,
  (forall x, In x symbols -> In x all) ->
  covered_by symbols i -> i_name i = i_name i0 -> i_object i = i_object i0 -> i_archive i = EXE -> i_fill i = i_fill i0 ->
  isec_tiles (i_addr i0) (i_addr i) new -> i_addr i + i_size i = i_addr i0 + i_size i0 ->
  Forall (piece_of all i0) new -> Forall (fun p => i_fill p = 0) new ->
  (new = [] -> 0 < i_size i) ->
  exists new', expand_isec symbols i (acc ++ new) = acc ++ new' /\
    isec_tiles (i_addr i0) (i_addr i0 + i_size i0) new' /\ Forall (piece_of all i0) new' /\
    zsumf i_fill new' = i_fill i0 /\ new' <> [].
Proof.
  induction symbols as [|[a y] symbols IH]; intros i acc new Sub C Hn Ho Ha Hf T E P F Ne.
  - destruct C as (_ & (a & y & [] & _) & _).
  - assert (Sub' : forall x, In x symbols -> In x all) by (intros x I; apply Sub; simpl; auto).
    pose proof C as (C1 & C2 & C3). cbn [expand_isec].
    assert (Py : a < i_addr i + i_size i -> i_addr i <= a -> piece_of all i0 (isec_of_asym y)).
    { intros L G. destruct (C3 a y) as (V & _ & _); [simpl; auto|lia|]. right. exists a, y. split; [apply Sub; simpl; auto|].
      cbn. repeat split. exact V. }
    destruct (Z.ltb_spec a (i_addr i)) as [L|L].
    { apply IH; try assumption. split; [exact C1|]. split.
      - destruct C2 as (a' & y' & I & H2). destruct I as [X|I]; [injection X as <- <-; lia|]. eauto.
      - intros b z I. apply C3. simpl. auto. }
    destruct (Z.eqb_spec a (i_addr i)) as [Ea|Na]; [destruct (Z.eqb_spec (i_size i) 0) as [Z0|Nz]|]; cbn [andb negb].
    + (* exhausted *)
      replace (a <? i_addr i + i_size i) with false by (symmetry; apply Z.ltb_ge; lia).
      replace (match acc ++ new with [] => true | _ => false end) with false.
      2: { destruct new; [specialize (Ne eq_refl); lia|]. destruct acc; reflexivity. }
      cbn [orb]. destruct (exists_last (l := new)) as (l & p & ->); [intros ->; specialize (Ne eq_refl); lia|].
      rewrite app_assoc, set_last_fill_snoc, <- app_assoc. eexists. split; [reflexivity|].
      rewrite Forall_app in P, F. destruct P as [P1 P2], F as [F1 F2].
      assert (G : zsumf i_fill l = 0) by (apply zsumf_zero; rewrite Forall_forall in F1; exact F1).
      split; [|split; [|split]].
      * rewrite <- E. rewrite Z0, Z.add_0_r.
        assert (X : forall a b l, isec_tiles a b (l ++ [p]) -> isec_tiles a b (l ++ [ISection (i_name p) (i_addr p) (i_size p) (i_fill i) (i_archive p) (i_object p) (i_symbols p)])).
        { clear. intros a b l. revert a. induction l as [|q l IH]; intros a H; simpl in *.
          - inversion H as [|? ? ? H']; subst. inversion H'; subst. apply tiles_one; reflexivity.
          - inversion H as [|? ? ? H']; subst. constructor. apply IH, H'. }
        apply X, T.
      * apply Forall_app. split; [exact P1|]. constructor; [|constructor]. inversion P2; subst. exact H1.
      * rewrite zsumf_app, zsumf_cons, zsumf_nil, G. cbn. rewrite Hf. lia.
      * destruct l; discriminate.
    + (* symbol at the start *)
      destruct (C3 a y) as (V & S1 & S2); [simpl; auto|lia|].
      rewrite <- app_assoc. apply IH; try assumption.
      * eapply covered_step; [exact C| | |]; lia.
      * cbn [move_isec i_addr]. eapply tiles_app; [exact T|]. apply tiles_one; cbn; lia.
      * cbn. lia.
      * apply Forall_app. split; [exact P|]. constructor; [|constructor]. apply Py; lia.
      * apply Forall_app. split; [exact F|]. constructor; [reflexivity|constructor].
      * intros X. destruct new; discriminate X.
    + destruct (Z.ltb_spec a (i_addr i + i_size i)) as [L2|L2].
      * (* gap before the symbol *)
        destruct (C3 a y) as (V & S1 & S2); [simpl; auto|lia|]. rewrite V.
        rewrite <- app_assoc. apply IH; try assumption.
        -- apply (covered_step symbols a y (move_isec i (a - i_addr i)) (av_size y)).
           ++ pose proof C as (D1 & D2 & D3). split; [cbn; lia|]. split.
              ** destruct D2 as (a' & y' & I & H2). exists a', y'. split; [exact I|cbn; lia].
              ** intros b z I R. cbn [move_isec i_addr i_size] in *.
                 replace (i_addr i + (a - i_addr i) + (i_size i - (a - i_addr i))) with (i_addr i + i_size i) in * by lia. apply D3; [exact I|lia].
           ++ cbn. lia.
           ++ exact S1.
           ++ cbn. lia.
        -- cbn [move_isec i_addr]. eapply tiles_app; [exact T|].
           change (resize_isec i (a - i_addr i) EXE :: [isec_of_asym y]) with ([resize_isec i (a - i_addr i) EXE] ++ [isec_of_asym y]).
           eapply tiles_app; apply tiles_one; try reflexivity; cbn; lia.
        -- cbn. lia.
        -- apply Forall_app. split; [exact P|]. constructor; [|constructor; [apply Py; lia|constructor]]. left. cbn. auto.
        -- apply Forall_app. split; [exact F|]. repeat constructor.
        -- intros X. destruct new; discriminate X.
      * (* no more symbols *)
        assert (G : zsumf i_fill new = 0) by (apply zsumf_zero; rewrite Forall_forall in F; exact F).
        assert (B : negb (i_size i =? 0) || match acc ++ new with [] => true | _ => false end = true \/ (i_size i = 0 /\ new <> [])).
        { destruct (Z.eqb_spec (i_size i) 0) as [Z0|]; [right|left; reflexivity]. split; [exact Z0|]. intros ->. specialize (Ne eq_refl). lia. }
        destruct B as [B|[Z0 Nn]].
        -- rewrite B. rewrite <- app_assoc. exists (new ++ [i]). split; [reflexivity|]. split; [|split; [|split]].
           ++ eapply tiles_app; [exact T|]. apply tiles_one; [reflexivity|lia].
           ++ apply Forall_app. split; [exact P|]. constructor; [|constructor]. left. rewrite Ha. auto.
           ++ rewrite zsumf_app, zsumf_cons, zsumf_nil, G. lia.
           ++ destruct new; discriminate.
        -- assert (X : match acc ++ new with [] => true | _ => false end = false) by (destruct new; [congruence|]; destruct acc; reflexivity).
           rewrite X, Z0. cbn [orb negb Z.eqb].
           destruct (exists_last Nn) as (l & p & ->).
           rewrite app_assoc, set_last_fill_snoc, <- app_assoc. eexists. split; [reflexivity|].
           rewrite Forall_app in P, F. destruct P as [P1 P2], F as [F1 F2].
           assert (G2 : zsumf i_fill l = 0) by (apply zsumf_zero; rewrite Forall_forall in F1; exact F1).
           split; [|split; [|split]].
           ++ rewrite <- E. rewrite Z0, Z.add_0_r.
              assert (Y : forall a b l, isec_tiles a b (l ++ [p]) -> isec_tiles a b (l ++ [ISection (i_name p) (i_addr p) (i_size p) (i_fill i) (i_archive p) (i_object p) (i_symbols p)])).
              { clear. intros a b l. revert a. induction l as [|q l IH]; intros a H; simpl in *.
                - inversion H as [|? ? ? H']; subst. inversion H'; subst. apply tiles_one; reflexivity.
                - inversion H as [|? ? ? H']; subst. constructor. apply IH, H'. }
              apply Y, T.
           ++ apply Forall_app. split; [exact P1|]. constructor; [|constructor]. inversion P2; subst. exact H1.
           ++ rewrite zsumf_app, zsumf_cons, zsumf_nil, G2. cbn. rewrite Hf. lia.
           ++ destruct l; discriminate.
Qed.

Lemma expand_pieces symbols i acc : i_archive i = EXE -> 0 < i_size i -> covered_by symbols i ->
  exists new, expand_isec symbols i acc = acc ++ new /\
    isec_tiles (i_addr i) (i_addr i + i_size i) new /\ Forall (piece_of symbols i) new /\ zsumf i_fill new = i_fill i.
Proof.
  intros A P C. destruct (expand_inv symbols i symbols i acc []) as (new & E & H1 & H2 & H3 & _); auto.
  - constructor.
  - rewrite app_nil_r in E. eauto.
Qed.

Lemma tiles_sum a b l : isec_tiles a b l -> zsumf i_size l = b - a.
Proof. induction 1 as [|p b l H IH]; [rewrite zsumf_nil; lia|]. rewrite zsumf_cons, IH. lia. Qed.

(** C31 *)
Lemma expand_osec_groups symbols s :
  Forall (fun i => i_archive i = EXE -> 0 < i_size i /\ covered_by symbols i) (o_isecs s) ->
  o_name (expand_osec symbols s) = o_name s /\ o_addr (expand_osec symbols s) = o_addr s /\ o_size (expand_osec symbols s) = o_size s /\
  exists groups, o_isecs (expand_osec symbols s) = concat groups /\
    Forall2 (fun i g => (i_archive i <> EXE /\ g = [i]) \/
       (i_archive i = EXE /\ isec_tiles (i_addr i) (i_addr i + i_size i) g /\ Forall (piece_of symbols i) g /\ zsumf i_fill g = i_fill i))
      (o_isecs s) groups.
Proof.
  intros H. split; [reflexivity|]. split; [reflexivity|]. split; [reflexivity|].
  unfold expand_osec. cbn [set_isecs o_isecs].
  assert (G : forall l acc, Forall (fun i => i_archive i = EXE -> 0 < i_size i /\ covered_by symbols i) l ->
    exists groups, fold_left (fun acc i => if negb (i_archive i =?= EXE) then acc ++ [i] else expand_isec symbols i acc) l acc = acc ++ concat groups /\
      Forall2 (fun i g => (i_archive i <> EXE /\ g = [i]) \/
       (i_archive i = EXE /\ isec_tiles (i_addr i) (i_addr i + i_size i) g /\ Forall (piece_of symbols i) g /\ zsumf i_fill g = i_fill i)) l groups).
  { induction l as [|i l IH]; intros acc F; [exists []; simpl; rewrite app_nil_r; split; [reflexivity|constructor]|].
    inversion F as [|? ? Hi F']; subst. cbn [fold_left]. destruct (keqP (i_archive i) EXE) as [Ea|Na]; cbn [negb].
    - destruct (Hi Ea) as [P C]. destruct (expand_pieces symbols i acc Ea P C) as (new & E & H1 & H2 & H3). rewrite E.
      destruct (IH (acc ++ new) F') as (gs & Eg & Fg). exists (new :: gs). rewrite Eg. cbn [concat]. rewrite <- app_assoc.
      split; [reflexivity|]. constructor; [right; auto|exact Fg].
    - destruct (IH (acc ++ [i]) F') as (gs & Eg & Fg). exists ([i] :: gs). rewrite Eg. cbn [concat]. rewrite <- app_assoc.
      split; [reflexivity|]. constructor; [left; auto|exact Fg]. }
  apply (G (o_isecs s) []). exact H.
Qed.

Lemma expand_osec_bytes symbols s :
  Forall (fun i => i_archive i = EXE -> 0 < i_size i /\ covered_by symbols i) (o_isecs s) ->
  zsumf i_size (o_isecs (expand_osec symbols s)) = zsumf i_size (o_isecs s) /\
  zsumf i_fill (o_isecs (expand_osec symbols s)) = zsumf i_fill (o_isecs s).
Proof.
  intros H. destruct (expand_osec_groups symbols s H) as (_ & _ & _ & gs & -> & F). clear H.
  induction F as [|i g l gs H F [IH1 IH2]]; [split; reflexivity|]. cbn [concat]. rewrite !zsumf_app, !zsumf_cons, IH1, IH2.
  destruct H as [[_ ->]|(_ & T & _ & Ef)].
  - rewrite !zsumf_cons, !zsumf_nil. split; lia.
  - rewrite (tiles_sum _ _ _ T), Ef. split; lia.
Qed.

(** sizes are kept also if there are empty '(exe)' sections *)
Lemma expand_isec_size : forall symbols i acc, covered_by symbols i ->
  zsumf i_size (expand_isec symbols i acc) = zsumf i_size acc + i_size i.
Proof.
  induction symbols as [|[a y] symbols IH]; intros i acc C.
  - destruct C as (_ & (a & y & [] & _) & _).
  - pose proof C as (C1 & C2 & C3). cbn [expand_isec].
    destruct (Z.ltb_spec a (i_addr i)) as [L|L].
    { apply IH. split; [exact C1|]. split.
      - destruct C2 as (a' & y' & I & H2). destruct I as [X|I]; [injection X as <- <-; lia|]. eauto.
      - intros b z I. apply C3. simpl. auto. }
    assert (Fin : a >= i_addr i + i_size i ->
      zsumf i_size (if negb (i_size i =? 0) || match acc with [] => true | _ => false end then acc ++ [i] else set_last_fill (i_fill i) acc) =
      zsumf i_size acc + i_size i).
    { intros _. destruct (Z.eqb_spec (i_size i) 0) as [Z0|N]; cbn [negb orb].
      - destruct acc as [|x acc]; [simpl; rewrite zsumf_cons, !zsumf_nil; lia|]. rewrite set_last_fill_size. lia.
      - rewrite zsumf_app, zsumf_cons, zsumf_nil. lia. }
    destruct (Z.eqb_spec a (i_addr i)) as [Ea|Na]; [destruct (Z.eqb_spec (i_size i) 0) as [Z0|Nz]|]; cbn [andb negb].
    + replace (a <? i_addr i + i_size i) with false by (symmetry; apply Z.ltb_ge; lia). cbn [orb]. rewrite Z0 in Fin. cbn [Z.eqb negb orb] in Fin. rewrite Z0. apply Fin. lia.
    + destruct (C3 a y) as (V & S1 & S2); [simpl; auto|lia|]. rewrite IH.
      * rewrite zsumf_app, zsumf_cons, zsumf_nil. cbn. lia.
      * eapply covered_step; [exact C| | |]; lia.
    + destruct (Z.ltb_spec a (i_addr i + i_size i)) as [L2|L2]; [|apply Fin; lia].
      destruct (C3 a y) as (V & S1 & S2); [simpl; auto|lia|]. rewrite V. rewrite IH.
      * rewrite zsumf_app, !zsumf_cons, zsumf_nil. cbn. lia.
      * apply (covered_step symbols a y (move_isec i (a - i_addr i)) (av_size y)).
        -- split; [cbn; lia|]. split.
           ++ destruct C2 as (a' & y' & I & H2). exists a', y'. split; [exact I|cbn; lia].
           ++ intros b z I R. cbn [move_isec i_addr i_size] in *.
              replace (i_addr i + (a - i_addr i) + (i_size i - (a - i_addr i))) with (i_addr i + i_size i) in * by lia. apply C3; [exact I|lia].
        -- cbn. lia.
        -- exact S1.
        -- cbn. lia.
Qed.

Lemma expand_osec_size symbols s :
  Forall (fun i => i_archive i = EXE -> covered_by symbols i) (o_isecs s) ->
  zsumf i_size (o_isecs (expand_osec symbols s)) = zsumf i_size (o_isecs s).
Proof.
  unfold expand_osec. cbn [set_isecs o_isecs].
  assert (G : forall l acc, Forall (fun i => i_archive i = EXE -> covered_by symbols i) l ->
    zsumf i_size (fold_left (fun acc i => if negb (i_archive i =?= EXE) then acc ++ [i] else expand_isec symbols i acc) l acc) = zsumf i_size acc + zsumf i_size l).
  { induction l as [|i l IH]; intros acc F; [simpl; rewrite zsumf_nil; lia|]. inversion F as [|? ? Hi F']; subst. cbn [fold_left].
    rewrite IH by exact F'. rewrite zsumf_cons. destruct (keqP (i_archive i) EXE) as [Ea|Na]; cbn [negb].
    - rewrite expand_isec_size by auto. lia.
    - rewrite zsumf_app, zsumf_cons, zsumf_nil. lia. }
  intros H. rewrite G by exact H. rewrite zsumf_nil. lia.
Qed.

(** without any condition nothing is invented in the sections that have an archive *)
Lemma keep_others symbols s i : In i (o_isecs s) -> i_archive i <> EXE ->
  exists j, In j (o_isecs (expand_osec symbols s)) /\ i_name j = i_name i /\ i_addr j = i_addr i /\ i_size j = i_size i /\
    i_archive j = i_archive i /\ i_object j = i_object i.
Proof.
  intros I Na. unfold expand_osec. cbn [set_isecs o_isecs].
  set (same := fun i j : isection => i_name j = i_name i /\ i_addr j = i_addr i /\ i_size j = i_size i /\
    i_archive j = i_archive i /\ i_object j = i_object i).
  assert (K : forall symbols i0 acc, (exists j, In j acc /\ same i j) -> exists j, In j (expand_isec symbols i0 acc) /\ same i j).
  { clear. induction symbols as [|[a y] symbols IH]; intros i0 acc X; cbn [expand_isec]; [exact X|].
    assert (Y : forall l, exists j, In j (acc ++ l) /\ same i j) by (intros l; destruct X as (j & I & H); exists j; split; [apply in_or_app; auto|exact H]).
    destruct (a <? i_addr i0); [apply IH, X|]. destruct ((a =? i_addr i0) && negb (i_size i0 =? 0)); [apply IH, Y|].
    destruct (a <? i_addr i0 + i_size i0); [apply IH, Y|].
    destruct (negb (i_size i0 =? 0) || _); [apply Y|].
    destruct X as (j & I & H). destruct acc as [|x acc'] using rev_ind; [contradiction|]. rewrite set_last_fill_snoc.
    apply in_app_iff in I. destruct I as [I|[<-|[]]].
    - exists j. split; [apply in_or_app; auto|exact H].
    - eexists. split; [apply in_or_app; right; simpl; left; reflexivity|]. unfold same in *. cbn. exact H. }
  assert (G : forall l acc, (exists j, In j acc /\ same i j) ->
     exists j, In j (fold_left (fun acc i => if negb (i_archive i =?= EXE) then acc ++ [i] else expand_isec symbols i acc) l acc) /\ same i j).
  { induction l as [|k l IH]; intros acc X; [exact X|]. cbn [fold_left]. apply IH. destruct (negb _); [|apply K, X].
    destruct X as (j & Ij & H). exists j. split; [apply in_or_app; auto|exact H]. }
  apply in_split in I. destruct I as (l1 & l2 & ->). rewrite fold_left_app. cbn [fold_left].
  destruct (keqP (i_archive i) EXE) as [Ea|_]; [contradiction|]. cbn [negb]. apply G.
  exists i. split; [apply in_or_app; simpl; auto|]. unfold same. auto.
Qed.
