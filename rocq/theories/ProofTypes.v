From Coq Require Import Ascii String List ZArith Lia Bool Permutation Sorted.
From Verif Require Import Base MemMap SpecTree Pipeline SpecPipe ProofArch.
Import ListNotations.
Open Scope list_scope.
Open Scope Z_scope.

(** ** first / last of a stable sort *)
Section Find.
  Context {A : Type} (key : A -> Z) (P : A -> bool).

  Lemma find_insert x l : StronglySorted (ordered key false) l ->
    find P (insert_sorted key false x l) =
    if P x then match find P l with Some r => if key x <=? key r then Some x else Some r | None => Some x end
    else find P l.
  Proof.
    induction l as [|y l IH]; intros So; cbn [insert_sorted].
    - simpl. destruct (P x); reflexivity.
    - inversion So as [|? ? So' F]; subst. specialize (IH So'). unfold before. destruct (Z.leb_spec (key x) (key y)).
      + cbn [find]. destruct (P x); [|reflexivity]. destruct (P y).
        * destruct (Z.leb_spec (key x) (key y)); [reflexivity|lia].
        * destruct (find P l) as [r|] eqn:E; [|reflexivity]. apply find_some in E. destruct E as [I _].
          rewrite Forall_forall in F. specialize (F r I). unfold ordered in F.
          destruct (Z.leb_spec (key x) (key r)); [reflexivity|lia].
      + cbn [find]. destruct (P y) eqn:Py.
        * destruct (P x); [|reflexivity]. destruct (Z.leb_spec (key x) (key y)); [lia|reflexivity].
        * exact IH.
  Qed.

  Lemma find_sorted_first l r : find P (py_sorted key false l) = Some r ->
    exists l1 l2, l = l1 ++ r :: l2 /\ P r = true /\
      (forall x, In x l1 -> P x = true -> key r < key x) /\ (forall x, In x l2 -> P x = true -> key r <= key x).
  Proof.
    revert r. induction l as [|x l IH]; intros r E; [discriminate E|]. cbn [py_sorted] in E.
    rewrite find_insert in E by apply py_sorted_sorted.
    assert (K : forall q, find P (py_sorted key false l) = Some q -> P x = false \/ key q < key x ->
      exists l1 l2, x :: l = l1 ++ q :: l2 /\ P q = true /\
        (forall x, In x l1 -> P x = true -> key q < key x) /\ (forall x, In x l2 -> P x = true -> key q <= key x)).
    { intros q Eq Hx. destruct (IH q Eq) as (l1 & l2 & -> & H1 & H2 & H3). exists (x :: l1), l2. split; [reflexivity|].
      split; [exact H1|]. split; [|exact H3]. intros z [<-|I] Pz; [|auto]. destruct Hx; [congruence|assumption]. }
    destruct (P x) eqn:Px; [|apply K; auto]. destruct (find P (py_sorted key false l)) as [q|] eqn:Eq.
    - destruct (Z.leb_spec (key x) (key q)).
      + injection E as <-. exists [], l. split; [reflexivity|]. split; [exact Px|]. split; [intros ? []|].
        intros z I Pz. destruct (IH q eq_refl) as (l1 & l2 & -> & H1 & H2 & H3). apply in_app_iff in I.
        destruct I as [I|[<-|I]]; [specialize (H2 z I Pz); lia|lia|specialize (H3 z I Pz); lia].
      + injection E as <-. apply K; auto.
    - injection E as <-. exists [], l. split; [reflexivity|]. split; [exact Px|]. split; [intros ? []|].
      intros z I Pz. exfalso. pose proof (find_none _ _ Eq z) as N.
      rewrite N in Pz; [discriminate Pz|]. apply py_sorted_In. exact I.
  Qed.

  Lemma find_rev_insert x l : StronglySorted (ordered key false) l ->
    find P (rev (insert_sorted key false x l)) =
    if P x then match find P (rev l) with Some r => if key x <=? key r then Some r else Some x | None => Some x end
    else find P (rev l).
  Proof.
    assert (FA : forall u v, find P (u ++ v) = match find P u with Some r => Some r | None => find P v end).
    { induction u as [|z u IHu]; intros v; simpl; [reflexivity|]. destruct (P z); [reflexivity|apply IHu]. }
    induction l as [|y l IH]; intros So; cbn [insert_sorted].
    - simpl. destruct (P x); reflexivity.
    - inversion So as [|? ? So' F]; subst. specialize (IH So'). unfold before. destruct (Z.leb_spec (key x) (key y)).
      + cbn [rev]. rewrite !FA. cbn [find]. destruct (find P (rev l)) as [r|] eqn:E.
        * destruct (P x); [|reflexivity]. apply find_some in E. destruct E as [I _]. apply in_rev in I.
          rewrite Forall_forall in F. specialize (F r I). unfold ordered in F.
          destruct (Z.leb_spec (key x) (key r)); [reflexivity|lia].
        * destruct (P y); destruct (P x); try reflexivity. destruct (Z.leb_spec (key x) (key y)); [reflexivity|lia].
      + cbn [rev]. rewrite !FA. rewrite IH. cbn [find]. destruct (P x); [|reflexivity].
        destruct (find P (rev l)) as [r|]; [destruct (_ <=? _); reflexivity|].
        destruct (P y); [|reflexivity]. destruct (Z.leb_spec (key x) (key y)); [lia|reflexivity].
  Qed.

  Lemma find_sorted_last l r : find P (rev (py_sorted key false l)) = Some r ->
    exists l1 l2, l = l1 ++ r :: l2 /\ P r = true /\
      (forall x, In x l1 -> P x = true -> key x <= key r) /\ (forall x, In x l2 -> P x = true -> key x < key r).
  Proof.
    revert r. induction l as [|x l IH]; intros r E; [discriminate E|]. cbn [py_sorted] in E.
    rewrite find_rev_insert in E by apply py_sorted_sorted.
    assert (K : forall q, find P (rev (py_sorted key false l)) = Some q -> P x = false \/ key x <= key q ->
      exists l1 l2, x :: l = l1 ++ q :: l2 /\ P q = true /\
        (forall x, In x l1 -> P x = true -> key x <= key q) /\ (forall x, In x l2 -> P x = true -> key x < key q)).
    { intros q Eq Hx. destruct (IH q Eq) as (l1 & l2 & -> & H1 & H2 & H3). exists (x :: l1), l2. split; [reflexivity|].
      split; [exact H1|]. split; [|exact H3]. intros z [<-|I] Pz; [|auto]. destruct Hx; [congruence|assumption]. }
    destruct (P x) eqn:Px; [|apply K; auto]. destruct (find P (rev (py_sorted key false l))) as [q|] eqn:Eq.
    - destruct (Z.leb_spec (key x) (key q)).
      + injection E as <-. apply K; auto.
      + injection E as <-. exists [], l. split; [reflexivity|]. split; [exact Px|]. split; [intros ? []|].
        intros z I Pz. destruct (IH q eq_refl) as (l1 & l2 & -> & H1 & H2 & H3). apply in_app_iff in I.
        destruct I as [I|[<-|I]]; [specialize (H2 z I Pz); lia|lia|specialize (H3 z I Pz); lia].
    - injection E as <-. exists [], l. split; [reflexivity|]. split; [exact Px|]. split; [intros ? []|].
      intros z I Pz. exfalso. pose proof (find_none _ _ Eq z) as N.
      rewrite N in Pz; [discriminate Pz|]. apply -> in_rev. apply py_sorted_In. exact I.
  Qed.
End Find.

(** ** locate *)
Definition inb (a : Z) (r : sregion) : bool := (sr_origin r <=? a) && (a <? sr_origin r + sr_length r).
Definition leb (a : Z) (r : sregion) : bool := sr_origin r <=? a.
Definition gtb (a : Z) (r : sregion) : bool := a <? sr_origin r.

Lemma inb_spec a r : inb a r = true <-> in_region r a.
Proof. unfold inb, in_region. rewrite andb_true_iff, Z.leb_le, Z.ltb_lt. tauto. Qed.

Lemma find_all_above a l : (forall x, In x l -> a < sr_origin x) -> find (leb a) (rev l) = None.
Proof.
  intros H. destruct (find _ _) as [r|] eqn:E; [|reflexivity]. apply find_some in E. destruct E as [I E].
  apply in_rev in I. specialize (H r I). unfold leb in E. apply Z.leb_le in E. lia.
Qed.

Lemma find_app {A} (P : A -> bool) u v :
  find P (u ++ v) = match find P u with Some r => Some r | None => find P v end.
Proof. induction u as [|z u IHu]; simpl; [reflexivity|]. destruct (P z); [reflexivity|apply IHu]. Qed.

Lemma locate_in l a : StronglySorted (ordered sr_origin false) l ->
  forall p r, (match p with Some q => sr_origin q <= a \/ True | None => True end) ->
  find (inb a) l = Some r -> locate p l a = Some (ct_name (sr_type r), false).
Proof.
  induction l as [|x l IH]; intros So p r Hp E; [discriminate E|]. inversion So as [|? ? So' F]; subst.
  cbn [find] in E. cbn [locate]. fold (inb a x). destruct (inb a x) eqn:B.
  - injection E as <-. reflexivity.
  - assert (L : (a <? sr_origin x) = false).
    { apply Z.ltb_ge. apply find_some in E. destruct E as [I E]. apply inb_spec in E. unfold in_region in E.
      rewrite Forall_forall in F. specialize (F r I). unfold ordered in F. lia. }
    destruct p as [q|]; [rewrite L|]; apply IH; auto.
Qed.

Lemma locate_out l a : StronglySorted (ordered sr_origin false) l -> find (inb a) l = None -> forall p,
  locate (Some p) l a = if existsb (gtb a) l
    then Some (ct_name (sr_type (match find (leb a) (rev l) with Some q => q | None => p end)), true) else None.
Proof.
  induction l as [|x l IH]; intros So E p; [reflexivity|]. inversion So as [|? ? So' F]; subst.
  cbn [find] in E. destruct (inb a x) eqn:B; [discriminate E|].
  cbn [locate existsb]. fold (inb a x). rewrite B. fold (gtb a x). destruct (gtb a x) eqn:G; cbn [orb].
  - rewrite find_all_above; [reflexivity|]. unfold gtb in G. apply Z.ltb_lt in G. intros y [<-|I]; [exact G|].
    rewrite Forall_forall in F. specialize (F y I). unfold ordered in F. lia.
  - rewrite (IH So' E). cbn [rev]. rewrite find_app. cbn [find]. unfold gtb in G. apply Z.ltb_ge in G.
    unfold leb at 3. apply Z.leb_le in G. rewrite G. destruct (find (leb a) (rev l)); reflexivity.
Qed.

(** the destination by address *)
Inductive loc (regions : list sregion) (a : Z) : option (str * bool) -> Prop :=
| loc_in : forall r, lowest_containing regions a r -> loc regions a (Some (ct_name (sr_type r), false))
| loc_gap : forall p, in_no_region regions a -> preceding regions a p -> some_above regions a ->
    loc regions a (Some (ct_name (sr_type p), true))
| loc_below : forall p, all_above regions a -> (2 <= length regions)%nat -> lowest regions p ->
    loc regions a (Some (ct_name (sr_type p), true))
| loc_one : all_above regions a -> (length regions <= 1)%nat -> loc regions a None
| loc_beyond : in_no_region regions a -> regions <> [] -> ~ some_above regions a -> loc regions a None.

Lemma locate_loc regions a : loc regions a (locate None (py_sorted sr_origin false regions) a).
Proof.
  set (l := py_sorted sr_origin false regions).
  assert (So : StronglySorted (ordered sr_origin false) l) by apply py_sorted_sorted.
  assert (In_l : forall x, In x l <-> In x regions) by (intros x; apply py_sorted_In).
  destruct (find (inb a) l) as [r|] eqn:E.
  - rewrite (locate_in l a So None r Logic.I E). apply loc_in.
    apply find_sorted_first in E. destruct E as (l1 & l2 & H1 & H2 & H3 & H4). exists l1, l2.
    split; [exact H1|]. split; [apply inb_spec, H2|]. split; intros x I Ix; [apply H3|apply H4]; auto; apply inb_spec, Ix.
  - assert (No : in_no_region regions a).
    { intros r I Ir. apply In_l in I. pose proof (find_none _ _ E r I) as N. apply inb_spec in Ir. congruence. }
    destruct l as [|r l'] eqn:El.
    + simpl. apply loc_one; [|].
      * intros x I. apply In_l in I. contradiction.
      * assert (length regions = 0)%nat; [|lia]. rewrite <- (py_sorted_length sr_origin false regions). fold l. rewrite El. reflexivity.
    + inversion So as [|? ? So' F]; subst l0 a0. pose proof E as E0. cbn [find] in E0. destruct (inb a r) eqn:B; [discriminate E0|].
      cbn [locate]. fold (inb a r). rewrite B. rewrite (locate_out l' a So' E0 r).
      destruct (Z.ltb_spec a (sr_origin r)) as [Ab|Be].
      * (* everything above *)
        assert (AA : forall x, In x (r :: l') -> a < sr_origin x).
        { intros x [<-|I]; [exact Ab|]. rewrite Forall_forall in F. specialize (F x I). unfold ordered in F. lia. }
        assert (AR : all_above regions a) by (intros x I; apply AA, In_l, I).
        destruct l' as [|q l''].
        -- simpl. apply loc_one; [exact AR|]. rewrite <- (py_sorted_length sr_origin false regions). fold l. rewrite El. simpl. lia.
        -- assert (G : existsb (gtb a) (q :: l'') = true).
           { simpl. unfold gtb at 1. destruct (Z.ltb_spec a (sr_origin q)); [reflexivity|].
             specialize (AA q ltac:(simpl; auto)). lia. }
           rewrite G, find_all_above by (intros x I; apply AA; right; exact I).
           apply loc_below; [exact AR| |].
           ++ rewrite <- (py_sorted_length sr_origin false regions). fold l. rewrite El. simpl. lia.
           ++ assert (X : find (fun _ => true) l = Some r) by (rewrite El; reflexivity).
              apply find_sorted_first in X. destruct X as (l1 & l2 & H1 & _ & H3 & H4). exists l1, l2. auto.
      * assert (Lr : leb a r = true) by (apply Z.leb_le, Be).
        assert (X : find (leb a) (rev l) = Some (match find (leb a) (rev l') with Some q => q | None => r end)).
        { rewrite El. cbn [rev]. rewrite find_app. cbn [find]. rewrite Lr. destruct (find (leb a) (rev l')); reflexivity. }
        destruct (existsb (gtb a) l') eqn:G.
        -- apply find_sorted_last in X. destruct X as (l1 & l2 & H1 & H2 & H3 & H4). apply loc_gap; [exact No| |].
           ++ exists l1, l2. split; [exact H1|]. split; [apply Z.leb_le, H2|].
              split; intros x I Lx; [apply H3|apply H4]; auto; apply Z.leb_le, Lx.
           ++ apply existsb_exists in G. destruct G as (x & I & G). exists x. split; [apply In_l; right; exact I|].
              apply Z.ltb_lt, G.
        -- apply loc_beyond; [exact No| |].
           ++ intros ->. specialize (proj1 (In_l r) ltac:(simpl; auto)). intros [].
           ++ intros (x & I & G'). apply In_l in I. destruct I as [<-|I]; [lia|].
              assert (existsb (gtb a) l' = true); [|congruence]. apply existsb_exists. exists x. split; [exact I|]. apply Z.ltb_lt, G'.
Qed.

(** ** route *)
Lemma startswith_spec p s : startswith p s = true <-> exists rest, s = p ++ rest.
Proof.
  revert s. induction p as [|c p IH]; intros s; simpl.
  - split; [intros _; exists s; reflexivity|reflexivity].
  - destruct s as [|d s]; [split; [discriminate|intros (rest & E); discriminate E]|].
    rewrite andb_true_iff, keq_eq, IH. split.
    + intros [-> (rest & ->)]. exists rest. reflexivity.
    + intros (rest & E). injection E as -> ->. split; [reflexivity|exists rest; reflexivity].
Qed.

Lemma ext_alias_spec types alias : ext_ram_alias types = Some alias <-> ext_ram types alias.
Proof.
  unfold ext_ram_alias, ext_ram. induction types as [|t types IH].
  - simpl. split; [discriminate|]. intros (l1 & t & l2 & E & _). destruct l1; discriminate E.
  - cbn [find]. unfold EXT_RAM_TYPE_NAMES in *.
    assert (B : existsb (fun n => ct_name t =?= list_ascii_of_string n) ["External RAM"; "SPI DRAM"] = true <->
                (ct_name t = "External RAM" \/ ct_name t = "SPI DRAM")).
    { cbn [existsb]. rewrite !orb_true_iff, !keq_eq. intuition discriminate. }
    destruct (existsb _ _) eqn:E.
    + cbn [option_map]. split.
      * intros X. injection X as <-. exists [], t, types. split; [reflexivity|]. split; [reflexivity|]. split; [apply B; reflexivity|intros ? []].
      * intros (l1 & u & l2 & Ex & <- & H & N). destruct l1 as [|v l1].
        -- injection Ex as -> _. reflexivity.
        -- injection Ex as -> _. destruct (N v ltac:(simpl; auto)) as [N1 N2]. destruct (proj1 B eq_refl); contradiction.
    + rewrite IH. split.
      * intros (l1 & u & l2 & -> & H1 & H2 & H3). exists (t :: l1), u, l2. split; [reflexivity|]. split; [exact H1|].
        split; [exact H2|]. intros v [<-|I]; [|auto]. split; intros X; assert (false = true) by (apply B; auto); discriminate.
      * intros (l1 & u & l2 & Ex & <- & H & N). destruct l1 as [|v l1].
        -- injection Ex as -> _. assert (false = true) by (apply B; exact H). discriminate.
        -- injection Ex as -> ->. exists l1, u, l2. split; [reflexivity|]. split; [reflexivity|]. split; [exact H|]. intros w I. apply N. right. exact I.
Qed.

Lemma ext_name_spec n :
  existsb (fun p => startswith (list_ascii_of_string p) n) EXT_RAM_SECTION_NAMES = true <-> ext_ram_name n.
Proof.
  unfold EXT_RAM_SECTION_NAMES, ext_ram_name. cbn [existsb]. rewrite !orb_true_iff, !startswith_spec. split.
  - intros [(r & E)|[(r & E)|E]]; [exists r; auto|exists r; auto|discriminate E].
  - intros (r & [E|E]); [left|right; left]; exists r; exact E.
Qed.

Lemma route_dest types regions s :
  dest types regions s (route (ext_ram_alias types) (py_sorted sr_origin false regions) s).
Proof.
  unfold route.
  assert (L : ~ by_name types (as_name s) -> dest types regions s (locate None (py_sorted sr_origin false regions) (as_addr s))).
  { intros N. destruct (locate_loc regions (as_addr s)).
    - apply dest_inside; assumption. - apply dest_gap; assumption. - apply dest_below; assumption.
    - apply dest_below_one; assumption. - apply dest_beyond; assumption. }
  destruct (ext_ram_alias types) as [alias|] eqn:E.
  - destruct (existsb _ EXT_RAM_SECTION_NAMES) eqn:B.
    + apply dest_name; [apply ext_alias_spec, E|apply ext_name_spec, B].
    + apply L. intros [_ N]. apply ext_name_spec in N. congruence.
  - apply L. intros [(alias & N) _]. apply ext_alias_spec in N. congruence.
Qed.

(** the relation determines the destination *)
Lemma decomp {A} (l1 l2 m1 m2 : list A) x y : l1 ++ x :: l2 = m1 ++ y :: m2 ->
  x = y \/ (In y l2 /\ In x m1) \/ (In y l1 /\ In x m2).
Proof.
  revert m1. induction l1 as [|z l1 IH]; intros [|w m1] E; simpl in E; injection E as E1 E2.
  - auto.
  - subst. right. left. split; [apply in_or_app; simpl; auto|simpl; auto].
  - subst. right. right. split; [simpl; auto|apply in_or_app; simpl; auto].
  - subst. destruct (IH _ E2) as [->|[[H1 H2]|[H1 H2]]]; [auto|right; left|right; right]; simpl; auto.
Qed.

Lemma lowest_containing_unique regions a r r' : lowest_containing regions a r -> lowest_containing regions a r' -> r = r'.
Proof.
  intros (l1 & l2 & E & H1 & H2 & H3) (m1 & m2 & E' & G1 & G2 & G3). rewrite E in E'.
  destruct (decomp _ _ _ _ _ _ E') as [->|[[I J]|[I J]]]; [reflexivity| |].
  - specialize (H3 r' I G1). specialize (G2 r J H1). lia.
  - specialize (H2 r' I G1). specialize (G3 r J H1). lia.
Qed.
Lemma preceding_unique regions a r r' : preceding regions a r -> preceding regions a r' -> r = r'.
Proof.
  intros (l1 & l2 & E & H1 & H2 & H3) (m1 & m2 & E' & G1 & G2 & G3). rewrite E in E'.
  destruct (decomp _ _ _ _ _ _ E') as [->|[[I J]|[I J]]]; [reflexivity| |].
  - specialize (H3 r' I G1). specialize (G2 r J H1). lia.
  - specialize (H2 r' I G1). specialize (G3 r J H1). lia.
Qed.
Lemma lowest_unique regions r r' : lowest regions r -> lowest regions r' -> r = r'.
Proof.
  intros (l1 & l2 & E & H2 & H3) (m1 & m2 & E' & G2 & G3). rewrite E in E'.
  destruct (decomp _ _ _ _ _ _ E') as [->|[[I J]|[I J]]]; [reflexivity| |].
  - specialize (H3 r' I). specialize (G2 r J). lia.
  - specialize (H2 r' I). specialize (G3 r J). lia.
Qed.

Lemma containing_In regions a r : lowest_containing regions a r -> In r regions /\ in_region r a.
Proof. intros (l1 & l2 & -> & H & _). split; [apply in_or_app; simpl; auto|exact H]. Qed.
Lemma preceding_In regions a r : preceding regions a r -> In r regions /\ sr_origin r <= a.
Proof. intros (l1 & l2 & -> & H & _). split; [apply in_or_app; simpl; auto|exact H]. Qed.
Lemma lowest_In regions r : lowest regions r -> In r regions.
Proof. intros (l1 & l2 & -> & _). apply in_or_app; simpl; auto. Qed.

Lemma dest_unique types regions s d d' : dest types regions s d -> dest types regions s d' -> d = d'.
Proof.
  intros D D'. destruct D as [al X N|r N H|p N H1 H2 H3|p N H1 H2 H3|N H1 H2|N H1 H2 H3];
    destruct D' as [al' X' N'|r' N' G|p' N' G1 G2 G3|p' N' G1 G2 G3|N' G1 G2|N' G1 G2 G3]; try reflexivity;
    try (exfalso; match goal with H : ~ by_name _ _ |- _ => apply H; split; eauto; fail end);
    repeat match goal with
    | H : lowest_containing _ _ _ |- _ => pose proof (containing_In _ _ _ H); revert H
    | H : preceding _ _ _ |- _ => pose proof (preceding_In _ _ _ H); revert H
    | H : lowest _ _ |- _ => pose proof (lowest_In _ _ H); revert H
    end; intros;
    try (exfalso; unfold in_no_region, all_above, some_above, in_region in *;
         repeat match goal with H : _ /\ _ |- _ => destruct H | H : exists _, _ |- _ => destruct H end;
         first [ match goal with H : forall r, In r _ -> ~ _, I : In ?r _ |- _ => apply (H r I); lia end
               | match goal with H : forall r, In r _ -> _ < _, I : In ?r _ |- _ => specialize (H r I); lia end
               | lia
               | match goal with H : ~ exists _, _, I : In ?r ?l, A : forall r, In r ?l -> _ |- _ => apply H; exists r; split; [exact I|apply A; exact I] end
               | match goal with H : ~ exists _, _ |- _ => apply H; eauto end
               | destruct regions as [|q ?]; [contradiction|]; match goal with H : ~ exists _, _, A : forall r, In r _ -> _ < _ |- _ => apply H; exists q; split; [left; reflexivity|apply A; left; reflexivity] end ]).
  - f_equal. f_equal. apply ext_alias_spec in X, X'. congruence.
  - rewrite (lowest_containing_unique regions (as_addr s) r r') by assumption. reflexivity.
  - rewrite (preceding_unique regions (as_addr s) p p') by assumption. reflexivity.
  - rewrite (lowest_unique regions p p') by assumption. reflexivity.
Qed.

(** ** sizes *)

Definition mtype_nil : mtype := MType 0 0 0 0 [].

Lemma initial_get types t T : dget t (initial_map types) = Some T -> T = mtype_nil.
Proof.
  unfold initial_map. assert (H : forall l d, (forall T, dget t d = Some T -> T = mtype_nil) ->
    dget t (fold_left (fun d c => dset (ct_name c) (MType 0 0 0 0 []) d) l d) = Some T -> T = mtype_nil).
  { induction l as [|c l IH]; intros d Hd; simpl; [apply Hd|]. apply IH. intros T' E.
    destruct (keqP t (ct_name c)) as [->|N].
    - rewrite dget_dset_eq in E. injection E as <-. reflexivity.
    - rewrite dget_dset_neq in E by exact N. apply Hd, E. }
  apply H. intros T' E. discriminate E.
Qed.

Lemma initial_keys types t : In t (keys (initial_map types)) <-> exists c, In c types /\ ct_name c = t.
Proof.
  unfold initial_map. assert (H : forall l d, In t (keys (fold_left (fun d c => dset (ct_name c) (MType 0 0 0 0 []) d) l d)) <->
    In t (keys d) \/ exists c, In c l /\ ct_name c = t).
  { induction l as [|c l IH]; intros d; simpl.
    - split; [auto|]. intros [H|(c & [] & _)]. exact H.
    - rewrite IH, In_keys_dset. split.
      + intros [[->|H]|(c' & I & E)]; eauto.
      + intros [H|(c' & [->|I] & E)]; eauto. }
  rewrite H. split; [intros [[]|E]; exact E|auto].
Qed.

Lemma initial_wf types : wf_dict (initial_map types).
Proof.
  unfold initial_map. assert (H : forall l (d : dict str mtype), wf_dict d -> wf_dict (fold_left (fun d c => dset (ct_name c) (MType 0 0 0 0 []) d) l d)).
  { induction l as [|c l IH]; intros d W; simpl; [exact W|]. apply IH, wf_dset, W. }
  apply H. constructor.
Qed.

Lemma with_prefix_snoc {A} (b l : list A) x : with_prefix b (l ++ [x]) = with_prefix b l ++ [(b ++ l, x)].
Proof.
  revert b. induction l as [|y l IH]; intros b; simpl.
  - rewrite app_nil_r. reflexivity.
  - rewrite IH, <- app_assoc. reflexivity.
Qed.

Lemma type_size_snoc t l r : type_size t (l ++ [r]) =
  type_size t l + if (ct_name (sr_type r) =?= t) && negb (existsb (fun b => mirrors b r) l) then sr_length r else 0.
Proof.
  unfold type_size. rewrite with_prefix_snoc, filter_app, zsumf_app. cbn [filter app]. cbn [fst snd].
  destruct (_ && _); rewrite ?zsumf_cons, ?zsumf_nil; cbn [snd]; lia.
Qed.

Definition of_type (t : str) (r : sregion) : bool := ct_name (sr_type r) =?= t.

Lemma mirrors_filter r l : existsb (fun b => mirrors b r) l =
  existsb (fun b => (window_distance (sr_type r) =? Z.abs (sr_origin b - sr_origin r)) && (sr_length b =? sr_length r))
          (filter (of_type (ct_name (sr_type r))) l).
Proof.
  induction l as [|b l IH]; [reflexivity|]. cbn [existsb filter]. unfold mirrors at 1. fold (of_type (ct_name (sr_type r)) b).
  destruct (of_type (ct_name (sr_type r)) b); cbn [andb orb existsb]; [|exact IH]. rewrite IH. f_equal.
  unfold window_distance. destruct (ct_secondary (sr_type r) =? 0); cbn [negb]; rewrite andb_comm; f_equal; apply Z.eqb_sym.
Qed.

Lemma regions_fold types l :
  let st := fold_left add_region l (initial_map types, []) in
  wf_dict (fst st) /\ keys (fst st) = keys (initial_map types) /\
  (forall t, match dget t (snd st) with Some x => x | None => [] end = filter (of_type t) l) /\
  (forall t T, dget t (fst st) = Some T -> T = MType (type_size t l) 0 0 0 []).
Proof.
  induction l as [|r l IH] using rev_ind; cbv zeta.
  - split; [apply initial_wf|]. split; [reflexivity|]. split; [reflexivity|]. intros t T E.
    cbn [fold_left fst] in E. apply initial_get in E. exact E.
  - rewrite fold_left_app. cbn [fold_left]. cbv zeta in IH. destruct (fold_left add_region l (initial_map types, [])) as [m seen].
    cbn [fst snd] in IH. destruct IH as (W & K & Hs & Ht). unfold add_region.
    pose proof (Hs (ct_name (sr_type r))) as Hr. set (al := ct_name (sr_type r)) in *.
    set (before := match dget al seen with Some l => l | None => [] end) in *.
    assert (S' : forall t, match dget t (dset al (before ++ [r]) seen) with Some x => x | None => [] end = filter (of_type t) (l ++ [r])).
    { intros t. rewrite filter_app. cbn [filter]. unfold of_type at 2. fold al. destruct (keqP t al) as [->|N].
      - rewrite dget_dset_eq, keq_refl. rewrite Hr. reflexivity.
      - rewrite dget_dset_neq by exact N. rewrite (Hs t). replace (al =?= t) with false by (symmetry; apply keq_neq; congruence).
        rewrite app_nil_r. reflexivity. }
    assert (Mi : existsb (fun b => mirrors b r) l =
                 existsb (fun b => (window_distance (sr_type r) =? Z.abs (sr_origin b - sr_origin r)) && (sr_length b =? sr_length r)) before).
    { rewrite mirrors_filter. fold al. rewrite <- Hr. reflexivity. }
    assert (G : forall f, (existsb (fun b => mirrors b r) l = false) ->
      (forall T, dget al m = Some T -> f (t_size T) = type_size al l + sr_length r) ->
      let m' := dupd al (fun t => MType (f (t_size t)) (t_size_diff t) (t_used t) (t_used_diff t) (t_sections t)) m in
      wf_dict m' /\ keys m' = keys (initial_map types) /\ forall t T, dget t m' = Some T -> T = MType (type_size t (l ++ [r])) 0 0 0 []).
    { intros f Nm Hf m'. split; [apply wf_dupd, W|]. split; [unfold m'; rewrite keys_dupd; exact K|]. intros t T E. unfold m' in E.
      rewrite type_size_snoc. fold al. rewrite Nm. cbn [negb]. rewrite andb_true_r. destruct (keqP t al) as [->|N].
      - rewrite dget_dupd_eq in E. destruct (dget al m) as [T0|] eqn:E0; [|discriminate E]. injection E as <-.
        specialize (Hf T0 eq_refl). pose proof (Ht _ _ E0) as X. rewrite Hf, X. cbn [t_size_diff t_used t_used_diff t_sections]. rewrite keq_refl. reflexivity.
      - rewrite dget_dupd_neq in E by exact N. replace (al =?= t) with false by (symmetry; apply keq_neq; congruence).
        rewrite Z.add_0_r. apply Ht, E. }
    destruct before as [|b0 bs] eqn:Eb.
    + cbn [existsb] in Mi. cbn [fst snd]. destruct (G (fun _ => sr_length r) Mi) as (G1 & G2 & G3).
      { intros T _. assert (Z0 : type_size al l = 0); [|lia]. unfold type_size.
        assert (X : forall p, filter (fun br => (ct_name (sr_type (snd br)) =?= al) && negb (existsb (fun b => mirrors b (snd br)) (fst br))) (with_prefix p l) = []).
        { symmetry in Hr. clear -Hr. revert Hr. induction l as [|x l IH]; intros Hr p; [reflexivity|]. cbn [filter] in Hr.
          unfold of_type at 1 in Hr. cbn [with_prefix filter snd]. destruct (ct_name (sr_type x) =?= al); [discriminate Hr|].
          cbn [andb]. apply IH, Hr. }
        rewrite X. reflexivity. }
      split; [exact G1|]. split; [exact G2|]. split; [exact S'|exact G3].
    + rewrite <- Mi. destruct (existsb (fun b => mirrors b r) l) eqn:Em; cbn [fst snd].
      * split; [exact W|]. split; [exact K|]. split; [exact S'|]. intros t T E. rewrite type_size_snoc, Em. cbn [negb].
        rewrite andb_false_r, Z.add_0_r. apply Ht, E.
      * destruct (G (fun z => z + sr_length r) eq_refl) as (G1 & G2 & G3).
        { intros T E. rewrite (Ht _ _ E). reflexivity. }
        split; [exact G1|]. split; [exact G2|]. split; [exact S'|exact G3].
Qed.

(** ** sections *)

Definition dset_all {V} (d : dict str V) (l : list (str * V)) : dict str V :=
  fold_left (fun d kv => dset (fst kv) (snd kv) d) l d.
Definition rnode (s : asection) (ov : bool) : sect :=
  Node (if ov then abbrev (reported_name s ov) else as_abbrev s) (as_size s) 0 (as_archives s).
Definition assigned ext sorted (t : str) (l : list asection) : list (str * sect) :=
  flat_map (fun s => match route ext sorted s with
    | Some (al, ov) => if al =?= t then [(reported_name s ov, rnode s ov)] else []
    | None => [] end) l.

Lemma add_section_get ext sorted m s t :
  dget t (add_section ext sorted m s) =
  option_map (fun T => MType (t_size T) (t_size_diff T) (t_used T + zsumf (fun kv => n_size (snd kv)) (assigned ext sorted t [s]))
                             (t_used_diff T) (dset_all (t_sections T) (assigned ext sorted t [s]))) (dget t m).
Proof.
  unfold add_section, assigned, dset_all. cbn [flat_map].
  assert (I : forall o : option mtype, o = option_map (fun T => MType (t_size T) (t_size_diff T) (t_used T + 0) (t_used_diff T) (t_sections T)) o).
  { intros [[]|]; cbn; rewrite ?Z.add_0_r; reflexivity. }
  destruct (route ext sorted s) as [[al ov]|]; cbn [app]; [|apply I].
  rewrite app_nil_r. destruct (keqP al t) as [->|N].
  - rewrite dget_dupd_eq. destruct (dget t m) as [T|]; [|reflexivity]. cbn [option_map zsumf map zsum fold_left fst snd rnode n_size].
    rewrite Z.add_0_r. destruct ov; reflexivity.
  - rewrite dget_dupd_neq by congruence. apply I.
Qed.

Lemma zsumf_used_add ext sorted m s : (forall al ov, route ext sorted s = Some (al, ov) -> In al (keys m)) ->
  zsumf (fun kv => t_used (snd kv)) (add_section ext sorted m s) =
  zsumf (fun kv => t_used (snd kv)) m + if is_some (route ext sorted s) then as_size s else 0.
Proof.
  intros K. unfold add_section. destruct (route ext sorted s) as [[al ov]|]; cbn [is_some]; [|lia].
  specialize (K al ov eq_refl). apply In_key_dget in K. destruct K as [T E].
  rewrite zsumf_dupd, E. cbn [t_used]. lia.
Qed.

Lemma assigned_app ext sorted t l m : assigned ext sorted t (l ++ m) = assigned ext sorted t l ++ assigned ext sorted t m.
Proof. apply flat_map_app. Qed.

Lemma sections_fold ext sorted m0 l :
  let m := fold_left (add_section ext sorted) l m0 in
  keys m = keys m0 /\
  (forall t, dget t m = option_map (fun T => MType (t_size T) (t_size_diff T)
      (t_used T + zsumf (fun kv => n_size (snd kv)) (assigned ext sorted t l)) (t_used_diff T)
      (dset_all (t_sections T) (assigned ext sorted t l))) (dget t m0)) /\
  ((forall s al ov, In s l -> route ext sorted s = Some (al, ov) -> In al (keys m0)) ->
   zsumf (fun kv => t_used (snd kv)) m =
   zsumf (fun kv => t_used (snd kv)) m0 + zsumf (fun s => if is_some (route ext sorted s) then as_size s else 0) l).
Proof.
  induction l as [|s l IH] using rev_ind; cbv zeta.
  - split; [reflexivity|]. split; [|intros _; cbn [fold_left]; rewrite zsumf_nil; lia].
    intros t. cbn [fold_left assigned flat_map]. rewrite zsumf_nil. destruct (dget t m0) as [[]|]; cbn; rewrite ?Z.add_0_r; reflexivity.
  - cbv zeta in IH. rewrite fold_left_app. cbn [fold_left]. set (m := fold_left (add_section ext sorted) l m0) in *.
    destruct IH as (H1 & H2 & H3). split; [|split].
    + rewrite <- H1. unfold add_section. destruct (route ext sorted s) as [[al ov]|]; [|reflexivity]. apply keys_dupd.
    + intros t. rewrite add_section_get, H2. destruct (dget t m0) as [T|]; [|reflexivity]. cbn [option_map t_size t_size_diff t_used t_used_diff t_sections].
      rewrite (assigned_app _ _ _ l [s]), zsumf_app. unfold dset_all. rewrite fold_left_app. rewrite Z.add_assoc. reflexivity.
    + intros K. rewrite zsumf_used_add, H3, zsumf_app, zsumf_cons, zsumf_nil.
      * lia.
      * intros s' al ov I. apply K. apply in_or_app. auto.
      * intros al ov E. rewrite H1. apply (K s al ov); [apply in_or_app; simpl; auto|exact E].
Qed.

Lemma dset_all_wf {V} (d : dict str V) l : wf_dict d -> wf_dict (dset_all d l).
Proof. unfold dset_all. revert d. induction l as [|kv l IH]; simpl; intros d W; [exact W|]. apply IH, wf_dset, W. Qed.

Lemma dset_all_get {V} (l : list (str * V)) n :
  match dget n (dset_all [] l) with
  | Some x => exists l1 l2, l = l1 ++ (n, x) :: l2 /\ forall kv, In kv l2 -> fst kv <> n
  | None => forall kv, In kv l -> fst kv <> n
  end.
Proof.
  unfold dset_all. induction l as [|[k v] l IH] using rev_ind; [intros ? []|].
  rewrite fold_left_app. cbn [fold_left fst snd]. destruct (keqP n k) as [->|N].
  - rewrite dget_dset_eq. exists l, []. split; [reflexivity|intros ? []].
  - rewrite dget_dset_neq by exact N. destruct (dget n _) as [x|].
    + destruct IH as (l1 & l2 & -> & H). exists l1, (l2 ++ [(k, v)]). split; [rewrite <- app_assoc; reflexivity|].
      intros kv I. apply in_app_iff in I. destruct I as [I|[<-|[]]]; [auto|simpl; congruence].
    + intros kv I. apply in_app_iff in I. destruct I as [I|[<-|[]]]; [auto|simpl; congruence].
Qed.

Lemma dset_all_distinct {V} (l : list (str * V)) : NoDup (map fst l) -> dset_all [] l = l.
Proof.
  unfold dset_all. induction l as [|[k v] l IH] using rev_ind; intros N; [reflexivity|].
  rewrite map_app in N. pose proof (NoDup_remove_1 _ _ _ N) as N1. pose proof (NoDup_remove_2 _ _ _ N) as N2.
  rewrite app_nil_r in N1, N2. rewrite fold_left_app, IH by exact N1. cbn [fold_left fst snd]. apply dset_notin, N2.
Qed.

(** ** the whole map *)

Definition dests_of (types : list chip_type) (regions : list sregion) (l : list asection) : list (option (str * bool)) :=
  map (route (ext_ram_alias types) (py_sorted sr_origin false regions)) l.

Lemma dests_ok types regions l : Forall2 (dest types regions) l (dests_of types regions l).
Proof. induction l as [|s l IH]; simpl; constructor; [apply route_dest|exact IH]. Qed.

Lemma dests_only types regions l ds : Forall2 (dest types regions) l ds -> ds = dests_of types regions l.
Proof.
  induction 1 as [|s d l ds H F IH]; [reflexivity|]. simpl. f_equal; [|exact IH]. eapply dest_unique; [exact H|apply route_dest].
Qed.

Lemma combine_map {A B} (f : A -> B) l : combine l (map f l) = map (fun a => (a, f a)) l.
Proof. induction l as [|a l IH]; simpl; [reflexivity|]. f_equal. exact IH. Qed.

Lemma route_known types regions s al ov : Forall (fun r => In (sr_type r) types) regions ->
  route (ext_ram_alias types) (py_sorted sr_origin false regions) s = Some (al, ov) ->
  exists c, In c types /\ ct_name c = al.
Proof.
  intros H E. pose proof (route_dest types regions s) as D. rewrite E in D. rewrite Forall_forall in H.
  inversion D as [al' X|r ? X|p ? ? X|p ? ? ? X| |]; subst.
  - destruct X as (l1 & t & l2 & -> & <- & _). exists t. split; [apply in_or_app; simpl; auto|reflexivity].
  - apply containing_In in X. destruct X as [X _]. eauto.
  - apply preceding_In in X. destruct X as [X _]. eauto.
  - apply lowest_In in X. eauto.
Qed.

Lemma map_keys types regions l t :
  In t (keys (get_mem_type_map types regions l)) <-> exists c, In c types /\ ct_name c = t.
Proof.
  unfold get_mem_type_map, add_regions. destruct (sections_fold (ext_ram_alias types) (py_sorted sr_origin false regions)
    (fst (fold_left add_region regions (initial_map types, []))) l) as (-> & _).
  destruct (regions_fold types regions) as (_ & -> & _). apply initial_keys.
Qed.

Lemma map_wf types regions l : wf_dict (get_mem_type_map types regions l).
Proof.
  unfold get_mem_type_map, add_regions, wf_dict. destruct (sections_fold (ext_ram_alias types) (py_sorted sr_origin false regions)
    (fst (fold_left add_region regions (initial_map types, []))) l) as (-> & _).
  destruct (regions_fold types regions) as (W & _). exact W.
Qed.

Lemma map_get types regions l t T : dget t (get_mem_type_map types regions l) = Some T ->
  let A := assigned (ext_ram_alias types) (py_sorted sr_origin false regions) t l in
  T = MType (type_size t regions) 0 (zsumf (fun kv => n_size (snd kv)) A) 0 (dset_all [] A).
Proof.
  intros E. unfold get_mem_type_map, add_regions in E.
  destruct (sections_fold (ext_ram_alias types) (py_sorted sr_origin false regions)
    (fst (fold_left add_region regions (initial_map types, []))) l) as (_ & H & _).
  rewrite H in E. destruct (regions_fold types regions) as (_ & _ & _ & R).
  destruct (dget t (fst _)) as [T0|] eqn:E0; [|discriminate E]. rewrite (R _ _ E0) in E. cbn in E. injection E as <-. reflexivity.
Qed.

Lemma assigned_used types regions l t :
  zsumf (fun kv => n_size (snd kv)) (assigned (ext_ram_alias types) (py_sorted sr_origin false regions) t l) =
  zsumf (fun sd => as_size (fst sd)) (filter (goes_to t) (combine l (dests_of types regions l))).
Proof.
  unfold dests_of, assigned. rewrite combine_map. induction l as [|s l IH]; [reflexivity|]. cbn [flat_map map filter].
  unfold goes_to at 1. cbn [snd]. destruct (route _ _ s) as [[al ov]|]; [|exact IH].
  destruct (al =?= t); cbn [app]; [|exact IH]. rewrite !zsumf_cons. cbn [fst snd rnode n_size]. rewrite IH. reflexivity.
Qed.

(** C19 *)
Lemma map_total types regions l dests :
  Forall (fun r => In (sr_type r) types) regions ->
  Forall2 (dest types regions) l dests ->
  zsumf (fun kv => t_used (snd kv)) (get_mem_type_map types regions l) =
  zsumf (fun sd => as_size (fst sd)) (filter (fun sd => is_some (snd sd)) (combine l dests)).
Proof.
  intros H D. apply dests_only in D. subst. unfold get_mem_type_map, add_regions.
  destruct (sections_fold (ext_ram_alias types) (py_sorted sr_origin false regions)
    (fst (fold_left add_region regions (initial_map types, []))) l) as (_ & _ & S3). cbv zeta in S3.
  rewrite S3.
  - destruct (regions_fold types regions) as (W & _ & _ & R). cbv zeta in W, R.
    rewrite (zsumf_zero (fun kv => t_used (snd kv))).
    + unfold dests_of. rewrite combine_map, zsumf_filter, zsumf_map. reflexivity.
    + intros [t T] I. apply In_dget in I; [|exact W]. rewrite (R _ _ I). reflexivity.
  - intros s al ov _ E. destruct (regions_fold types regions) as (_ & -> & _). apply initial_keys.
    eapply route_known; eassumption.
Qed.

Lemma map_used types regions l dests t T :
  Forall2 (dest types regions) l dests ->
  dget t (get_mem_type_map types regions l) = Some T ->
  t_used T = zsumf (fun sd => as_size (fst sd)) (filter (goes_to t) (combine l dests)).
Proof.
  intros D E. apply dests_only in D. subst. apply map_get in E. cbv zeta in E. rewrite E. cbn [t_used]. apply assigned_used.
Qed.

(** C20 *)

Lemma assigned_names types regions l t :
  map fst (assigned (ext_ram_alias types) (py_sorted sr_origin false regions) t l) =
  flat_map dest_names (filter (goes_to t) (combine l (dests_of types regions l))).
Proof.
  unfold dests_of, assigned. rewrite combine_map. induction l as [|s l IH]; [reflexivity|]. cbn [flat_map map filter].
  unfold goes_to at 1. cbn [snd]. destruct (route _ _ s) as [[al ov]|] eqn:R; [|exact IH].
  destruct (al =?= t); cbn [app]; [|exact IH]. cbn [flat_map map]. unfold dest_names at 1. cbn [snd fst app]. f_equal. exact IH.
Qed.

Lemma map_used_sum types regions l dests t T :
  Forall2 (dest types regions) l dests ->
  dget t (get_mem_type_map types regions l) = Some T ->
  NoDup (flat_map dest_names (filter (goes_to t) (combine l dests))) ->
  t_used T = zsumf (fun kv => n_size (snd kv)) (t_sections T).
Proof.
  intros D E N. apply dests_only in D. subst. rewrite <- assigned_names in N. apply map_get in E. cbv zeta in E.
  rewrite E. cbn [t_used t_sections]. rewrite dset_all_distinct by exact N. reflexivity.
Qed.

(** C21 *)
Lemma map_sizes types regions l t T :
  dget t (get_mem_type_map types regions l) = Some T -> t_size T = type_size t regions.
Proof. intros E. apply map_get in E. cbv zeta in E. rewrite E. reflexivity. Qed.

(** C22 *)
Lemma In_assigned types regions l t n x :
  In (n, x) (assigned (ext_ram_alias types) (py_sorted sr_origin false regions) t l) ->
  exists s ov, In s l /\ dest types regions s (Some (t, ov)) /\ n = reported_name s ov /\ x = rnode s ov.
Proof.
  unfold assigned. intros I. apply in_flat_map in I. destruct I as (s & Is & I).
  pose proof (route_dest types regions s) as D. destruct (route _ _ s) as [[al ov]|]; [|destruct I].
  destruct (keqP al t) as [->|]; [|destruct I]. destruct I as [I|[]]. injection I as <- <-. eauto 10.
Qed.

Lemma map_sections types regions l t T n :
  dget t (get_mem_type_map types regions l) = Some T ->
  match dget n (t_sections T) with
  | Some x => exists l1 s l2 ov, l = l1 ++ s :: l2 /\ dest types regions s (Some (t, ov)) /\
                n = reported_name s ov /\ reported s ov x /\
                forall s' ov', In s' l2 -> dest types regions s' (Some (t, ov')) -> reported_name s' ov' <> n
  | None => forall s ov, In s l -> dest types regions s (Some (t, ov)) -> reported_name s ov <> n
  end.
Proof.
  intros E. apply map_get in E. cbv zeta in E. rewrite E. cbn [t_sections].
  set (A := assigned (ext_ram_alias types) (py_sorted sr_origin false regions)) in *.
  assert (Hin : forall l' s ov, In s l' -> dest types regions s (Some (t, ov)) -> In (reported_name s ov, rnode s ov) (A t l')).
  { intros l' s ov I D. unfold A, assigned. apply in_flat_map. exists s. split; [exact I|].
    rewrite (dest_unique _ _ _ _ _ (route_dest types regions s) D), keq_refl. left. reflexivity. }
  pose proof (dset_all_get (A t l) n) as G. destruct (dget n (dset_all [] (A t l))) as [x|].
  - destruct G as (a1 & a2 & EA & N). clear E.
    assert (Sp : forall l, A t l = a1 ++ (n, x) :: a2 -> exists l1 s l2 ov, l = l1 ++ s :: l2 /\
      dest types regions s (Some (t, ov)) /\ n = reported_name s ov /\ x = rnode s ov /\ A t l2 = a2).
    { clear EA l. revert a1. intros a1 l. revert a1. induction l as [|s l IH]; intros a1 EA; [destruct a1; discriminate EA|].
      unfold A, assigned in EA. cbn [flat_map] in EA. fold (assigned (ext_ram_alias types) (py_sorted sr_origin false regions) t l) in EA. fold (A t l) in EA.
      pose proof (route_dest types regions s) as D. destruct (route _ _ s) as [[al ov]|].
      - destruct (keqP al t) as [->|].
        + cbn [app] in EA. destruct a1 as [|y a1]; injection EA as E1 E2.
          * exists [], s, l, ov. subst. auto.
          * destruct (IH a1 E2) as (l1 & s' & l2 & ov' & -> & H). exists (s :: l1), s', l2, ov'. auto.
        + destruct (IH a1 EA) as (l1 & s' & l2 & ov' & -> & H). exists (s :: l1), s', l2, ov'. auto.
      - destruct (IH a1 EA) as (l1 & s' & l2 & ov' & -> & H). exists (s :: l1), s', l2, ov'. auto. }
    destruct (Sp l EA) as (l1 & s & l2 & ov & -> & H1 & H2 & H3 & H4). exists l1, s, l2, ov. split; [reflexivity|].
    split; [exact H1|]. split; [exact H2|]. split.
    + subst x. repeat split; try reflexivity. intros ->. reflexivity.
    + intros s' ov' I D. apply (N (reported_name s' ov', rnode s' ov')). rewrite <- H4. apply Hin; assumption.
  - intros s ov I D. apply (G (reported_name s ov, rnode s ov)). apply Hin; assumption.
Qed.

Lemma map_only types regions l t T :
  dget t (get_mem_type_map types regions l) = Some T ->
  wf_dict (t_sections T) /\ t_size_diff T = 0 /\ t_used_diff T = 0.
Proof.
  intros E. apply map_get in E. cbv zeta in E. rewrite E. cbn. split; [|auto]. apply dset_all_wf. constructor.
Qed.

(** C23: a part in a gap between two regions *)
Lemma gap_reported types regions l s p :
  Forall (fun r => In (sr_type r) types) regions ->
  In s l -> ~ by_name types (as_name s) -> in_no_region regions (as_addr s) ->
  preceding regions (as_addr s) p -> some_above regions (as_addr s) ->
  exists T x, dget (ct_name (sr_type p)) (get_mem_type_map types regions l) = Some T /\
    dget (as_name s ++ "_overflow") (t_sections T) = Some x.
Proof.
  intros HT I N H1 H2 H3. pose proof (dest_gap types regions s p N H1 H2 H3) as D.
  assert (K : In (ct_name (sr_type p)) (keys (get_mem_type_map types regions l))).
  { apply map_keys. exists (sr_type p). split; [|reflexivity]. rewrite Forall_forall in HT. apply HT. apply (preceding_In _ _ _ H2). }
  apply In_key_dget in K. destruct K as [T E]. exists T.
  pose proof (map_sections types regions l _ T (as_name s ++ "_overflow") E) as M.
  match type of M with match ?e with _ => _ end => destruct e as [x|] eqn:Ex end; [exists x; auto|].
  exfalso. apply (M s true I D). reflexivity.
Qed.

(** C24 *)
Lemma ext_listed types regions l s alias :
  ext_ram types alias -> ext_ram_name (as_name s) -> In s l ->
  exists T x, dget alias (get_mem_type_map types regions l) = Some T /\ dget (as_name s) (t_sections T) = Some x.
Proof.
  intros X N I. pose proof (dest_name types regions s alias X N) as D.
  assert (K : In alias (keys (get_mem_type_map types regions l))).
  { apply map_keys. destruct X as (l1 & t & l2 & -> & <- & _). exists t. split; [apply in_or_app; simpl; auto|reflexivity]. }
  apply In_key_dget in K. destruct K as [T E]. exists T.
  pose proof (map_sections types regions l _ T (as_name s) E) as M.
  match type of M with match ?e with _ => _ end => destruct e as [x|] eqn:Ex end; [exists x; auto|]. exfalso. apply (M s false I D). reflexivity.
Qed.

Lemma ext_elsewhere types regions l alias t T s ov :
  ext_ram types alias -> ext_ram_name (as_name s) -> t <> alias ->
  dget t (get_mem_type_map types regions l) = Some T -> ~ dest types regions s (Some (t, ov)).
Proof.
  intros X N Ne _ D. pose proof (dest_unique _ _ _ _ _ D (dest_name types regions s alias X N)) as E. congruence.
Qed.

Definition set_addr (s : asection) (a : Z) : asection :=
  ASection (as_name s) a (as_size s) (as_abbrev s) (as_archives s).

Lemma ext_address_irrelevant types regions l (f : asection -> asection) alias :
  ext_ram types alias ->
  (forall s, In s l -> f s = s \/ (ext_ram_name (as_name s) /\ exists a, f s = set_addr s a)) ->
  get_mem_type_map types regions (map f l) = get_mem_type_map types regions l.
Proof.
  intros X H. apply ext_alias_spec in X. unfold get_mem_type_map. rewrite X. generalize (add_regions types regions).
  induction l as [|s l IH]; intros m; [reflexivity|]. cbn [map fold_left].
  rewrite IH by (intros s' I; apply H; right; exact I). f_equal.
  destruct (H s (or_introl eq_refl)) as [->|(N & a & ->)]; [reflexivity|].
  unfold add_section, route. cbn [set_addr as_name as_addr]. apply ext_name_spec in N. rewrite N. reflexivity.
Qed.

Lemma others_by_address types regions s s' d :
  ~ ext_ram_name (as_name s) -> ~ ext_ram_name (as_name s') -> as_addr s = as_addr s' ->
  dest types regions s d -> dest types regions s' d.
Proof.
  intros N N' E D. assert (B' : ~ by_name types (as_name s')) by (intros [_ X]; contradiction).
  destruct D; try rewrite E in *; try contradiction.
  - apply dest_inside; assumption. - apply dest_gap; assumption. - apply dest_below; assumption.
  - apply dest_below_one; assumption. - apply dest_beyond; assumption.
Qed.
