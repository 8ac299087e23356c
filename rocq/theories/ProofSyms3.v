From Coq Require Import Ascii String List ZArith Lia Bool Permutation Sorted.
From Verif Require Import Base MemMap SpecTree Pipeline SpecPipe SpecBuild SpecBytes SpecSyms ProofOps ProofArch ProofTypes ProofSplit ProofBuild ProofSyms ProofStrip ProofExpand ProofGet ProofRegions ProofBytes ProofBytes2 ProofBytes3 ProofSyms2.
Import ListNotations.
Open Scope list_scope.
Open Scope Z_scope.

(** ** cuts *)

Definition within (i : isection) : Prop := Forall (symbol_inside i) (i_symbols i).
Definition filled_in (s : osection) : Prop := Forall (fun i => 0 <= i_size i /\ 0 <= i_fill i /\ o_addr s <= i_addr i /\ i_addr i + i_size i <= o_addr s + o_size s /\ within i) (o_isecs s).

Lemma cut_keeps_filled : cut_keeps filled_in.
Proof.
  intros cut s C F. unfold filled_in in *. rewrite Forall_forall in F. cbn [cut_section fst snd o_isecs o_addr o_size].
  assert (Sp : forall i y z, within i -> 0 <= i_size i -> i_addr i <= cut -> In y (i_symbols i) ->
    (In z (fst (split_symbol cut y)) -> 0 <= sy_size z /\ i_addr i <= sy_addr z /\ sy_addr z + sy_size z <= i_addr i + Z.min (cut - i_addr i) (i_size i)) /\
    (In z (snd (split_symbol cut y)) -> 0 <= sy_size z /\ cut <= sy_addr z /\ sy_addr z + sy_size z <= cut + (i_size i - Z.min (cut - i_addr i) (i_size i)))).
  { intros i y z W Hs Hc Iy. unfold within in W. rewrite Forall_forall in W. specialize (W y Iy). unfold symbol_inside in W. unfold split_symbol.
    destruct (Z.leb_spec (sy_addr y + sy_size y) cut); cbn [fst snd In]; [|destruct (Z.ltb_spec cut (sy_addr y)); cbn [fst snd In]];
      split; intros J; try contradiction; destruct J as [<-|[]]; cbn [sy_addr sy_size]; lia. }
  split; apply Forall_forall; intros j J; apply in_flat_map in J; destruct J as (i & I & J); specialize (F i I);
    destruct F as (F1 & F2 & F3 & F4 & F5); unfold split_isec in J;
    (destruct (Z.leb_spec (i_addr i + i_size i + i_fill i) cut); cbn [fst snd In] in J; [|destruct (Z.ltb_spec cut (i_addr i)); cbn [fst snd In] in J]);
    try contradiction; destruct J as [<-|[]]; cbn [i_size i_addr i_fill]; (split; [lia|]); (split; [lia|]); (split; [lia|]); (split; [lia|]); try exact F5.
  - unfold within. cbn [i_symbols fst snd split_symbols]. apply Forall_forall. intros z Iz. apply in_flat_map in Iz. destruct Iz as (y & Iy & Iz).
    unfold symbol_inside. cbn [i_addr i_size]. eapply (Sp i y z); eauto; lia.
  - unfold within. cbn [i_symbols fst snd split_symbols]. apply Forall_forall. intros z Iz. apply in_flat_map in Iz. destruct Iz as (y & Iy & Iz).
    unfold symbol_inside. cbn [i_addr i_size]. eapply (Sp i y z); eauto; lia.
Qed.

Definition named (y : str) (z : symbol) : bool := sy_name z =?= y.
Definition named_bytes (P : Z -> bool) (y : str) (i : isection) : Z := zsumf (fun z => bytes_with P (sy_addr z) (sy_size z)) (filter (named y) (i_symbols i)).

Lemma additive_named P y : additive (named_bytes P y).
Proof.
  intros cut i. unfold split_isec.
  destruct (Z.leb_spec (i_addr i + i_size i + i_fill i) cut); cbn [fst snd]; [rewrite zsumf_cons, !zsumf_nil; lia|].
  destruct (Z.ltb_spec cut (i_addr i)); cbn [fst snd]; [rewrite zsumf_cons, !zsumf_nil; lia|].
  rewrite !zsumf_cons, !zsumf_nil. unfold named_bytes. cbn [i_symbols split_symbols fst snd]. rewrite !Z.add_0_r.
  induction (i_symbols i) as [|z l IH]; [reflexivity|]. cbn [flat_map]. rewrite !filter_app, !zsumf_app. cbn [filter].
  assert (X : zsumf (fun z => bytes_with P (sy_addr z) (sy_size z)) (filter (named y) (fst (split_symbol cut z))) +
              zsumf (fun z => bytes_with P (sy_addr z) (sy_size z)) (filter (named y) (snd (split_symbol cut z))) =
              if named y z then bytes_with P (sy_addr z) (sy_size z) else 0).
  { unfold split_symbol. destruct (Z.leb_spec (sy_addr z + sy_size z) cut); cbn [fst snd filter]; [destruct (named y z); rewrite ?zsumf_cons, !zsumf_nil; lia|].
    destruct (Z.ltb_spec cut (sy_addr z)); cbn [fst snd filter]; [destruct (named y z); rewrite ?zsumf_cons, !zsumf_nil; lia|].
    unfold named at 1 2. cbn [sy_name]. fold (named y z). destruct (named y z); [|reflexivity]. rewrite !zsumf_cons, !zsumf_nil. cbn [sy_addr sy_size]. rewrite !Z.add_0_r.
    pose proof (bytes_app P (sy_addr z) (cut - sy_addr z) (sy_size z - (cut - sy_addr z)) ltac:(lia) ltac:(lia)) as B.
    replace (cut - sy_addr z + (sy_size z - (cut - sy_addr z))) with (sy_size z) in B by lia.
    replace (sy_addr z + (cut - sy_addr z)) with cut in B by lia. symmetry. exact B. }
  destruct (named y z); [rewrite zsumf_cons|]; lia.
Qed.

(** names stay distinct, and no new ones arise *)
Lemma sublist_names {A B} (n : B -> A) (l m : list B) : (exists f, l = flat_map f m /\ forall x, f x = [] \/ exists y, f x = [y] /\ n y = n x) ->
  (NoDup (map n m) -> NoDup (map n l)) /\ incl (map n l) (map n m).
Proof.
  intros (f & -> & H).
  assert (Inc : forall m, incl (map n (flat_map f m)) (map n m)).
  { intros m' a I. apply List.in_map_iff in I. destruct I as (y & <- & I). apply in_flat_map in I. destruct I as (x & Ix & Iy).
    destruct (H x) as [E|(y' & E & En)]; rewrite E in Iy; [contradiction|]. destruct Iy as [<-|[]]. rewrite En. apply List.in_map, Ix. }
  split; [|apply Inc]. induction m as [|x m IH]; intros N; [constructor|]. cbn [map flat_map] in *. inversion N as [|? ? Nx N']; subst.
  destruct (H x) as [E|(y' & E & En)]; rewrite E; cbn [app map]; [auto|]. constructor; [|auto]. rewrite En. intros I. apply Nx, Inc, I.
Qed.

Lemma split_names cut l : (NoDup (map sy_name l) -> NoDup (map sy_name (fst (split_symbols cut l))) /\ NoDup (map sy_name (snd (split_symbols cut l)))) /\
  incl (map sy_name (fst (split_symbols cut l))) (map sy_name l) /\ incl (map sy_name (snd (split_symbols cut l))) (map sy_name l).
Proof.
  assert (H1 : forall y, fst (split_symbol cut y) = [] \/ exists z, fst (split_symbol cut y) = [z] /\ sy_name z = sy_name y).
  { intros y. unfold split_symbol. destruct (_ <=? _); [right; eexists; split; reflexivity|]. destruct (_ <? _); [left; reflexivity|right; eexists; split; reflexivity]. }
  assert (H2 : forall y, snd (split_symbol cut y) = [] \/ exists z, snd (split_symbol cut y) = [z] /\ sy_name z = sy_name y).
  { intros y. unfold split_symbol. destruct (_ <=? _); [left; reflexivity|]. destruct (_ <? _); right; eexists; split; reflexivity. }
  destruct (sublist_names sy_name (fst (split_symbols cut l)) l) as [A1 A2]; [exists (fun y => fst (split_symbol cut y)); split; [reflexivity|exact H1]|].
  destruct (sublist_names sy_name (snd (split_symbols cut l)) l) as [B1 B2]; [exists (fun y => snd (split_symbol cut y)); split; [reflexivity|exact H2]|].
  repeat split; auto.
Qed.

Definition distinct_in (a o : str) (s : osection) : Prop := NoDup (map sy_name (symbols_of_object a o (o_isecs s))).

Lemma nodup_app_iff {A} (l m : list A) : NoDup (l ++ m) <-> NoDup l /\ NoDup m /\ (forall x, In x l -> ~ In x m).
Proof.
  induction l as [|x l IH]; cbn [app].
  - split; [intros H; split; [constructor|split; [exact H|intros ? []]]|intros (_ & H & _); exact H].
  - split.
    + intros H. inversion H as [|? ? Nx N]; subst. apply IH in N. destruct N as (N1 & N2 & N3). split; [constructor; [|exact N1]; intros I; apply Nx, in_or_app; auto|].
      split; [exact N2|]. intros y [<-|I]; [intros J; apply Nx, in_or_app; auto|apply N3, I].
    + intros (H1 & H2 & H3). inversion H1 as [|? ? Nx N]; subst. constructor; [|apply IH; split; [exact N|split; [exact H2|intros y I; apply H3; right; exact I]]].
      intros I. apply in_app_iff in I. destruct I as [I|I]; [contradiction|]. eapply H3; [left; reflexivity|exact I].
Qed.

(** one side of a cut of an input section *)
Lemma side_names (side : list isection * list isection -> list isection) cut :
  (side = fst \/ side = snd) -> forall a o i,
  (NoDup (map sy_name (symbols_of_object a o [i])) -> NoDup (map sy_name (symbols_of_object a o (side (split_isec cut i))))) /\
  incl (map sy_name (symbols_of_object a o (side (split_isec cut i)))) (map sy_name (symbols_of_object a o [i])).
Proof.
  intros Hs a o i. destruct (split_names cut (i_symbols i)) as (N & I1 & I2). unfold split_isec.
  destruct (_ <=? _); [destruct Hs as [->| ->]; cbn [fst snd]; [split; [auto|intros ? H; exact H]|split; [constructor|intros ? []]]|].
  destruct (_ <? _); [destruct Hs as [->| ->]; cbn [fst snd]; [split; [constructor|intros ? []]|split; [auto|intros ? H; exact H]]|].
  destruct Hs as [->| ->]; cbn [fst snd]; unfold symbols_of_object, isecs_of_object; cbn [filter i_archive i_object]; destruct (_ && _); cbn [flat_map i_symbols]; rewrite ?app_nil_r;
    (split; [intros Nd; try (apply N, Nd); constructor|first [assumption | intros ? []]]).
Qed.

Lemma symbols_cons a o i l : symbols_of_object a o (i :: l) = symbols_of_object a o [i] ++ symbols_of_object a o l.
Proof. unfold symbols_of_object, isecs_of_object. cbn [filter]. destruct (_ && _); cbn [flat_map]; rewrite ?app_nil_r; reflexivity. Qed.
Lemma symbols_app a o l m : symbols_of_object a o (l ++ m) = symbols_of_object a o l ++ symbols_of_object a o m.
Proof. unfold symbols_of_object, isecs_of_object. rewrite filter_app, flat_map_app. reflexivity. Qed.

Lemma cut_names (side : list isection * list isection -> list isection) cut a o :
  (side = fst \/ side = snd) -> forall l,
  (NoDup (map sy_name (symbols_of_object a o l)) -> NoDup (map sy_name (symbols_of_object a o (flat_map (fun i => side (split_isec cut i)) l)))) /\
  incl (map sy_name (symbols_of_object a o (flat_map (fun i => side (split_isec cut i)) l))) (map sy_name (symbols_of_object a o l)).
Proof.
  intros Hs. induction l as [|i l [IH1 IH2]]; [split; [auto|intros ? H; exact H]|]. cbn [flat_map]. rewrite symbols_app, (symbols_cons a o i l), !map_app.
  destruct (side_names side cut Hs a o i) as [S1 S2]. split.
  - intros N. apply nodup_app_iff in N. destruct N as (N1 & N2 & N3). apply nodup_app_iff. split; [auto|]. split; [auto|].
    intros x I J. apply (N3 x); [apply S2, I|apply IH2, J].
  - intros x I. apply in_app_iff in I. apply in_or_app. destruct I; [left; apply S2|right; apply IH2]; assumption.
Qed.

Lemma cut_keeps_distinct a o : cut_keeps (distinct_in a o).
Proof.
  intros cut s _ H. unfold distinct_in in *. cbn [cut_section fst snd o_isecs].
  split; [apply (cut_names fst cut a o (or_introl eq_refl)), H|apply (cut_names snd cut a o (or_intror eq_refl)), H].
Qed.
Lemma cut_keeps_names a o (names : list str) : cut_keeps (fun s => incl (map sy_name (symbols_of_object a o (o_isecs s))) names).
Proof.
  intros cut s _ H. cbn [cut_section fst snd o_isecs].
  split; (eapply incl_tran; [|exact H]); [apply (cut_names fst cut a o (or_introl eq_refl))|apply (cut_names snd cut a o (or_intror eq_refl))].
Qed.

(** ** sizes in the dictionaries *)
Lemma last_distinct y l : NoDup (map sy_name l) -> match last_symbol y l with Some z => z | None => 0 end = zsumf sy_size (filter (named y) l).
Proof.
  intros N. unfold last_symbol.
  assert (X : forall l, NoDup (map sy_name l) -> match option_map sy_size (find (fun s => sy_name s =?= y) l) with Some z => z | None => 0 end = zsumf sy_size (filter (named y) l)).
  { clear. induction l as [|z l IH]; intros N; [reflexivity|]. cbn [map find filter] in *. inversion N as [|? ? Nz N']; subst. unfold named at 1.
    destruct (keqP (sy_name z) y) as [<-|]; [|apply IH, N']. cbn [option_map]. rewrite zsumf_cons, filter_none, zsumf_nil; [lia|].
    intros x Ix. unfold named. destruct (keqP (sy_name x) (sy_name z)) as [E|]; [|reflexivity]. exfalso. apply Nz. rewrite <- E. apply List.in_map, Ix. }
  rewrite X by (rewrite map_rev; apply NoDup_rev, N). apply zsumf_perm, filter_perm, Permutation_sym, Permutation_rev.
Qed.

Lemma zsumf_flat {A B} (f : B -> Z) (g : A -> list B) l : zsumf f (flat_map g l) = zsumf (fun x => zsumf f (g x)) l.
Proof. induction l as [|x l IH]; [reflexivity|]. cbn [flat_map]. rewrite zsumf_app, zsumf_cons, IH. reflexivity. Qed.
Lemma filter_flat {A B} (p : B -> bool) (g : A -> list B) l : filter p (flat_map g l) = flat_map (fun x => filter p (g x)) l.
Proof. induction l as [|x l IH]; [reflexivity|]. cbn [flat_map]. rewrite filter_app, IH. reflexivity. Qed.

Lemma symbol_size_part a o y p ov : distinct_in a o p ->
  symbol_size a o y (Some (rnode (add_archives p) ov)) = zsumf sy_size (filter (named y) (symbols_of_object a o (o_isecs p))).
Proof.
  intros N. unfold symbol_size. change (n_sub (rnode (add_archives p) ov)) with (as_archives (add_archives p)).
  assert (Z0 : (forall i, In i (o_isecs p) -> (i_archive i =?= a) && (i_object i =?= o) = false) -> symbols_of_object a o (o_isecs p) = []).
  { intros H. unfold symbols_of_object, isecs_of_object. rewrite filter_none by exact H. reflexivity. }
  destruct (dget a (as_archives (add_archives p))) as [x|] eqn:E.
  - destruct (dget o (n_sub x)) as [b|] eqn:E2.
    + rewrite <- (last_distinct y _ N), <- (object_symbols_last p a o x b y E E2). destruct (dget y (n_sub b)); reflexivity.
    + rewrite Z0; [reflexivity|]. intros i I. destruct (keqP (i_archive i) a) as [<-|]; [|reflexivity]. cbn [andb].
      destruct (keqP (i_object i) o) as [<-|]; [|reflexivity]. exfalso.
      destruct (archives_listed p i I) as (x' & b & E3 & E4). rewrite E in E3. injection E3 as <-. congruence.
  - rewrite Z0; [reflexivity|]. intros i I. destruct (keqP (i_archive i) a) as [<-|]; [|reflexivity]. exfalso.
    destruct (archives_listed p i I) as (x' & b & E3 & E4). congruence.
Qed.

Lemma symbol_listed_part a o y p arc b z : dget a (as_archives (add_archives p)) = Some arc -> dget o (n_sub arc) = Some b -> dget y (n_sub b) = Some z ->
  In y (map sy_name (symbols_of_object a o (o_isecs p))).
Proof.
  intros E1 E2 E3. pose proof (object_symbols_last p a o arc b y E1 E2) as L. rewrite E3 in L. cbn [option_map] in L. unfold last_symbol in L.
  destruct (find _ _) as [s|] eqn:F; [|discriminate L]. apply find_some in F. destruct F as [F1 F2]. apply keq_eq in F2. subst y.
  apply List.in_map. apply in_rev in F1. exact F1.
Qed.
