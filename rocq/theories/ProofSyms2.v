From Coq Require Import Ascii String List ZArith Lia Bool Permutation Sorted.
From Verif Require Import Base MemMap SpecTree Pipeline SpecPipe SpecBuild SpecBytes SpecSyms ProofOps ProofArch ProofTypes ProofSplit ProofSyms ProofBytes.
Import ListNotations.
Open Scope list_scope.
Open Scope Z_scope.

Lemma begins_iff i y : begins (i_addr i) (i_size i) y = true <-> starts_in i y.
Proof. unfold begins, starts_in. rewrite andb_true_iff, Z.leb_le, Z.ltb_lt. reflexivity. Qed.

Lemma filter_all {A} (p : A -> bool) l : (forall x, In x l -> p x = true) -> filter p l = l.
Proof. induction l as [|x l IH]; intros H; [reflexivity|]. cbn [filter]. rewrite (H x) by (simpl; auto). f_equal. apply IH. intros; apply H; simpl; auto. Qed.
Lemma filter_none {A} (p : A -> bool) l : (forall x, In x l -> p x = false) -> filter p l = [].
Proof. induction l as [|x l IH]; intros H; [reflexivity|]. cbn [filter]. rewrite (H x) by (simpl; auto). apply IH. intros; apply H; simpl; auto. Qed.

Lemma not_begins i y : ~ starts_in i y -> begins (i_addr i) (i_size i) y = false.
Proof. intros H. destruct (begins _ _ y) eqn:E; [|reflexivity]. exfalso. apply H, begins_iff, E. Qed.

Lemma apart_sym i j : disjoint i j -> disjoint j i.
Proof. unfold disjoint. intuition. Qed.

Lemma own_group l G : ForallOrdPairs disjoint l -> Forall2 lists l G ->
  forall i g, In (i, g) (combine l G) -> filter (begins (i_addr i) (i_size i)) (concat G) = g.
Proof.
  intros D F. revert D. induction F as [|j h l G L F IH]; intros D i g I; [contradiction|]. inversion D as [|? ? Dj D']; subst.
  cbn [combine concat In] in *. rewrite filter_app. destruct I as [E|I].
  - injection E as -> ->. rewrite filter_all, filter_none; [apply app_nil_r| |].
    + intros y Iy. apply not_begins. intros St. apply in_concat in Iy. destruct Iy as (h & Ih & Iy).
      destruct (f2_In_r _ _ _ _ F Ih) as (k & Ik & [Lk _]). rewrite Forall_forall in Lk, Dj. specialize (Lk y Iy). specialize (Dj k Ik).
      unfold sym_inside, starts_in, disjoint in *. lia.
    + intros y Iy. apply begins_iff. destruct L as [L _]. rewrite Forall_forall in L. apply L, Iy.
  - rewrite filter_none, (IH D' i g I); [reflexivity|]. intros y Iy. apply not_begins. intros St. apply in_combine_l in I.
    destruct L as [L _]. rewrite Forall_forall in L, Dj. specialize (L y Iy). specialize (Dj i I). unfold sym_inside, starts_in, disjoint in *. lia.
Qed.

Lemma same_disjoint l m : Forall2 same_isec l m -> ForallOrdPairs disjoint l -> ForallOrdPairs disjoint m.
Proof.
  induction 1 as [|i j l m S F IH]; intros D; inversion D as [|? ? Di D']; subst; constructor; [|auto].
  clear -S F Di. rewrite Forall_forall in *. intros k Ik. destruct (f2_In_r _ _ _ _ F Ik) as (k' & Ik' & Sk). specialize (Di k' Ik').
  destruct S as (_ & S1 & S2 & _), Sk as (_ & S3 & S4 & _). unfold disjoint in *. rewrite <- S1, <- S2, <- S3, <- S4. exact Di.
Qed.
Lemma same_all_isecs l m : Forall2 same_osec l m -> Forall2 same_isec (all_isecs l) (all_isecs m).
Proof. unfold all_isecs. induction 1 as [|s t l m S F IH]; [constructor|]. cbn [flat_map]. apply Forall2_app; [apply S|exact IH]. Qed.

(** the symbols attached to the input sections *)
Lemma symbols_attached e sections out :
  add_symbols_to_sections e sections = Ok out ->
  ForallOrdPairs disjoint (all_isecs sections) -> Forall (fun i => 0 < i_size i) (all_isecs sections) ->
  Forall (fun j => Permutation (i_symbols j) (isec_symbols (option_map elf_symbols e) j)) (all_isecs out).
Proof.
  intros E D Po. destruct e as [e|]; cbn [option_map].
  - destruct (symbols_told _ _ _ E) as (S & G & sk & F & P & Sk). pose proof (same_all_isecs _ _ S) as Si.
    pose proof (same_disjoint _ _ Si D) as D'.
    assert (Fl : Forall2 lists (all_isecs out) G) by (clear -F; induction F as [|i g l G [H _] F IH]; constructor; assumption).
    apply Forall_forall. intros j Ij.
    assert (X : exists g, In (j, g) (combine (all_isecs out) G) /\ told e j g).
    { clear -F Ij. induction F as [|i g l G H F IH]; [contradiction|]. cbn [combine In] in *. destruct Ij as [->|Ij]; [eauto|].
      destruct (IH Ij) as (g' & ? & ?). eauto. }
    destruct X as (g & Ig & Hg). pose proof (own_group _ _ D' Fl j g Ig) as Eg.
    assert (Pg : Permutation g (filter (begins (i_addr j) (i_size j)) (filter wanted (elf_symbols e)))).
    { etransitivity; [|apply filter_perm, P]. rewrite filter_app, Eg, filter_none; [rewrite app_nil_r; reflexivity|].
      intros y Iy. apply not_begins. rewrite Forall_forall in Sk. specialize (Sk y Iy). rewrite Forall_forall in Sk. apply Sk, Ij. }
    assert (Nz : (i_size j =? 0) = false).
    { apply Z.eqb_neq. destruct (f2_In_r _ _ _ _ Si Ij) as (i & Ii & (_ & _ & Ez & _)). rewrite Forall_forall in Po. specialize (Po i Ii). lia. }
    unfold isec_symbols, symbols_at. rewrite Nz. destruct Hg as [[Hi Ho] Ht].
    destruct (filter (begins (i_addr j) (i_size j)) (filter wanted (elf_symbols e))) as [|y l] eqn:Ef.
    + apply Permutation_sym, Permutation_nil in Pg. clear Eg. subst g.
      destruct (existsb (fun y => i_addr j + i_size j <=? st_value y) (filter wanted (elf_symbols e))) eqn:Ex.
      * apply existsb_exists in Ex. destruct Ex as (y & Iy & Hy). apply filter_In in Iy. destruct Iy as [Iy W]. apply Z.leb_le in Hy.
        pose proof (no_holes _ _ _ E D Po j y Ij Iy W Hy) as Ne. destruct Ho as [Ho|[_ Ho]]; [exfalso; apply Ne, Ho|]. rewrite Ho. reflexivity.
      * destruct Ht as [Ht|(y & Iy & W & Hy)]; [rewrite Ht; reflexivity|]. exfalso.
        assert (X : existsb (fun y => i_addr j + i_size j <=? st_value y) (filter wanted (elf_symbols e)) = true); [|congruence].
        apply existsb_exists. exists y. split; [apply filter_In; auto|apply Z.leb_le, Hy].
    + destruct Ho as [->|[-> _]]; [apply Permutation_map, Pg|]. apply Permutation_nil in Pg. discriminate Pg.
  - destruct (own_names _ _ E) as [S F]. pose proof (same_all_isecs _ _ S) as Si. rewrite Forall_forall in *. intros j Ij. rewrite (F j Ij).
    unfold isec_symbols, symbols_at. destruct (f2_In_r _ _ _ _ Si Ij) as (i & Ii & (_ & _ & Ez & _)). specialize (Po i Ii).
    destruct (Z.eqb_spec (i_size j) 0); [lia|]. reflexivity.
Qed.

Lemma same_isec_symbols ys i j : same_isec i j -> isec_symbols ys i = isec_symbols ys j.
Proof. intros (E1 & E2 & E3 & _). unfold isec_symbols. rewrite E1, E2, E3. reflexivity. Qed.

Lemma flat_map_perm {A B} (f g : A -> list B) l : Forall (fun x => Permutation (f x) (g x)) l -> Permutation (flat_map f l) (flat_map g l).
Proof. induction 1; cbn [flat_map]; [constructor|]. apply Permutation_app; assumption. Qed.

Lemma symbols_of_same ys a o s t : same_osec (nonempty_isecs s) t -> Forall (fun j => Permutation (i_symbols j) (isec_symbols ys j)) (o_isecs t) ->
  Permutation (symbols_of_object a o (o_isecs t)) (symbols_in ys a o s).
Proof.
  intros (_ & _ & _ & F) P. unfold symbols_of_object, symbols_in.
  transitivity (flat_map (isec_symbols ys) (isecs_of_object a o (o_isecs t))).
  - apply flat_map_perm. unfold isecs_of_object. rewrite Forall_forall in *. intros j J. apply filter_In in J. apply P, J.
  - clear P. cbn [nonempty_isecs o_isecs] in F. unfold isecs_of_object. remember (filter (fun i => negb (i_size i =? 0)) (o_isecs s)) as l eqn:El.
    assert (X : forall l m, Forall2 same_isec l m ->
       flat_map (isec_symbols ys) (filter (fun i => (i_archive i =?= a) && (i_object i =?= o)) l) =
       flat_map (isec_symbols ys) (filter (fun i => (i_archive i =?= a) && (i_object i =?= o)) m)).
    { clear. induction 1 as [|i j l m S F IH]; [reflexivity|]. cbn [filter]. pose proof (same_isec_symbols ys _ _ S) as Es.
      destruct S as (_ & _ & _ & _ & -> & ->). destruct (_ && _); [|exact IH]. cbn [flat_map]. rewrite Es, IH. reflexivity. }
    rewrite <- (X _ _ F), El. clear. induction (o_isecs s) as [|i l IH]; [reflexivity|]. cbn [filter].
    destruct (Z.eqb_spec (i_size i) 0) as [Z0|Z0]; cbn [negb filter].
    + destruct (_ && _); cbn [flat_map]; rewrite IH; [|reflexivity]. unfold isec_symbols at 2. unfold symbols_at. rewrite Z0. reflexivity.
    + destruct (_ && _); cbn [flat_map]; [|exact IH]. apply Permutation_app_head, IH.
Qed.
