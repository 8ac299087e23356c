From Coq Require Import Ascii String List ZArith Bool Lia Sorting.Sorted Permutation.
From Verif Require Import Base MemMap SpecTree Pipeline PyStr SpecPipe SpecBuild SpecBytes ProofBytes ProofBytes3 ProofGet MapFile SpecMap ElfRead SpecElf ProofElf1 ProofElf2 Dwarf SpecDwarf SpecDebug ProofDwarf4 ProofDump4
  Project SpecProject ProofProject1 ProofProject2 SpecShape SpecPath ProofPath SpecOwner SpecEnd ProofEnd Chips SpecChips ProofChips SpecLto SpecLto2 ProofLto1 ProofLto2.
Import ListNotations.
Open Scope list_scope.
Open Scope Z_scope.

(** ** a symbol has one unit *)
Lemma last_unique {A} (P : A -> Prop) l x y : last_with P l x -> last_with P l y -> x = y.
Proof.
  intros (p1 & q1 & E1 & P1 & F1) (p2 & q2 & E2 & P2 & F2). subst l. rewrite Forall_forall in F1, F2.
  revert p2 E2. induction p1 as [|a p1 IH]; intros [|b p2] E2; cbn [app] in E2; injection E2 as Ea E2.
  - exact Ea.
  - exfalso. apply (F1 y); [rewrite E2; apply in_or_app; right; now left|exact P2].
  - exfalso. apply (F2 x); [rewrite <- E2; apply in_or_app; right; now left|exact P1].
  - now apply (IH p2).
Qed.
Lemma key_unique {V} (l : list (Z * V)) k a b : NoDup (map fst l) -> In (k, a) l -> In (k, b) l -> a = b.
Proof.
  intros N Ia Ib. apply In_dget in Ia; [|exact N]. apply In_dget in Ib; [|exact N]. congruence.
Qed.
Lemma symbol_unit_unique e secs us z n n' : debug_image e secs us -> ordinary e secs us -> symbol_unit e secs us z (Some n) -> symbol_unit e secs us z (Some n') -> n = n'.
Proof.
  intros [NS (info & abb & SI & SA & UE & UO)] OR (p & q & L & O & U) (p' & q' & L' & O' & U'). destruct (entries_offsets _ _ _ _ _ UE UO) as [_ ND].
  assert (p' = p) by (eapply last_unique; eassumption). subst p'.
  assert (Ip : In p (entries us)) by (destruct L as (pre & post & -> & _); apply in_or_app; right; now left).
  assert (Eq : q' = q).
  { destruct O as [(-> & N)|(a & H & V & Iq)], O' as [(-> & N')|(a' & H' & V' & Iq')]; try reflexivity; [now destruct (N a')|now destruct (N' a)|].
    assert (a' = a) by (eapply key_unique; [exact (entries_keys _ _ _ UO p Ip)|exact H'|exact H]). subst a'. rewrite V in V'. injection V' as V'.
    clear -ND Iq Iq' V'. induction (entries us) as [|x l IH]; [destruct Iq|]. cbn [map] in ND. inversion ND as [|? ? N1 N2]; subst.
    destruct Iq as [->|Iq], Iq' as [->|Iq']; [reflexivity| | |now apply IH].
    - exfalso. apply N1. rewrite V'. apply (List.in_map (fun p => d_off (fst p))). exact Iq'.
    - exfalso. apply N1. rewrite <- V'. apply (List.in_map (fun p => d_off (fst p))). exact Iq. }
  subst q'. assert (Iq : In q (entries us)) by (destruct O as [(-> & _)|(a & _ & _ & Iq)]; assumption). clear O O'.
  unfold unit_name in U, U'. destruct U as (dd & tl & a & E & H & T), U' as (dd' & tl' & a' & E' & H' & T'). rewrite E in E'. injection E' as <- <-.
  assert (Iu : In (snd q) us). { unfold entries in Iq. apply in_flat_map in Iq. destruct Iq as (u & Iu & I). apply List.in_map_iff in I. destruct I as (d0 & <- & _). exact Iu. }
  assert (K : NoDup (map fst (d_attrs dd))).
  { pose proof (proj1 (Forall_forall _ _) UO (snd q) Iu) as O1. apply (proj1 (Forall_forall _ _) (tdies_keys _ _ _ _ (uo_tree _ _ _ O1) (cu_die_offset (u_cu (snd q))) None 0) dd).
    fold (unit_dies (snd q)). rewrite E. now left. }
  assert (a' = a) by (eapply key_unique; eassumption). subst a'.
  apply (text_value_get e secs a n NS) in T. apply (text_value_get e secs a n' NS) in T'. congruence.
Qed.
Lemma starts_some s : exists r, starts s r.
Proof.
  assert (G : exists n body, s = repeat "/"%char n ++ body /\ ~ rooted body).
  { induction s as [|c s (n & body & -> & N)]; [exists 0%nat, []; split; [reflexivity|intros (? & X); discriminate X]|].
    destruct (Ascii.eqb_spec c "/"%char) as [->|Nc]; [exists (S n), body; split; [reflexivity|exact N]|].
    exists 0%nat, (c :: repeat "/"%char n ++ body). split; [reflexivity|]. intros (x & X). injection X as X _. contradiction. }
  destruct G as (n & body & E & N). exists (match n with 0%nat => ([] : str) | 2%nat => "//" | _ => "/" end), n, body. auto.
Qed.
Lemma names_some s : exists l, names s l.
Proof. exists (filter sig (pieces s)), (pieces s). split; [apply slashed_all|apply telling_all]. Qed.
Lemma unit_symbol_unique e secs us l y y' : debug_image e secs us -> ordinary e secs us -> unit_symbol e secs us l y -> unit_symbol e secs us l y' -> us_addr y = us_addr y' -> y = y'.
Proof.
  intros D O (s & n & r & q & L & Z0 & U & _ & S & N & P) (s' & n' & r' & q' & L' & Z' & U' & _ & S' & N' & P') E. destruct y as [a z p], y' as [a' z' p']. cbn [us_addr us_size us_path] in *. subst a'.
  assert (s' = s) by (eapply last_unique; eassumption). subst s'. assert (n' = n) by (eapply symbol_unit_unique; eassumption). subst n'.
  pose proof (as_posix_is _ _ _ S N) as A. pose proof (as_posix_is _ _ _ S' N') as A'. congruence.
Qed.

(** ** what is read of the file *)
Lemma mapM_in {A B} (f : A -> res B) : forall l r, mapM f l = Ok r -> Forall2 (fun a b => f a = Ok b) l r.
Proof.
  induction l as [|a l IH]; intros r H; cbn [mapM] in H; [injection H as <-; constructor|].
  destruct (f a) as [b|] eqn:E; [|discriminate]. cbn [bind] in H. destruct (mapM f l) as [bs|]; [|discriminate]. injection H as <-. constructor; auto.
Qed.
Lemma spelled_some r l : spelled r l <> [].
Proof. unfold spelled. destruct (r ++ relative_path l); discriminate. Qed.
Section View.
Variables (e : xelf) (secs : list str) (us : list funit) (l : list xsym).
Hypotheses (D : debug_image e secs us) (O : ordinary e secs us) (Sy : symbols e = Ok l).
Definition cu_view (kv : Z * (xsym * option str)) : res (list (Z * cusym)) :=
  let '(a, (y, cu)) := kv in
  match cu with
  | Some (c :: n) => if x_stsize y =? 0 then Ok [] else do s <- xsym_name e y; Ok [(a, CuSym s (x_value y) (x_stsize y) (as_posix (c :: n)))]
  | _ => Ok []
  end.
Lemma cu_view_is a y cu r p : cu_view (a, (y, cu)) = Ok r -> In p r ->
  exists n, cu = Some n /\ n <> [] /\ x_stsize y <> 0 /\ fst p = a /\ cu_value (snd p) = x_value y /\ usym_of p = USym a (x_stsize y) (as_posix n) /\ r = [p].
Proof.
  unfold cu_view. destruct cu as [[|c n]|]; try (intros [= <-] []). destruct (Z.eqb_spec (x_stsize y) 0) as [_|Nz]; [intros [= <-] []|].
  destruct (xsym_name e y) as [s|]; [|discriminate]. cbn [bind]. intros [= <-] [<-|[]]. exists (c :: n). repeat split; try assumption. discriminate.
Qed.
Lemma cu_view_gives a y n r : cu_view (a, (y, Some n)) = Ok r -> n <> [] -> x_stsize y <> 0 -> exists p, In p r.
Proof.
  unfold cu_view. destruct n as [|c n]; [contradiction|]. intros E _ Nz. apply Z.eqb_neq in Nz. rewrite Nz in E. destruct (xsym_name e y) as [s|]; [|discriminate]. injection E as <-. eexists. left. reflexivity.
Qed.
Lemma view_is r : view_cusyms e = Ok r ->
  (forall y, In y (map usym_of r) <-> unit_symbol e secs us l y) /\ (forall p, In p r -> cu_value (snd p) = fst p) /\ NoDup (map us_addr (map usym_of r)) /\
  (forall p, In p r -> cu_size (snd p) <> 0 /\ cu_name (snd p) <> []).
Proof.
  intros E. unfold view_cusyms in E. fold cu_view in E. destruct (add_cus_image e secs us l D O Sy) as (c & Ec & Q). rewrite Ec in E. cbn [bind] in E.
  change (do r <- mapM cu_view c; Ok (concat r)) with (do r <- mapM cu_view c; Ok (concat r)) in E.
  destruct (mapM cu_view c) as [rs|] eqn:M; [|discriminate]. injection E as <-. apply mapM_in in M. pose proof (add_cus_wf e c Ec) as W.
  assert (F : forall p, In p (concat rs) -> exists y n, dget (fst p) c = Some (y, Some n) /\ n <> [] /\ cu_value (snd p) = x_value y /\ usym_of p = USym (fst p) (x_stsize y) (as_posix n) /\ x_stsize y <> 0).
  { intros p Ip. apply in_concat in Ip. destruct Ip as (r & Ir & Ip). destruct (Forall2_In_r _ _ _ _ M Ir) as ((a & (y & cu)) & Ia & Ea).
    destruct (cu_view_is a y cu r p Ea Ip) as (n & -> & Nn & Nz & <- & V & U & _). exists y, n. apply In_dget in Ia; [|exact W]. auto 6. }
  split; [|split; [|split]].
  - intros y. split.
    + intros I. apply List.in_map_iff in I. destruct I as (p & <- & Ip). destruct (F p Ip) as (s & n & G & Nn & _ & U & _). specialize (Q (fst p)). rewrite G in Q. destruct Q as (L & Un).
      destruct (starts_some n) as (r & S), (names_some n) as (q & N). rewrite U. exists s, n, r, q. cbn [us_addr us_size us_path]. repeat split; try assumption. now apply as_posix_is.
    + intros (s & n & r & q & L & Z0 & U & Nn & S & N & P). specialize (Q (us_addr y)). destruct (dget (us_addr y) c) as [(s' & n')|] eqn:G.
      * destruct Q as (L' & U'). assert (s' = s) by (eapply last_unique; eassumption). subst s'.
        assert (n' = Some n).
        { destruct n' as [n'|]; [f_equal; eapply symbol_unit_unique; eassumption|]. exfalso. destruct U as (p & q' & (pre & post & Ee & Pp & _) & _). cbn [symbol_unit] in U'. rewrite Forall_forall in U'.
          apply (U' p); [rewrite Ee; apply in_or_app; right; now left|exact Pp]. }
        subst n'. assert (Is : In (us_addr y, (s, Some n)) c) by (apply dget_In; exact G). destruct (Forall2_In_l _ _ _ _ M Is) as (rr & Ir & Er).
        assert (Nz : x_stsize s <> 0) by (destruct L as (pre & post & _ & (C & _) & _); apply C).
        destruct (cu_view_gives _ _ _ _ Er Nn Nz) as (p & Ip). destruct (cu_view_is _ _ _ _ _ Er Ip) as (n2 & E2 & _ & _ & Ef & _ & Eu & _). injection E2 as <-.
        apply List.in_map_iff. exists p. split; [|apply in_concat; eauto]. rewrite Eu. destruct y as [a z pth]. cbn [us_addr us_size us_path] in *. now rewrite Z0, P, (as_posix_is n r q S N).
      * exfalso. rewrite Forall_forall in Q. destruct L as (pre & post & Ee & Pp & _). apply (Q s); [rewrite Ee; apply in_or_app; right; now left|exact Pp].
  - intros p Ip. destruct (F p Ip) as (s & n & G & _ & V & _). specialize (Q (fst p)). rewrite G in Q. destruct Q as ((pre & post & _ & (_ & Xv) & _) & _). congruence.
  - rewrite map_map. cbn [usym_of us_addr]. change (NoDup (map fst (concat rs))). unfold wf_dict in W. clear -M W. revert W. induction M as [|kv r c rs E M IH]; intros W; [constructor|]. cbn [map] in W. inversion W as [|? ? W1 W2]; subst.
    cbn [concat]. rewrite map_app. destruct kv as (a & (y & cu)).
    destruct r as [|p r']; [now apply IH|]. destruct (cu_view_is a y cu (p :: r') p E (or_introl eq_refl)) as (n & _ & _ & _ & Ef & _ & _ & Er). injection Er as ->. cbn [map app]. constructor; [|now apply IH].
    intros I. apply W1. apply List.in_map_iff in I. destruct I as (p' & E1 & I'). apply in_concat in I'. destruct I' as (r2 & Ir2 & I'). destruct (Forall2_In_r _ _ _ _ M Ir2) as ((a2 & (y2 & cu2)) & Ia2 & Ea2).
    destruct (cu_view_is _ _ _ _ _ Ea2 I') as (_ & _ & _ & _ & Ef2 & _). cbn [fst]. rewrite <- Ef, <- E1, Ef2. change a2 with (fst (a2, (y2, cu2))). now apply List.in_map.
  - intros p Ip. destruct (F p Ip) as (s & n & _ & _ & _ & U & Nz). destruct p as (a & [sn v z nm]). cbn [usym_of snd fst cu_size cu_name] in *. injection U as -> ->. split; [exact Nz|].
    destruct (starts_some n) as (r & S), (names_some n) as (q & N). rewrite (as_posix_is n r q S N). apply spelled_some.
Qed.
End View.
