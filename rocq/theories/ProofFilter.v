From Coq Require Import Ascii String List ZArith Bool Lia.
From Verif Require Import Base MemMap Filter SpecFilter.
Import ListNotations.
Open Scope list_scope.

Lemma in_range_ok c lo hi : in_range c (lo, hi) = true <-> (nat_of_ascii lo <= nat_of_ascii c <= nat_of_ascii hi)%nat.
Proof. unfold in_range. cbn [fst snd]. rewrite andb_true_iff, !Nat.leb_le. tauto. Qed.

Lemma in_set_ok neg r c : in_set neg r c = true <-> item_lang (GSet neg r) [c].
Proof.
  unfold in_set. simpl. destruct neg; simpl.
  - split.
    + intros H. exists c. split; [reflexivity|]. intros lo hi I L. apply in_range_ok in L.
      assert (existsb (in_range c) r = true) by (apply existsb_exists; eauto). rewrite H0 in H. discriminate.
    + intros (d & E & H). injection E as <-. destruct (existsb (in_range c) r) eqn:X; [|reflexivity].
      apply existsb_exists in X. destruct X as ([lo hi] & I & L). apply in_range_ok in L. exfalso. eapply H; eauto.
  - split; intros H.
    2: { assert (X : existsb (in_range c) r = true); [|rewrite X; reflexivity]. revert H. rewrite existsb_exists.
         intros (d & E & lo & hi & I & L). injection E as <-. exists (lo, hi). split; [assumption|]. apply in_range_ok, L. }
    assert (X : existsb (in_range c) r = true) by (destruct (existsb (in_range c) r); [reflexivity|discriminate H]).
    apply existsb_exists in X. revert X. clear H.
    + intros ([lo hi] & I & L). apply in_range_ok in L. exists c. eauto.
Qed.

Lemma lang_nil s : lang [] s <-> s = [].
Proof.
  split.
  - intros (parts & -> & F). inversion F. reflexivity.
  - intros ->. exists []. auto.
Qed.

Lemma lang_cons i g s : lang (i :: g) s <-> exists a b, s = a ++ b /\ item_lang i a /\ lang g b.
Proof.
  split.
  - intros (parts & -> & F). inversion F; subst. exists y, (concat l'). simpl. repeat split; auto. exists l'. auto.
  - intros (a & b & -> & Hi & (parts & -> & F)). exists (a :: parts). split; [reflexivity|]. constructor; assumption.
Qed.

Lemma lang_app g h s : lang (g ++ h) s <-> exists a b, s = a ++ b /\ lang g a /\ lang h b.
Proof.
  revert s. induction g as [|i g IH]; intros s; simpl.
  - split.
    + intros H. exists [], s. rewrite lang_nil. auto.
    + intros (a & b & -> & H1 & H2). apply lang_nil in H1. subst. assumption.
  - rewrite lang_cons. split.
    + intros (a & b & -> & H1 & H2). apply IH in H2. destruct H2 as (c & d & -> & H2 & H3).
      exists (a ++ c), d. rewrite app_assoc. repeat split; auto. apply lang_cons. eauto.
    + intros (a & b & -> & H1 & H2). apply lang_cons in H1. destruct H1 as (c & d & -> & H3 & H4).
      exists c, (d ++ b). rewrite app_assoc. repeat split; auto. apply IH. eauto.
Qed.

Lemma gmatch_star g s : gmatch (GStar :: g) s = gmatch g s || match s with [] => false | _ :: s' => gmatch (GStar :: g) s' end.
Proof. destruct s; reflexivity. Qed.

Lemma gmatch_ok g : forall s, gmatch g s = true <-> lang g s.
Proof.
  induction g as [|i g IH]; intros s.
  - rewrite lang_nil. simpl. destruct s; split; congruence.
  - rewrite lang_cons. destruct i.
    + induction s as [|c s IHs].
      * rewrite gmatch_star, orb_false_r, IH. split.
        -- intros H. exists [], []. simpl. auto.
        -- intros (a & b & E & _ & H). symmetry in E. apply app_eq_nil in E. destruct E as [-> ->]. assumption.
      * rewrite gmatch_star, orb_true_iff, IH, IHs. split.
        -- intros [H|(a & b & -> & _ & H)].
           ++ exists [], (c :: s). simpl. auto.
           ++ exists (c :: a), b. simpl. auto.
        -- intros (a & b & E & _ & H). destruct a as [|d a]; simpl in E.
           ++ left. subst. assumption.
           ++ injection E as <- ->. right. exists a, b. simpl. auto.
    + simpl. destruct s as [|c s].
      * split; [discriminate|]. intros (a & b & E & (c & ->) & _). discriminate.
      * rewrite IH. split.
        -- intros H. exists [c], s. repeat split; eauto.
        -- intros (a & b & E & (d & ->) & H). injection E as <- ->. assumption.
    + simpl. destruct s as [|d s].
      * split; [discriminate|]. intros (a & b & E & -> & _). discriminate.
      * rewrite andb_true_iff, keq_eq, IH. split.
        -- intros [-> H]. exists [c], s. auto.
        -- intros (a & b & E & -> & H). injection E as <- ->. auto.
    + destruct s as [|d s].
      * split; [discriminate|]. intros (a & b & E & (c & -> & _) & _). discriminate.
      * cbn [gmatch]. rewrite andb_true_iff, in_set_ok, IH. split.
        -- intros [H1 H2]. exists [d], s. auto.
        -- intros (a & b & E & H1 & H2). pose proof H1 as H1'. destruct H1' as (c & -> & _). injection E as <- ->. auto.
Qed.

(** ** translation of '*' p '*' *)

Lemma upto_bracket_app s t a b : upto_bracket s = Some (a, b) -> upto_bracket (s ++ t) = Some (a, b ++ t).
Proof.
  revert a b. induction s as [|c s IH]; simpl; intros a b E; [discriminate|].
  destruct (c =?= "]"%char); [injection E as <- <-; reflexivity|].
  destruct (upto_bracket s) as [[a' b']|]; [|discriminate]. injection E as <- <-.
  rewrite (IH a' b' eq_refl). reflexivity.
Qed.

Lemma upto_bracket_len s a b : upto_bracket s = Some (a, b) -> (length b < length s)%nat.
Proof.
  revert a b. induction s as [|c s IH]; simpl; intros a b E; [discriminate|].
  destruct (c =?= "]"%char); [injection E as <- <-; lia|].
  destruct (upto_bracket s) as [[a' b']|]; [|discriminate]. injection E as <- <-.
  specialize (IH a' b' eq_refl). lia.
Qed.

Lemma upto_bracket_star s : upto_bracket s = None -> upto_bracket (s ++ ["*"%char]) = None.
Proof.
  induction s as [|c s IH]; simpl; intros E; [reflexivity|].
  destruct (c =?= "]"%char); [discriminate|]. destruct (upto_bracket s) as [[a b]|]; [discriminate|].
  rewrite IH; reflexivity.
Qed.

Lemma class_text_app s t a b : class_text s = Some (a, b) -> class_text (s ++ t) = Some (a, b ++ t).
Proof.
  destruct s as [|c s]; simpl; [discriminate|].
  destruct (c =?= "!"%char).
  - destruct s as [|d s]; [discriminate|]. change ((d :: s) ++ t) with (d :: s ++ t). cbv iota.
    destruct (d =?= "]"%char) eqn:Ed.
    + destruct (upto_bracket s) as [[a' b']|] eqn:U; [|discriminate]. intros E. injection E as <- <-.
      rewrite (upto_bracket_app _ t _ _ U). reflexivity.
    + destruct (upto_bracket (d :: s)) as [[a' b']|] eqn:U; [|discriminate]. intros E. injection E as <- <-.
      apply (upto_bracket_app _ t) in U. simpl app in U. rewrite U. reflexivity.
  - destruct (c =?= "]"%char) eqn:Ec.
    + destruct (upto_bracket s) as [[a' b']|] eqn:U; [|discriminate]. intros E. injection E as <- <-.
      rewrite (upto_bracket_app _ t _ _ U). reflexivity.
    + destruct (upto_bracket s) as [[a' b']|] eqn:U; [|discriminate]. intros E. injection E as <- <-.
      rewrite (upto_bracket_app _ t _ _ U). reflexivity.
Qed.

Lemma class_text_len s a b : class_text s = Some (a, b) -> (length b < length s)%nat.
Proof.
  destruct s as [|c s]; [discriminate|]. unfold class_text.
  destruct (c =?= "!"%char).
  - destruct s as [|d s]; [discriminate|]. destruct (d =?= "]"%char).
    + destruct (upto_bracket s) as [[a' b']|] eqn:U; [|discriminate]. intros E. injection E as <- <-.
      apply upto_bracket_len in U. simpl. lia.
    + destruct (upto_bracket (d :: s)) as [[a' b']|] eqn:U; [|discriminate]. intros E. injection E as <- <-.
      apply upto_bracket_len in U. simpl in *. lia.
  - destruct (c =?= "]"%char).
    + destruct (upto_bracket s) as [[a' b']|] eqn:U; [|discriminate]. intros E. injection E as <- <-.
      apply upto_bracket_len in U. simpl. lia.
    + intros U. apply upto_bracket_len in U. simpl in *. lia.
Qed.

Lemma class_text_star s : class_text s = None -> class_text (s ++ ["*"%char]) = None.
Proof.
  destruct s as [|c s]; [reflexivity|]. simpl app. unfold class_text.
  destruct (c =?= "!"%char).
  - destruct s as [|d s]; [reflexivity|]. simpl app. cbv iota. destruct (d =?= "]"%char).
    + destruct (upto_bracket s) as [[a b]|] eqn:U; [discriminate|]. intros _. rewrite upto_bracket_star by assumption. reflexivity.
    + destruct (upto_bracket (d :: s)) as [[a b]|] eqn:U; [discriminate|]. intros _.
      apply upto_bracket_star in U. simpl app in U. rewrite U. reflexivity.
  - destruct (c =?= "]"%char) eqn:Ec.
    + destruct (upto_bracket s) as [[a b]|] eqn:U; [discriminate|]. intros _. rewrite upto_bracket_star by assumption. reflexivity.
    + intros U. apply upto_bracket_star in U. exact U.
Qed.

Lemma translate_fuel n1 : forall n2 s, (length s <= n1)%nat -> (length s <= n2)%nat -> translate_n n1 s = translate_n n2 s.
Proof.
  induction n1 as [|n1 IH]; intros n2 s L1 L2.
  - destruct s; [|simpl in L1; lia]. destruct n2; reflexivity.
  - destruct s as [|c s]; [destruct n2; reflexivity|]. simpl in L1, L2. destruct n2 as [|n2]; [lia|]. simpl.
    destruct (c =?= "*"%char); [f_equal; apply IH; lia|].
    destruct (c =?= "?"%char); [f_equal; apply IH; lia|].
    destruct (c =?= "["%char); [|f_equal; apply IH; lia].
    destruct (class_text s) as [[text rest]|] eqn:C; [|f_equal; apply IH; lia].
    apply class_text_len in C. f_equal. apply IH; lia.
Qed.

Lemma translate_snoc_star s : translate (s ++ ["*"%char]) = translate s ++ [GStar].
Proof.
  unfold translate.
  assert (H : forall n s, (length s <= n)%nat -> translate_n (S n) (s ++ ["*"%char]) = translate_n n s ++ [GStar]).
  { induction n as [|n IH]; intros s' L.
    - destruct s'; [|simpl in L; lia]. reflexivity.
    - destruct s' as [|c s']; [reflexivity|]. simpl in L. simpl app.
      change (translate_n (S (S n)) (c :: s' ++ ["*"%char])) with
        (if c =?= "*"%char then GStar :: translate_n (S n) (s' ++ ["*"%char])
         else if c =?= "?"%char then GAny :: translate_n (S n) (s' ++ ["*"%char])
         else if c =?= "["%char then
           match class_text (s' ++ ["*"%char]) with
           | None => GLit c :: translate_n (S n) (s' ++ ["*"%char])
           | Some (text, rest) =>
             (match text with
              | x :: text' => if x =?= "!"%char then GSet true (class_ranges text') else GSet false (class_ranges text)
              | [] => GSet false []
              end) :: translate_n (S n) rest
           end
         else GLit c :: translate_n (S n) (s' ++ ["*"%char])).
      change (translate_n (S n) (c :: s')) with
        (if c =?= "*"%char then GStar :: translate_n n s'
         else if c =?= "?"%char then GAny :: translate_n n s'
         else if c =?= "["%char then
           match class_text s' with
           | None => GLit c :: translate_n n s'
           | Some (text, rest) =>
             (match text with
              | x :: text' => if x =?= "!"%char then GSet true (class_ranges text') else GSet false (class_ranges text)
              | [] => GSet false []
              end) :: translate_n n rest
           end
         else GLit c :: translate_n n s').
      destruct (c =?= "*"%char); [rewrite IH by lia; reflexivity|].
      destruct (c =?= "?"%char); [rewrite IH by lia; reflexivity|].
      destruct (c =?= "["%char); [|rewrite IH by lia; reflexivity].
      destruct (class_text s') as [[text rest]|] eqn:C.
      + rewrite (class_text_app _ _ _ _ C). apply class_text_len in C. rewrite IH by lia. reflexivity.
      + rewrite (class_text_star _ C), IH by lia. reflexivity. }
  rewrite app_length. simpl. rewrite Nat.add_1_r. apply H. lia.
Qed.

Lemma translate_cons_star s : translate ("*"%char :: s) = GStar :: translate s.
Proof. reflexivity. Qed.

Lemma fnmatch_somewhere name p :
  fnmatch name ("*"%char :: p ++ ["*"%char]) = true <-> matches_somewhere (translate p) name.
Proof.
  unfold fnmatch. rewrite translate_cons_star, translate_snoc_star, gmatch_ok, lang_cons.
  split.
  - intros (a & b & -> & _ & H). apply lang_app in H. destruct H as (c & d & -> & H & _).
    exists a, c, d. auto.
  - intros (pre & mid & post & -> & H). exists pre, (mid ++ post). repeat split.
    apply lang_app. exists mid, post. repeat split; auto. exists [post]. simpl. rewrite app_nil_r. split; [reflexivity|].
    constructor; [exact I|constructor].
Qed.

Lemma translate_plain p : plain p -> translate p = map GLit p.
Proof.
  unfold translate, plain. induction p as [|c p IH]; intros F; [reflexivity|]. inversion F as [|? ? (H1 & H2 & H3) F']; subst.
  simpl. apply keq_neq in H1, H2, H3. rewrite H1, H2, H3. f_equal. apply IH. assumption.
Qed.

Lemma lang_lits p s : lang (map GLit p) s <-> s = p.
Proof.
  revert s. induction p as [|c p IH]; intros s; simpl.
  - apply lang_nil.
  - rewrite lang_cons. split.
    + intros (a & b & -> & -> & H). apply IH in H. subst. reflexivity.
    + intros ->. exists [c], p. repeat split. apply IH. reflexivity.
Qed.

Lemma fnmatch_plain name p : plain p ->
  fnmatch name ("*"%char :: p ++ ["*"%char]) = true <-> substring p name.
Proof.
  intros P. rewrite fnmatch_somewhere, translate_plain by assumption. unfold matches_somewhere, substring. split.
  - intros (pre & mid & post & -> & H). apply lang_lits in H. subst. eauto.
  - intros (pre & post & ->). exists pre, p, post. split; [reflexivity|]. apply lang_lits. reflexivity.
Qed.

Lemma summary_filtered_ok {V} (ab : V -> str) entries a patterns : a_filter a = Some patterns ->
  exists keep, summary_filtered ab entries a = filter keep entries /\
  forall n e, keep (n, e) = true <->
    exists p, In p patterns /\ matches_somewhere (translate p) (if a_abbrev a then ab e else n).
Proof.
  intros E. unfold summary_filtered. rewrite E. eexists. split; [reflexivity|].
  intros n e. cbv beta. cbn [fst snd]. rewrite existsb_exists. split; intros (p & I & H); exists p; split; auto;
    apply fnmatch_somewhere; assumption.
Qed.

Lemma filtered_ok entries a patterns : a_filter a = Some patterns ->
  exists keep, get_summary_filtered entries a = filter keep entries /\
  forall n e, keep (n, e) = true <->
    exists p, In p patterns /\ matches_somewhere (translate p) (if a_abbrev a then se_abbrev e else n).
Proof. apply summary_filtered_ok. Qed.

(** ** patterns as they are written *)

Definition member_range (x : member) : ascii * ascii := match x with One a => (a, a) | Range a b => (a, b) end.
Definition piece_glob (p : piece) : glob :=
  match p with AnyText => GStar | AnyChar => GAny | Char c => GLit c | Class n l => GSet n (map member_range l) end.

Lemma class_ranges_one a s : (forall s', s <> "-"%char :: s') -> class_ranges (a :: s) = (a, a) :: class_ranges s.
Proof.
  intro N. destruct s as [|d [|b s]]; [reflexivity|reflexivity|]. cbn [class_ranges].
  destruct (keqP d "-"%char) as [->|_]; [exfalso; now apply (N (b :: s))|reflexivity].
Qed.

Lemma ranges_shown l : Forall fine_member l -> class_ranges (concat (map show_member l)) = map member_range l.
Proof.
  induction 1 as [|x l F FL IH]; [reflexivity|]. cbn [map concat]. destruct x as [a|a b]; cbn [show_member app member_range].
  - rewrite class_ranges_one; [now rewrite IH|]. intros s' E. inversion FL as [|y l' FY]; subst; [discriminate|].
    cbn [map concat] in E. destruct y as [c|c d]; cbn in E, FY; injection E; intros; subst; now apply FY.
  - cbn [class_ranges]. rewrite keq_refl. now rewrite IH.
Qed.

Lemma upto_shown l rest : Forall fine_member l -> upto_bracket (concat (map show_member l) ++ "]"%char :: rest) = Some (concat (map show_member l), rest).
Proof.
  induction 1 as [|x l F _ IH]; cbn [map concat app upto_bracket]; [now rewrite keq_refl|]. rewrite <- app_assoc.
  destruct x as [a|a b]; cbn [show_member app upto_bracket]; cbn [fine_member] in F.
  - destruct F as (_ & F & _). apply keq_neq in F. now rewrite F, IH.
  - destruct F as (_ & F & _ & G). apply keq_neq in F. apply keq_neq in G. rewrite F.
    replace ("-"%char =?= "]"%char) with false by reflexivity. now rewrite G, IH.
Qed.

Lemma shown_head l : l <> [] -> Forall fine_member l ->
  exists c r, concat (map show_member l) = c :: r /\ c <> "!"%char /\ c <> "]"%char.
Proof.
  intros N F. destruct F as [|x l F _]; [contradiction|]. cbn [map concat]. destruct x as [a|a b]; cbn [show_member app]; eexists _, _; (split; [reflexivity|]); cbn in F; tauto.
Qed.

Lemma class_text_shown (n : bool) l rest : l <> [] -> Forall fine_member l ->
  class_text ((if n then ["!"%char] else []) ++ concat (map show_member l) ++ "]"%char :: rest) =
  Some ((if n then ["!"%char] else []) ++ concat (map show_member l), rest).
Proof.
  intros N F. destruct (shown_head l N F) as (c & r & E & N1 & N2). pose proof (upto_shown l rest F) as U. rewrite E in *. cbn [app] in *.
  apply keq_neq in N1. apply keq_neq in N2. destruct n; cbn [app].
  - unfold class_text. replace ("!"%char =?= "!"%char) with true by reflexivity. now rewrite N2, U.
  - unfold class_text. now rewrite N1, N2.
Qed.

Lemma translate_cons_step c s : translate (c :: s) =
  if c =?= "*"%char then GStar :: translate s
  else if c =?= "?"%char then GAny :: translate s
  else if c =?= "["%char then
    match class_text s with
    | None => GLit c :: translate s
    | Some (text, rest) =>
      (match text with
       | x :: text' => if x =?= "!"%char then GSet true (class_ranges text') else GSet false (class_ranges text)
       | [] => GSet false []
       end) :: translate rest
    end
  else GLit c :: translate s.
Proof.
  unfold translate. cbn [length translate_n]. destruct (c =?= "*"%char); [reflexivity|]. destruct (c =?= "?"%char); [reflexivity|].
  destruct (c =?= "["%char); [|reflexivity]. destruct (class_text s) as [[text rest]|] eqn:C; [|reflexivity]. f_equal.
  apply class_text_len in C. apply translate_fuel; lia.
Qed.

Lemma translate_shown l : Forall fine_piece l -> translate (show_pattern l) = map piece_glob l.
Proof.
  unfold show_pattern. induction 1 as [|p l F _ IH]; [reflexivity|]. cbn [map concat].
  destruct p as [| |c|n ms]; cbn [show_piece app]; rewrite translate_cons_step.
  - cbn. now rewrite IH.
  - cbn. now rewrite IH.
  - cbn in F. destruct F as (F1 & F2 & F3). apply keq_neq in F1. apply keq_neq in F2. apply keq_neq in F3. now rewrite F1, F2, F3, IH.
  - cbn [fine_piece] in F. destruct F as [N F]. rewrite <- !app_assoc. cbn [app].
    replace ("["%char =?= "*"%char) with false by reflexivity. replace ("["%char =?= "?"%char) with false by reflexivity.
    rewrite keq_refl. rewrite class_text_shown by assumption. rewrite IH. cbn [piece_glob]. f_equal.
    rewrite <- (ranges_shown ms F).
    destruct (shown_head ms N F) as (c & r & E & N1 & _). rewrite E. apply keq_neq in N1. destruct n; cbn [app]; [reflexivity|].
    now rewrite N1.
Qed.

Lemma nat_of_ascii_inj a b : nat_of_ascii a = nat_of_ascii b -> a = b.
Proof. intro E. rewrite <- (ascii_nat_embedding a), <- (ascii_nat_embedding b). now rewrite E. Qed.

Lemma member_range_ok x c : member_has x c <-> (nat_of_ascii (fst (member_range x)) <= nat_of_ascii c <= nat_of_ascii (snd (member_range x)))%nat.
Proof.
  destruct x as [a|a b]; cbn [member_has member_range fst snd]; [|reflexivity]. split; [intros ->; lia|]. intro H. apply nat_of_ascii_inj. lia.
Qed.

Lemma piece_lang p s : item_lang (piece_glob p) s <-> piece_text p s.
Proof.
  destruct p as [| |c|n l]; cbn [piece_glob item_lang piece_text]; try reflexivity.
  assert (X : forall c, (exists lo hi, In (lo, hi) (map member_range l) /\ (nat_of_ascii lo <= nat_of_ascii c <= nat_of_ascii hi)%nat) <-> Exists (fun x => member_has x c) l).
  { intro c. rewrite Exists_exists. split.
    - intros (lo & hi & I & H). apply in_map_iff in I as (x & E & I). exists x. split; auto. apply member_range_ok. rewrite E. exact H.
    - intros (x & I & H). apply member_range_ok in H. exists (fst (member_range x)), (snd (member_range x)). split; auto.
      apply in_map_iff. exists x. split; auto. now destruct (member_range x). }
  split; intros (c & -> & H); exists c; (split; [reflexivity|]); destruct n; try (now apply X).
  - intro Y. apply X in Y as (lo & hi & I & Y). exact (H lo hi I Y).
  - intros lo hi I Y. apply H, X. eauto.
Qed.

Lemma contains_ok l name : Forall fine_piece l ->
  fnmatch name ("*"%char :: show_pattern l ++ ["*"%char]) = true <-> contains_pattern l name.
Proof.
  intro F. rewrite fnmatch_somewhere, translate_shown by assumption. unfold matches_somewhere, lang, contains_pattern.
  assert (X : forall parts, Forall2 item_lang (map piece_glob l) parts <-> Forall2 piece_text l parts).
  { clear F. induction l as [|p l IH]; intros parts; cbn [map].
    - split; intro H; inversion H; constructor.
    - split; intro H; inversion H; subst; constructor; try (now apply piece_lang); now apply IH. }
  split.
  - intros (pre & mid & post & -> & parts & -> & H). exists pre, parts, post. split; [reflexivity|]. now apply X.
  - intros (pre & parts & post & -> & H). exists pre, (concat parts), post. split; [reflexivity|]. exists parts. split; [reflexivity|]. now apply X.
Qed.

Lemma written_filter_ok {V} (ab : V -> str) (entries : dict str V) a pats : a_filter a = Some (map show_pattern pats) -> Forall (Forall fine_piece) pats ->
  exists keep, summary_filtered ab entries a = filter keep entries /\
  forall n e, keep (n, e) = true <-> exists p, In p pats /\ contains_pattern p (if a_abbrev a then ab e else n).
Proof.
  intros E F. unfold summary_filtered. rewrite E. eexists. split; [reflexivity|].
  intros n e. cbv beta. cbn [fst snd]. rewrite existsb_exists, Forall_forall in *. split.
  - intros (p & I & H). apply in_map_iff in I as (l & <- & I). exists l. split; auto. apply contains_ok; auto.
  - intros (l & I & H). exists (show_pattern l). split; [now apply in_map|]. apply contains_ok; auto.
Qed.
