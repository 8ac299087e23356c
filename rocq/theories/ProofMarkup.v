(** * Text with markup *)
From Coq Require Import Ascii String List Arith Lia Bool.
From Verif Require Import Base MemMap Pipeline PyStr SpecMap ProofPyStr ProofMap1 Markup SpecText ProofText6 SpecMarkup.
Import ListNotations.
Open Scope list_scope.

Local Notation bs := (repeat backslash).

Lemma backslashes_ok s : forall k r, backslashes s = (k, r) -> s = bs k ++ r /\ (forall r', r <> backslash :: r').
Proof.
  induction s as [|c s IH]; intros k r E; cbn [backslashes] in E.
  - injection E as <- <-. split; [reflexivity|discriminate].
  - destruct (keqP c backslash) as [->|N].
    + destruct (backslashes s) as [k' r0]. injection E as <- <-. destruct (IH k' r0 eq_refl) as [-> H]. split; [reflexivity|exact H].
    + injection E as <- <-. split; [reflexivity|]. intros r' E. injection E as E _. now apply N.
Qed.
Lemma backslashes_is k r : (forall r', r <> backslash :: r') -> backslashes (bs k ++ r) = (k, r).
Proof.
  intros H. induction k as [|k IH]; cbn [repeat app].
  - destruct r as [|c r]; [reflexivity|]. cbn [backslashes]. destruct (keqP c backslash) as [->|]; [now destruct (H r)|reflexivity].
  - cbn [backslashes]. rewrite keq_refl, IH. reflexivity.
Qed.
Lemma tag_text_ok s : forall t, tag_text s = Some t <-> exists q, s = t ++ rbracket :: q /\ Forall (fun d => d <> lbracket /\ d <> rbracket) t.
Proof.
  induction s as [|c s IH]; intros t; cbn [tag_text].
  - split; [discriminate|]. intros (q & E & _). destruct t; discriminate.
  - destruct (keqP c rbracket) as [->|N1].
    + split.
      * intros E. injection E as <-. exists s. split; [reflexivity|constructor].
      * intros (q & E & F). destruct t as [|d t]; [reflexivity|]. injection E as <- _. inversion F as [|x y [_ X] _]. now destruct X.
    + destruct (keqP c lbracket) as [->|N2].
      * split; [discriminate|]. intros (q & E & F). destruct t as [|d t]; [injection E as E _; discriminate|]. injection E as <- _. inversion F as [|x y [X _] _]. now destruct X.
      * split.
        -- destruct (tag_text s) as [u|] eqn:U; [|discriminate]. intros E. injection E as <-. destruct (proj1 (IH u) eq_refl) as (q & -> & F). exists q. split; [reflexivity|]. constructor; [now split|exact F].
        -- intros (q & E & F). destruct t as [|d t]; [injection E as E _; now destruct N1|]. injection E as <- E. inversion F as [|x y _ F']. subst x y. rewrite (proj2 (IH t)); [reflexivity|]. now exists q.
Qed.
Lemma tag_char_bracket c : tag_char c -> c <> lbracket /\ c <> rbracket.
Proof. intros T. apply tag_char_ok in T. split; intros ->; discriminate. Qed.
Lemma tag_words_text t : tag_words t -> Forall (fun d => d <> lbracket /\ d <> rbracket) t.
Proof. intros (c & r & -> & T & F). constructor; [now apply tag_char_bracket|exact F]. Qed.
Lemma app_sing (t q : str) c : (t ++ [c]) ++ q = t ++ c :: q.
Proof. now rewrite <- app_assoc. Qed.
Lemma tag_here_ok s k t : tag_here s = Some (k, t) <-> tag_words t /\ exists q, s = tag_text_of k t ++ q.
Proof.
  unfold tag_here, tag_text_of. split.
  - destruct (backslashes s) as [k' r] eqn:B. destruct (backslashes_ok _ _ _ B) as [-> N]. destruct r as [|b [|c r]]; try discriminate.
    destruct (keqP b lbracket) as [->|]; [|discriminate]. cbn [andb]. destruct (tag_start c) eqn:T; [|discriminate]. destruct (tag_text (c :: r)) as [u|] eqn:U; [|discriminate].
    intros E. injection E as <- <-. destruct (proj1 (tag_text_ok _ _) U) as (q & E & F). split.
    + destruct u as [|d u]; [injection E as -> _; discriminate|]. injection E as <- _. exists c, u. split; [reflexivity|]. split; [now apply tag_char_ok|now inversion F].
    + exists q. rewrite <- !app_assoc. cbn [app]. rewrite app_sing. now rewrite E.
  - intros (W & q & ->). rewrite <- app_assoc. cbn [app]. rewrite app_sing. rewrite (backslashes_is k) by discriminate.
    pose proof (tag_words_text _ W) as F. destruct W as (c & r & -> & T & _). cbn [app]. rewrite keq_refl. apply tag_char_ok in T. rewrite T. cbn [andb].
    change "]"%char with rbracket. rewrite (proj2 (tag_text_ok (c :: r ++ rbracket :: q) (c :: r))); [reflexivity|]. exists q. split; [reflexivity|exact F].
Qed.

(** ** no tag within text *)
Lemma no_bs_bracket k : ~ In lbracket (bs k). Proof. intros I. apply repeat_spec in I. discriminate. Qed.
Lemma no_bs_rbracket k : ~ In rbracket (bs k). Proof. intros I. apply repeat_spec in I. discriminate. Qed.

Lemma all_bs_ends (p : str) : p <> [] -> (forall x, In x p -> x = backslash) -> ends_in_backslash p.
Proof. intros N H. destruct (exists_last N) as (q & x & ->). exists q. rewrite (H x); [reflexivity|]. apply in_or_app. right. now left. Qed.

(** text before a tag, or at the end, does not begin with a tag *)
Lemma no_tag_here c p r : ~ has_tag (c :: p) ->
  (r = [] \/ (~ ends_in_backslash (c :: p) /\ exists k q, r = bs k ++ lbracket :: q)) -> tag_here ((c :: p) ++ r) = None.
Proof.
  intros H R. destruct (tag_here ((c :: p) ++ r)) as [[k t]|] eqn:E; [exfalso|reflexivity]. apply tag_here_ok in E. destruct E as (W & q & E). unfold tag_text_of in E. change "092"%char with backslash in E.
  rewrite <- app_assoc in E. cbn [app] in E. rewrite app_sing in E. change (c :: p ++ r) with ((c :: p) ++ r) in E.
  assert (K : forall u, c :: p = bs k ++ lbracket :: t ++ rbracket :: u -> False).
  { intros u X. apply H. destruct W as (d & v & -> & T & F). exists (bs k), d, v, u. split; [exact X|]. split; assumption. }
  destruct R as [->|(Ne & k2 & q2 & ->)]; [rewrite app_nil_r in E; now apply (K q)|].
  pose proof (tag_words_text _ W) as F. rewrite Forall_forall in F.
  apply app_eq_app in E. destruct E as (m & [[E1 E2]|[E1 E2]]).
  - destruct m as [|x m]; cbn [app] in E2.
    + apply Ne, all_bs_ends; [discriminate|]. rewrite E1, app_nil_r. intros x I. now apply repeat_spec in I.
    + injection E2 as <- E2. apply app_eq_app in E2. destruct E2 as (n & [[E3 E4]|[E3 E4]]).
      * apply app_eq_app in E4. destruct E4 as (o & [[E5 E6]|[E5 E6]]).
        -- destruct o as [|x o]; [discriminate|]. injection E6 as <- _. apply (no_bs_rbracket k2). rewrite E5. apply in_or_app. right. now left.
        -- destruct o as [|x o]; [discriminate|]. injection E6 as <- _. apply (proj1 (F lbracket ltac:(rewrite E3, E5; apply in_or_app; right; apply in_or_app; right; now left))). reflexivity.
      * destruct n as [|x n]; cbn [app] in E4.
        -- destruct k2; discriminate.
        -- injection E4 as <- _. apply (K n). rewrite E1, E3. reflexivity.
  - apply Ne, all_bs_ends; [discriminate|]. intros x I. apply (repeat_spec k). rewrite E1. apply in_or_app. now left.
Qed.

(** ** parse *)
Definition token_of (k : nat) (t : str) : token := if Nat.odd k then Txt (lbracket :: t ++ [rbracket]) else Tag t.
Fixpoint tokens (acc : str) (l : list (str * nat * str)) (q : str) : list token :=
  match l with
  | [] => flush (acc ++ q)
  | (p, k, t) :: l' => flush (acc ++ p) ++ flush (bs (Nat.div2 k)) ++ token_of k t :: tokens [] l' q
  end.
Lemma parse_skip x : forall acc s, parse (length x) acc (x ++ s) = parse 0 acc s.
Proof. induction x as [|c x IH]; intros acc s; [reflexivity|]. apply IH. Qed.
Lemma parse_text p r : ~ has_tag p -> (r = [] \/ (~ ends_in_backslash p /\ exists k q, r = bs k ++ lbracket :: q)) -> forall acc, parse 0 acc (p ++ r) = parse 0 (acc ++ p) r.
Proof.
  induction p as [|c p IH]; intros H R acc; [now rewrite app_nil_r|]. cbn [app]. cbn [parse]. change (c :: p ++ r) with ((c :: p) ++ r). rewrite (no_tag_here c p r H R).
  rewrite IH.
  - now rewrite <- app_assoc.
  - intros (a & d & t & q & E & K). apply H. exists (c :: a), d, t, q. split; [cbn; now rewrite E|exact K].
  - destruct R as [->|(Ne & X)]; [now left|right]. split; [|exact X]. intros (q & E). apply Ne. exists (c :: q). now rewrite E.
Qed.
Lemma parse_tag k t s acc : tag_words t -> parse 0 acc (tag_text_of k t ++ s) = flush acc ++ flush (bs (Nat.div2 k)) ++ token_of k t :: parse 0 [] s.
Proof.
  intros W. assert (T : tag_here (tag_text_of k t ++ s) = Some (k, t)) by (apply tag_here_ok; split; [exact W|now exists s]).
  destruct (tag_text_of k t) as [|c x] eqn:E; [destruct k; discriminate|]. cbn [app] in *. cbn [parse]. rewrite T. unfold token_of.
  assert (L : (k + length t + 1)%nat = length x).
  { assert (L : length (tag_text_of k t) = S (length x)) by now rewrite E. unfold tag_text_of in L. rewrite app_length, repeat_length in L. cbn [length] in L. rewrite app_length in L. cbn [length] in L. lia. }
  rewrite L, parse_skip. reflexivity.
Qed.
Lemma parse_written s l q : written s l q -> forall acc, parse 0 acc s = tokens acc l q.
Proof.
  induction 1 as [s H|p k t s l q H Ne W _ IH]; intros acc; cbn [tokens].
  - rewrite <- (app_nil_r s) at 1. rewrite parse_text; [reflexivity|exact H|now left].
  - rewrite parse_text; [|exact H|].
    + rewrite (parse_tag k t s (acc ++ p) W), IH. reflexivity.
    + right. split; [exact Ne|]. exists k, (t ++ "]"%char :: s). unfold tag_text_of. rewrite <- app_assoc. cbn [app]. now rewrite app_sing.
Qed.
Lemma all_written n : forall s, (length s <= n)%nat -> exists l q, written s l q.
Proof.
  induction n as [|n IH]; intros s L.
  - destruct s; [|cbn in L; lia]. exists [], []. constructor. intros (p & c & t & q & E & _). destruct p; discriminate.
  - destruct (tag_here s) as [[k t]|] eqn:T.
    + apply tag_here_ok in T. destruct T as (W & q & ->). destruct (IH q) as (l & r & X).
      { unfold tag_text_of in L. rewrite !app_length in L. cbn [length] in L. lia. }
      exists (([], k, t) :: l), r. apply (written_tag [] k t q l r); [|intros (x & E); now destruct x|exact W|exact X]. intros (p & c & u & v & E & _). destruct p; discriminate.
    + destruct s as [|c s]; [exists [], []; constructor; intros (p & c & t & q & E & _); destruct p; discriminate|]. cbn in L. destruct (IH s) as (l & r & X); [lia|].
      assert (K : forall p, ~ has_tag p -> (exists x, s = p ++ x) -> ~ has_tag (c :: p)).
      { intros p H (x & E) (a & d & t & q & E2 & D & F). destruct a as [|b a]; cbn [app] in E2.
        - injection E2 as -> ->. enough (tag_here (lbracket :: s) <> None) by contradiction. rewrite (proj2 (tag_here_ok (lbracket :: s) 0 (d :: t))); [discriminate|]. split; [now exists d, t|].
          exists (q ++ x). unfold tag_text_of. cbn [repeat app]. rewrite E. cbn [app]. rewrite <- !app_assoc. reflexivity.
        - injection E2 as -> ->. apply H. now exists a, d, t, q. }
      inversion X as [s0 H|p k t s0 l0 q0 H Ne W Y]; subst.
      * exists [], (c :: r). constructor. apply K; auto. exists []. now rewrite app_nil_r.
      * exists ((c :: p, k, t) :: l0), r. apply (written_tag (c :: p) k t s0 l0 r); [apply K; eauto| |exact W|exact Y].
        intros (x & E). destruct x as [|b x]; cbn [app] in E; injection E as -> E.
        -- subst p. cbn [app] in T. change "092"%char with backslash in T. rewrite (proj2 (tag_here_ok (backslash :: tag_text_of k t ++ s0) (S k) t)) in T; [discriminate|]. split; [exact W|]. now exists s0.
        -- apply Ne. now exists x.
Qed.

(** ** what is shown *)
Lemma unescape_ok n : forall s t, (length s <= n)%nat -> (unescape s = t <-> unescaped s t).
Proof.
  induction n as [|n IH]; intros s t L.
  - destruct s; [|cbn in L; lia]. cbn. split; [intros <-; constructor|]. intros H. now inversion H.
  - destruct s as [|c [|d s]].
    + cbn. split; [intros <-; constructor|]. intros H. now inversion H.
    + cbn. split; [intros <-; constructor; [discriminate|constructor]|]. intros H. inversion H as [| |x y z N U]; subst. inversion U. reflexivity.
    + change (unescape (c :: d :: s)) with (if (c =?= backslash) && (d =?= lbracket) then d :: unescape s else c :: unescape (d :: s)). cbn [length] in L.
      destruct (keqP c backslash) as [->|N]; cbn [andb].
      * destruct (keqP d lbracket) as [->|N].
        -- split.
           ++ intros <-. apply un_bracket. apply IH; [lia|reflexivity].
           ++ intros H. inversion H as [|x y U|x y z N U]; subst; [f_equal; apply IH; [lia|assumption]|]. now destruct (N eq_refl s).
        -- split.
           ++ intros <-. apply un_char; [intros _ r E; injection E as E _; now apply N|]. apply IH; [cbn; lia|reflexivity].
           ++ intros H. inversion H as [|x y U|x y z N' U]; subst; [now destruct N|]. f_equal. apply IH; [cbn; lia|assumption].
      * split.
        -- intros <-. apply un_char; [intros E; now destruct N|]. apply IH; [cbn; lia|reflexivity].
        -- intros H. inversion H as [|x y U|x y z N' U]; subst; [now destruct N|]. f_equal. apply IH; [cbn; lia|assumption].
Qed.
Lemma unescaped_eq s t : unescaped s t <-> unescape s = t. Proof. symmetry. now apply (unescape_ok (length s)). Qed.
Lemma unescape_bs k : unescape (bs k) = bs k.
Proof. apply unescaped_eq. induction k as [|k IH]; [constructor|]. cbn [repeat]. apply un_char; [|exact IH]. intros _ r E. destruct k; discriminate. Qed.
Lemma unescape_no_bracket s : ~ In lbracket s -> unescape s = s.
Proof.
  intros H. apply unescaped_eq. induction s as [|c s IH]; [constructor|]. apply un_char; [|apply IH; intros I; apply H; now right]. intros _ r ->. apply H. right. now left.
Qed.
Lemma unescape_tag t : tag_words t -> unescape (lbracket :: t ++ [rbracket]) = lbracket :: t ++ [rbracket].
Proof.
  intros W. apply unescaped_eq. apply un_char; [discriminate|]. apply unescaped_eq, unescape_no_bracket. intros I. apply in_app_or in I. destruct I as [I|[I|[]]]; [|discriminate].
  pose proof (tag_words_text _ W) as F. rewrite Forall_forall in F. now destruct (F _ I).
Qed.
Lemma name_ok t n : before_equals t = n <-> tag_name t n.
Proof.
  unfold tag_name. revert n. induction t as [|c t IH]; intros n; cbn [before_equals].
  - split; [intros <-; split; [easy|now left]|]. intros (_ & [E|(r & E)]); [exact E|destruct n; discriminate].
  - destruct (keqP c "="%char) as [->|N].
    + split; [intros <-; split; [easy|right; now exists t]|]. intros (H & [E|(r & E)]); [subst n; destruct H; now left|]. destruct n as [|d n]; [reflexivity|]. injection E as <- _. destruct H. now left.
    + split.
      * intros <-. destruct (proj1 (IH _) eq_refl) as (H & D). split; [intros [I|I]; [now destruct N|contradiction]|]. destruct D as [E|(r & E)]; [left; now rewrite <- E|right; exists r; cbn; now rewrite <- E].
      * intros (H & D). destruct n as [|d n]; [destruct D as [D|(r & D)]; [discriminate|injection D as -> _; now destruct N]|].
        assert (c = d) as -> by (destruct D as [D|(r & D)]; now injection D). f_equal. apply IH. split; [intros I; apply H; now right|].
        destruct D as [D|(r & D)]; injection D as D; [now left|right; now exists r].
Qed.
Section Styles.
Variable nm : str -> str.
Lemma pop_ok n st : forall st', pop_style n st = Some st' <-> exists a b, st = a ++ n :: b /\ ~ In n a /\ st' = a ++ b.
Proof.
  induction st as [|x st IH]; intros st'; cbn [pop_style].
  - split; [discriminate|]. intros (a & b & E & _). destruct a; discriminate.
  - destruct (keqP x n) as [->|N].
    + split.
      * intros E. injection E as <-. exists [], st. auto.
      * intros (a & b & E & H & ->). destruct a as [|y a]; cbn [app] in *; [injection E as E2; now subst|]. injection E as E1 E2. destruct H. now left.
    + split.
      * destruct (pop_style n st) as [u|] eqn:U; [|discriminate]. intros E. injection E as <-. destruct (proj1 (IH u) eq_refl) as (a & b & -> & H & ->). exists (x :: a), b. split; [reflexivity|]. split; [|reflexivity]. intros [I|I]; auto.
      * intros (a & b & E & H & ->). destruct a as [|y a]; cbn [app] in *; injection E as E1 E2; [now destruct N|]. subst y. rewrite (proj2 (IH (a ++ b))); [reflexivity|]. exists a, b. split; [exact E2|]. split; [|reflexivity]. intros I. apply H. now right.
Qed.
Lemma lead (s : str) : blank s \/ exists p c r, s = p ++ c :: r /\ blank p /\ ~ ws c.
Proof.
  induction s as [|c s [B|(p & d & r & -> & P & D)]]; [left; constructor| |].
  - destruct (in_dec Nat.eq_dec (nat_of_ascii c) [9; 10; 11; 12; 13; 28; 29; 30; 31; 32; 133; 160]) as [W|W]; [left; now constructor|right]. exists [], c, s. repeat split; [constructor|exact W].
  - right. destruct (in_dec Nat.eq_dec (nat_of_ascii c) [9; 10; 11; 12; 13; 28; 29; 30; 31; 32; 133; 160]) as [W|W].
    + exists (c :: p), d, r. repeat split; [now constructor|exact D].
    + exists [], c, (p ++ d :: r). repeat split; [constructor|exact W].
Qed.
Lemma strip_cases b : (blank b /\ strip b = []) \/ exists n, trimmed n /\ line_of n b /\ strip b = n.
Proof.
  destruct (lead b) as [B|(p & c & r & E & P & C)]; [left; split; [exact B|now apply strip_blank]|right].
  destruct (lead (rev (c :: r))) as [B|(q & d & x & E2 & Q & D)].
  - exfalso. apply C. unfold blank in B. rewrite Forall_forall in B. apply B. apply in_rev. rewrite rev_involutive. now left.
  - assert (X : c :: r = rev x ++ d :: rev q).
    { rewrite <- (rev_involutive (c :: r)), E2, rev_app_distr. cbn [rev]. now rewrite <- app_assoc. }
    assert (T : trimmed (rev x ++ [d])).
    { split; [|now exists (rev x), d]. destruct (rev x) as [|y z]; cbn [app] in *; injection X as -> _; [now exists d, []|now exists y, (z ++ [d])]. }
    assert (L : line_of (rev x ++ [d]) b).
    { exists p, (rev q). split; [exact P|]. split; [now apply Forall_rev|]. rewrite E, X, <- app_assoc. reflexivity. }
    exists (rev x ++ [d]). split; [exact T|]. split; [exact L|]. now apply strip_line_of.
Qed.
Lemma do_tag_ok t st st' : do_tag nm t st = Some st' <-> tag_does nm t st st'.
Proof.
  unfold do_tag. pose proof (proj1 (name_ok t _) eq_refl) as T. split.
  - destruct (before_equals t) as [|c r] eqn:B.
    + intros E. injection E as <-. now apply opens.
    + destruct (keqP c "/"%char) as [->|N].
      * destruct (strip_cases r) as [(Bl & ->)|(n & Tr & Li & E)].
        -- destruct st as [|x st]; [discriminate|]. intros E. injection E as <-. now apply (closes_last _ _ r).
        -- rewrite E. destruct n as [|d n]; [destruct Tr as ((? & ? & ? & _) & _); discriminate|]. intros P. apply pop_ok in P. destruct P as (a & b & -> & H & ->). now apply (closes _ _ r).
      * intros E. assert (X : nm (c :: r) :: st = st') by (destruct c as [[] [] [] [] [] [] [] []]; try (injection E as E; exact E); now destruct N). subst st'. apply opens; [exact T|]. intros r' X. injection X as X _. now apply N.
  - intros D. inversion D as [t0 n st0 Tn Ns|t0 b x st0 Tn Bl|t0 b n a st0 Tn Tr Li Ni]; subst; apply name_ok in Tn; rewrite Tn.
    + destruct n as [|c r]; [reflexivity|]. destruct c as [[] [] [] [] [] [] [] []]; try reflexivity. now destruct (Ns r).
    + rewrite (strip_blank b Bl). reflexivity.
    + rewrite (strip_line_of n b Tr Li). destruct n as [|d n]; [destruct Tr as ((? & ? & ? & _) & _); discriminate|]. apply pop_ok. now exists a, st0.
Qed.
Lemma flush_render a st l : render nm st (flush a ++ l) = match render nm st l with Some (t, s) => Some (unescape a ++ t, s) | None => None end.
Proof. destruct a as [|c a]; [cbn; now destruct (render nm st l) as [[? ?]|]|reflexivity]. Qed.
Lemma render_ok l q : Forall (fun x => tag_words (snd x)) l -> forall st u st', render nm st (tokens [] l q) = Some (u, st') <-> shows nm st l q u st'.
Proof.
  intros F. induction F as [|[[p k] t] l W F IH]; intros st u st'; cbn [tokens].
  - rewrite <- (app_nil_r (flush _)), flush_render. cbn [render app]. rewrite app_nil_r. split.
    + intros E. injection E as <- <-. constructor. now apply unescaped_eq.
    + intros H. inversion H as [st0 q0 u0 U| |]; subst. apply unescaped_eq in U. now rewrite U.
  - cbn [snd] in W. cbn [app]. rewrite flush_render, flush_render, unescape_bs. unfold token_of. destruct (Nat.Even_or_Odd k) as [[m E]|[m E]]; subst k.
    + replace (Nat.odd (2 * m)) with false by (symmetry; rewrite <- Nat.negb_even; now rewrite Nat.even_mul). rewrite Nat.div2_double. cbn [render]. split.
      * destruct (do_tag nm t st) as [st1|] eqn:D; [|discriminate]. destruct (render nm st1 (tokens [] l q)) as [[v s]|] eqn:R; [|discriminate]. intros X. injection X as <- <-.
        apply (shows_tag nm st p m t l q _ v st1 s); [now apply unescaped_eq|now apply do_tag_ok|now apply IH].
      * intros H. inversion H as [|st0 p0 k0 t0 l0 q0 u0 v st1 st2 U D S|st0 p0 k0 t0 l0 q0 u0 v st2 U S]; subst.
        -- assert (k0 = m) by lia. subst k0. apply do_tag_ok in D. rewrite D. apply IH in S. rewrite S. apply unescaped_eq in U. now rewrite U.
        -- exfalso. lia.
    + replace (Nat.odd (2 * m + 1)) with true by (symmetry; rewrite Nat.odd_add, Nat.odd_mul; reflexivity).
      replace (Nat.div2 (2 * m + 1)) with m by (rewrite Nat.add_1_r; symmetry; apply Nat.div2_succ_double). cbn [render]. rewrite (unescape_tag t W). split.
      * destruct (render nm st (tokens [] l q)) as [[v s]|] eqn:R; [|discriminate]. intros X. injection X as <- <-. cbn [app]. rewrite app_sing.
        apply (shows_escaped nm st p m t l q _ v s); [now apply unescaped_eq|now apply IH].
      * intros H. inversion H as [|st0 p0 k0 t0 l0 q0 u0 v st1 st2 U D S|st0 p0 k0 t0 l0 q0 u0 v st2 U S]; subst.
        -- exfalso. lia.
        -- assert (k0 = m) by lia. subst k0. apply IH in S. rewrite S. apply unescaped_eq in U. rewrite U. cbn [app]. now rewrite app_sing.
Qed.
Lemma written_words s l q : written s l q -> Forall (fun x => tag_words (snd x)) l.
Proof. induction 1; constructor; assumption. Qed.
Lemma markup_shown s t open : rendered nm s = Some (t, open) <-> exists l q, written s l q /\ shows nm [] l q t open.
Proof.
  unfold rendered. split.
  - intros R. destruct (all_written (length s) s) as (l & q & W); [lia|]. exists l, q. split; [exact W|]. rewrite (parse_written _ _ _ W) in R. apply render_ok in R; [exact R|]. eapply written_words, W.
  - intros (l & q & W & S). rewrite (parse_written _ _ _ W). apply render_ok; [|exact S]. eapply written_words, W.
Qed.
End Styles.

(** ** texts shown as they are *)
Lemma unescaped_length s t : unescaped s t -> length t <= length s.
Proof. induction 1; cbn; lia. Qed.
Lemma unescaped_same s t : unescaped s t -> (length t = length s <-> ~ has_escape s).
Proof.
  induction 1 as [|s t H IH|c s t N H IH].
  - split; [|reflexivity]. intros _ (p & q & E). destruct p; discriminate.
  - pose proof (unescaped_length _ _ H). split; [cbn; lia|]. intros X. destruct X. exists [], s. reflexivity.
  - split.
    + intros E (p & q & X). cbn in E. apply IH; [lia|]. destruct p as [|d p]; cbn [app] in X; injection X as -> X; [now destruct (N eq_refl q)|]. now exists p, q.
    + intros X. cbn. f_equal. apply IH. intros (p & q & ->). apply X. now exists (c :: p), q.
Qed.
Lemma unescaped_id s t : unescaped s t -> length t = length s -> t = s.
Proof. induction 1 as [|s t H IH|c s t N H IH]; intros E; [reflexivity|pose proof (unescaped_length _ _ H); cbn in E; lia|]. cbn in E. now rewrite IH by lia. Qed.
Lemma written_end_of s l q : written s l q -> l = [] -> q = s /\ ~ has_tag s.
Proof. destruct 1; [auto|discriminate]. Qed.
Lemma shows_shorter nm st l q u st' : shows nm st l q u st' -> forall s, written s l q -> length u <= length s /\ (l <> [] -> length u < length s).
Proof.
  induction 1 as [st q u U|st p k t l q u v st1 st2 U D S IH|st p k t l q u v st2 U S IH]; intros s W.
  - apply written_end_of in W; [|reflexivity]. destruct W as [-> _]. split; [now apply unescaped_length|congruence].
  - inversion W as [|p0 k0 t0 s0 l0 q0 H Ne Wt Y]; subst. destruct (IH s0 Y) as [L _]. apply unescaped_length in U. unfold tag_text_of. rewrite !app_length, !repeat_length. cbn [length]. rewrite app_length. cbn [length]. lia.
  - inversion W as [|p0 k0 t0 s0 l0 q0 H Ne Wt Y]; subst. destruct (IH s0 Y) as [L _]. apply unescaped_length in U. unfold tag_text_of. rewrite !app_length, !repeat_length. cbn [length]. rewrite !app_length. cbn [length]. lia.
Qed.
Lemma shown_exactly nm s : shown_as nm s s <-> ~ has_tag s /\ ~ has_escape s.
Proof.
  unfold shown_as, plain. split.
  - destruct (rendered nm s) as [[u open]|] eqn:R; [|discriminate]. cbn. intros E. injection E as ->. apply markup_shown in R. destruct R as (l & q & W & S).
    destruct l as [|x l].
    + destruct (written_end_of _ _ _ W eq_refl) as [-> H]. split; [exact H|]. inversion S as [st0 q0 u0 U| |]; subst. now apply (unescaped_same _ _ U).
    + destruct (shows_shorter _ _ _ _ _ _ S _ W) as [_ L]. specialize (L ltac:(discriminate)). lia.
  - intros [H N]. assert (R : rendered nm s = Some (s, [])); [|now rewrite R]. apply markup_shown. exists [], s. split; [now constructor|]. constructor.
    assert (U : unescaped s (unescape s)) by now apply unescaped_eq. rewrite <- (unescaped_id _ _ U) at 2; [exact U|]. now apply (unescaped_same _ _ U).
Qed.
Lemma markup_error nm s : plain nm s = None <-> forall l q t open, written s l q -> ~ shows nm [] l q t open.
Proof.
  unfold plain. split.
  - intros E l q t o W S. destruct (rendered nm s) as [[u v]|] eqn:R; [discriminate|]. enough (rendered nm s = Some (t, o)) by congruence. apply markup_shown. now exists l, q.
  - intros H. destruct (rendered nm s) as [[u v]|] eqn:R; [|reflexivity]. apply markup_shown in R. destruct R as (l & q & W & S). now destruct (H l q u v W).
Qed.
