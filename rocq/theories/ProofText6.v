(** * Proofs about texts without colours, and about the characters of JSON texts *)
From Coq Require Import Ascii String List ZArith Lia Bool.
From Verif Require Import Base MemMap Filter PyStr Pipeline MapFile Deps Table SpecTable SpecMap ProofTable Formats Markup Project Main JsonText Text SpecText ProofText1 ProofText2 ProofText4.
Import ListNotations.
Open Scope list_scope.

Lemma tag_char_ok c : tag_start c = true <-> tag_char c.
Proof.
  unfold tag_start, tag_char. rewrite orb_true_iff, andb_true_iff, !Nat.leb_le. cbn [mem existsb]. rewrite !orb_true_iff.
  destruct (keqP c "#"%char), (keqP c "/"%char), (keqP c "@"%char); intuition congruence.
Qed.
Lemma no_backslash s : ~ In backslash s -> backslashes s = (O, s).
Proof. destruct s as [|c s]; [reflexivity|]. intros N. cbn [backslashes]. destruct (keqP c backslash) as [->|]; [elim N; now left|reflexivity]. Qed.
Lemma tag_text_some s t : tag_text s = Some t -> exists q, s = t ++ rbracket :: q /\ Forall (fun d => d <> lbracket /\ d <> rbracket) t.
Proof.
  revert t. induction s as [|c s IH]; intros t; cbn [tag_text]; [discriminate|]. destruct (keqP c rbracket) as [->|N].
  - intros E. injection E as <-. exists s. now split.
  - destruct (keqP c lbracket) as [->|N']; [discriminate|]. destruct (tag_text s) as [u|] eqn:E; [|discriminate]. intros X. injection X as <-. destruct (IH u eq_refl) as (q & -> & F).
    exists q. split; [reflexivity|]. constructor; [now split|exact F].
Qed.
Definition starts_tag (s : str) : Prop :=
  exists c t q, s = lbracket :: c :: t ++ rbracket :: q /\ tag_char c /\ Forall (fun d => d <> lbracket /\ d <> rbracket) t.
Lemma tag_here_iff s : ~ In backslash s -> (tag_here s = None -> ~ starts_tag s) /\ forall k t, tag_here s = Some (k, t) -> k = O /\ starts_tag s.
Proof.
  intros N. unfold tag_here. rewrite (no_backslash _ N). split.
  - intros H (c & t & q & -> & T & F). apply tag_char_ok in T. rewrite keq_refl, T in H. cbn [andb] in H.
    change (c :: t ++ rbracket :: q) with ((c :: t) ++ rbracket :: q) in H. rewrite tag_text_here in H; [discriminate|]. constructor; [|exact F].
    apply tag_char_ok in T. split; intros ->; destruct T as [(A & B)|[T|[T|T]]]; try discriminate T; cbn in A, B; lia.
  - intros k t H. destruct s as [|b [|c s]]; try discriminate. destruct (keqP b lbracket) as [->|]; [|discriminate]. cbn [andb] in H. destruct (tag_start c) eqn:T; [|discriminate].
    destruct (tag_text (c :: s)) as [u|] eqn:E; [|discriminate]. injection H as <- <-. split; [reflexivity|]. apply tag_text_some in E. destruct E as (q & E & F).
    destruct u as [|c' u]; [|].
    + injection E as -> _. vm_compute in T. discriminate.
    + injection E as <- ->. exists c, u, q. split; [reflexivity|]. split; [now apply tag_char_ok|]. now inversion F.
Qed.
Lemma has_tag_cases c s : has_tag (c :: s) <-> starts_tag (c :: s) \/ has_tag s.
Proof.
  unfold has_tag, starts_tag. split.
  - intros ([|x p] & e & t & q & E & H); [left; now exists e, t, q|]. right. injection E as <- ->. now exists p, e, t, q.
  - intros [(e & t & q & E & H)|(p & e & t & q & -> & H)]; [now exists [], e, t, q|]. exists (c :: p), e, t, q. now split.
Qed.
Lemma not_has_nil : ~ has_tag [].
Proof. intros (p & c & t & q & E & _). now destruct p. Qed.

Lemma parse_none s : ~ In backslash s -> ~ has_tag s -> forall acc, parse O acc s = flush (acc ++ s).
Proof.
  induction s as [|c s IH]; intros N T acc; [now rewrite app_nil_r|]. cbn [parse]. destruct (tag_here (c :: s)) as [[k t]|] eqn:E.
  - exfalso. apply T. apply has_tag_cases. left. eapply tag_here_iff; eassumption.
  - rewrite IH; [now rewrite <- app_assoc|intros I; apply N; now right|intros H; apply T, has_tag_cases; now right].
Qed.

(** characters that are shown at most *)
Definition weight (l : list token) : nat := list_sum (map (fun x => match x with Txt s => length s | Tag _ => O end) l).
Lemma weight_app a b : weight (a ++ b) = (weight a + weight b)%nat.
Proof. unfold weight. rewrite map_app. apply list_sum_app. Qed.
Lemma weight_flush s : weight (flush s) = length s.
Proof. destruct s as [|c s]; [reflexivity|]. unfold weight. cbn. lia. Qed.
Lemma unescape_le s : (length (unescape s) <= length s)%nat.
Proof.
  assert (H : forall n s, (length s <= n)%nat -> (length (unescape s) <= length s)%nat).
  { clear. induction n as [|n IH]; intros s L; [destruct s; [cbn; lia|cbn in L; lia]|]. destruct s as [|c [|d s]]; [cbn; lia|cbn; lia|]. change (unescape (c :: d :: s)) with (if (c =?= backslash) && (d =?= lbracket) then d :: unescape s else c :: unescape (d :: s)). cbn [length] in L.
    destruct ((c =?= backslash) && (d =?= lbracket)); cbn [length]; [specialize (IH s ltac:(lia)); lia|]. specialize (IH (d :: s) ltac:(cbn [length]; lia)). cbn [length] in IH. lia. }
  now apply (H (length s)).
Qed.
Lemma render_weight nm l : forall st t st', render nm st l = Some (t, st') -> (length t <= weight l)%nat.
Proof.
  induction l as [|[s|u] l IH]; intros st t st'; cbn [render].
  - intros E. injection E as <- _. cbn. lia.
  - destruct (render nm st l) as [[v st1]|] eqn:E; [|discriminate]. intros X. injection X as <- _. specialize (IH _ _ _ E). rewrite app_length. pose proof (unescape_le s).
    change (weight (Txt s :: l)) with (length s + weight l)%nat. lia.
  - destruct (do_tag nm u st) as [st1|]; [|discriminate]. intros E. specialize (IH _ _ _ E). exact IH.
Qed.
Lemma parse_weight s : ~ In backslash s -> forall k acc, (weight (parse k acc s) <= length acc + length s)%nat.
Proof.
  induction s as [|c s IH]; intros N k acc; cbn [parse]; [rewrite weight_flush; cbn; lia|]. assert (N' : ~ In backslash s) by (intros I; apply N; now right). cbn [length].
  destruct k as [|k]; [|specialize (IH N' k acc); lia]. destruct (tag_here (c :: s)) as [[k t]|] eqn:E.
  - apply tag_here_iff in E; [|exact N]. destruct E as (-> & _). rewrite !weight_app, weight_flush. cbn [Nat.div2 repeat flush Nat.odd Nat.even negb]. specialize (IH N' (0 + length t + 1)%nat []).
    change (weight (Tag t :: ?x)) with (weight x). cbn [length] in IH. change (weight []) with O. lia.
  - specialize (IH N' O (acc ++ [c])). rewrite app_length in IH. cbn [length] in IH. lia.
Qed.
Lemma parse_lighter s : ~ In backslash s -> has_tag s -> forall acc, (weight (parse O acc s) < length acc + length s)%nat.
Proof.
  induction s as [|c s IH]; intros N T acc; [now apply not_has_nil in T|]. assert (N' : ~ In backslash s) by (intros I; apply N; now right). cbn [parse length].
  destruct (tag_here (c :: s)) as [[k t]|] eqn:E.
  - apply tag_here_iff in E; [|exact N]. destruct E as (-> & _). rewrite !weight_app, weight_flush. cbn [Nat.div2 repeat flush Nat.odd Nat.even negb]. pose proof (parse_weight s N' (0 + length t + 1)%nat []) as W.
    change (weight (Tag t :: ?x)) with (weight x). cbn [length] in W. change (weight []) with O. lia.
  - apply has_tag_cases in T. destruct T as [T|T]; [exfalso; revert T; eapply tag_here_iff; eassumption|]. specialize (IH N' T (acc ++ [c])). rewrite app_length in IH. cbn [length] in IH. lia.
Qed.
Lemma unescape_same s : ~ In backslash s -> unescape s = s.
Proof.
  induction s as [|c s IH]; intros N; [reflexivity|]. destruct s as [|d s]; [reflexivity|]. change (unescape (c :: d :: s)) with (if (c =?= backslash) && (d =?= lbracket) then d :: unescape s else c :: unescape (d :: s)). destruct (keqP c backslash) as [->|]; [elim N; now left|]. cbn [andb]. rewrite IH; [reflexivity|].
  intros I. apply N. now right.
Qed.
Lemma shown_itself nm s : ~ In backslash s -> shown_as nm s s <-> ~ has_tag s.
Proof.
  intros N. unfold shown_as, plain, rendered. split.
  - intros H T. destruct (render nm [] (parse 0 [] s)) as [[t st]|] eqn:E; [|discriminate]. injection H as ->. apply render_weight in E. pose proof (parse_lighter s N T []) as L. cbn [length] in L. lia.
  - intros T. rewrite (parse_none s N T []). cbn [app]. destruct s as [|c s]; [reflexivity|]. cbn [flush render option_map fst]. rewrite unescape_same by exact N. now rewrite app_nil_r.
Qed.

(** ** the characters of JSON texts *)
Definition printable_b (c : ascii) : bool := ((nat_of_ascii c =? 10) || ((32 <=? nat_of_ascii c) && (nat_of_ascii c <=? 126)))%nat.
Lemma printable_ok s : forallb printable_b s = true <-> Forall printable s.
Proof.
  rewrite forallb_forall, Forall_forall. unfold printable_b, printable. split; intros H c I; specialize (H c I); rewrite orb_true_iff, andb_true_iff, !Nat.leb_le, Nat.eqb_eq in *; exact H.
Qed.
Lemma escape_printable c : forallb printable_b (escape_char c) = true.
Proof. destruct c as [[] [] [] [] [] [] [] []]; vm_compute; reflexivity. Qed.
Lemma string_printable s : forallb printable_b (json_string s) = true.
Proof.
  unfold json_string. cbn [forallb]. rewrite forallb_app. cbn [forallb]. replace (printable_b quote) with true by (vm_compute; reflexivity). rewrite andb_true_l, andb_true_r. induction s as [|c s IH]; [reflexivity|].
  cbn [flat_map]. now rewrite forallb_app, escape_printable, IH.
Qed.
Lemma spaces_printable n : forallb printable_b (repeat " "%char n) = true.
Proof. apply forallb_forall. intros c I. apply repeat_spec in I. subst c. vm_compute. reflexivity. Qed.
Lemma line_printable n : forallb printable_b (new_line n) = true.
Proof. unfold new_line. cbn [forallb]. rewrite spaces_printable. vm_compute. reflexivity. Qed.
Lemma join_printable n l : Forall (fun s => forallb printable_b s = true) l -> forallb printable_b (join_with (","%char :: new_line n) l) = true.
Proof.
  induction 1 as [|x l H _ IH]; [reflexivity|]. destruct l as [|y l]; [exact H|].
  change (join_with (","%char :: new_line n) (x :: y :: l)) with (x ++ (","%char :: new_line n) ++ join_with (","%char :: new_line n) (y :: l)). rewrite !forallb_app, H, IH. cbn [forallb]. now rewrite line_printable.
Qed.
Lemma number_printable s : forallb number_char s = true -> forallb printable_b s = true.
Proof.
  intros H. apply forallb_forall. intros c I. apply (proj1 (forallb_forall _ _) H) in I. revert I. clear. destruct c as [[] [] [] [] [] [] [] []]; vm_compute; congruence.
Qed.
Lemma dumps_printable j : forall n, forallb printable_b (dumps n j) = true.
Proof.
  induction j as [|b|z|s|l IH|d IH] using json_rect'; intros n.
  - reflexivity.
  - now destruct b.
  - apply number_printable, show_Z_chars.
  - apply string_printable.
  - destruct l as [|x l]; [reflexivity|].
    change (dumps n (JList (x :: l))) with (("["%char :: new_line (S n)) ++ join_with (","%char :: new_line (S n)) (map (dumps (S n)) (x :: l)) ++ new_line n ++ ["]"%char]).
    rewrite !forallb_app, line_printable, join_printable; [cbn [forallb]; rewrite line_printable; vm_compute; reflexivity|]. generalize (x :: l) IH. clear. induction 1 as [|x l H F IH]; constructor; [apply H|exact IH].
  - destruct d as [|x d]; [reflexivity|].
    change (dumps n (JObj (x :: d))) with (("{"%char :: new_line (S n)) ++ join_with (","%char :: new_line (S n)) (map (member_text (S n)) (x :: d)) ++ new_line n ++ ["}"%char]).
    rewrite !forallb_app, line_printable, join_printable; [cbn [forallb]; rewrite line_printable; vm_compute; reflexivity|]. generalize (x :: d) IH. clear. induction 1 as [|x d H F IH]; constructor; [|exact IH].
    unfold member_text. rewrite !forallb_app, string_printable, H. reflexivity.
Qed.
Lemma text_printable p t : json_text p = Some t -> Forall printable t.
Proof.
  intros E. apply printable_ok. unfold json_text in E. destruct (json_of_piece p) as [j|]; [|discriminate]. injection E as <-. apply dumps_printable.
Qed.
