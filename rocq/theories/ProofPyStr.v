(** * Proofs about the string operations *)
From Coq Require Import Ascii String List ZArith Bool Lia.
From Verif Require Import Base MemMap Pipeline PyStr MapFile SpecMap.
Import ListNotations.
Open Scope list_scope.
Open Scope Z_scope.

Lemma is_space_spec c : is_space c = true <-> ws c.
Proof.
  unfold is_space, ws. set (n := nat_of_ascii c). clearbody n.
  rewrite !orb_true_iff, !andb_true_iff, !Nat.leb_le, !Nat.eqb_eq. cbn [In].
  split; intro H.
  - destruct H as [[[H|H]|H]|H]; lia.
  - repeat destruct H as [H|H]; lia.
Qed.

Lemma is_space_ws c : ws c -> is_space c = true.
Proof. apply is_space_spec. Qed.
Lemma is_space_not c : ~ ws c -> is_space c = false.
Proof. intro H. destruct (is_space c) eqn:E; auto. apply is_space_spec in E. contradiction. Qed.

Lemma lstrip_blank p s : blank p -> lstrip (p ++ s) = lstrip s.
Proof. induction 1 as [|c p H _ IH]; cbn [lstrip app]; auto. rewrite (is_space_ws _ H). exact IH. Qed.

Lemma lstrip_blank0 p : blank p -> lstrip p = [].
Proof. intro H. rewrite <- (app_nil_r p). now rewrite lstrip_blank. Qed.

Lemma lstrip_begins s : begins s -> lstrip s = s.
Proof. intros (c & r & -> & H). cbn [lstrip]. now rewrite is_space_not. Qed.

Lemma blank_rev p : blank p -> blank (rev p).
Proof. apply Forall_rev. Qed.

Lemma begins_app s q : begins s -> begins (s ++ q).
Proof. intros (c & r & -> & H). exists c, (r ++ q). auto. Qed.

Lemma ends_app p s : ends s -> ends (p ++ s).
Proof. intros (r & c & -> & H). exists (p ++ r), c. now rewrite app_assoc. Qed.

Lemma ends_rev s : ends s -> begins (rev s).
Proof. intros (r & c & -> & H). rewrite rev_app_distr. exists c, (rev r). auto. Qed.

Lemma strip_line t p q : trimmed t -> blank p -> blank q -> strip (p ++ t ++ q) = t.
Proof.
  intros [B E] P Q. unfold strip. rewrite (lstrip_blank _ _ P).
  rewrite (lstrip_begins (t ++ q)) by now apply begins_app.
  rewrite rev_app_distr, lstrip_blank by now apply blank_rev.
  rewrite lstrip_begins by now apply ends_rev. apply rev_involutive.
Qed.

Lemma strip_blank p : blank p -> strip p = [].
Proof. intro H. unfold strip. now rewrite (lstrip_blank0 _ H). Qed.

Lemma strip_line_of t s : trimmed t -> line_of t s -> strip s = t.
Proof. intros T (p & q & P & Q & ->). now apply strip_line. Qed.

Lemma strip_idem t : trimmed t -> strip t = t.
Proof. intro H. rewrite <- (app_nil_r t) at 1. apply (strip_line t [] []); auto; constructor. Qed.

(** what is left after stripping is empty or trimmed *)
Lemma lstrip_begins_or s : lstrip s = [] \/ begins (lstrip s).
Proof.
  induction s as [|c s IH]; cbn [lstrip]; auto.
  destruct (is_space c) eqn:E; auto. right. exists c, s. split; auto.
  intro H. rewrite (is_space_ws _ H) in E. discriminate.
Qed.

Definition sep (r : str) : Prop := r = [] \/ exists c r', r = c :: r' /\ ws c.

Lemma sep_gap g s : gap g -> sep (g ++ s).
Proof. intros [N B]. destruct g; [contradiction|]. inversion B; subst. right. exists a, (g ++ s). auto. Qed.
Lemma sep_blank q : blank q -> sep q.
Proof. intro B. destruct q; [now left|]. inversion B; subst. right. eauto. Qed.

Lemma span_word_app w r : Forall (fun c => ~ ws c) w -> sep r -> span_word (w ++ r) = (w, r).
Proof.
  induction 1 as [|c w H _ IH]; intro Hr; cbn [span_word app].
  - destruct Hr as [-> | (c & r' & -> & Hc)]; auto. cbn [span_word]. now rewrite is_space_ws.
  - rewrite is_space_not by auto. now rewrite (IH Hr).
Qed.

Lemma word_begins w : word w -> begins w.
Proof. intros [N F]. destruct w; [contradiction|]. inversion F; subst. eexists _, _; eauto. Qed.
Lemma word_ends w : word w -> ends w.
Proof.
  intros [N F]. destruct (exists_last N) as (r & c & ->). apply Forall_app in F as [_ F]. inversion F; subst.
  exists r, c. auto.
Qed.
Lemma word_trimmed w : word w -> trimmed w.
Proof. split; [apply word_begins|apply word_ends]; auto. Qed.

Lemma split_max_blank k s : blank s -> split_max k s = [].
Proof. intro H. destruct k; cbn [split_max]; now rewrite lstrip_blank0. Qed.

Lemma split_max_word k p w r : blank p -> word w -> sep r -> split_max (S k) (p ++ w ++ r) = w :: split_max k r.
Proof.
  intros P W R. cbn [split_max]. rewrite lstrip_blank by auto.
  rewrite lstrip_begins by (apply begins_app, word_begins, W).
  destruct (w ++ r) eqn:E.
  { destruct W as [N _]. destruct w; [contradiction|discriminate]. }
  rewrite <- E. rewrite span_word_app; auto. apply W.
Qed.

Lemma split_max_rest p t : blank p -> begins t -> split_max 0 (p ++ t) = [t].
Proof.
  intros P B. cbn [split_max]. rewrite lstrip_blank by auto. rewrite (lstrip_begins _ B).
  destruct B as (c & r & -> & _). reflexivity.
Qed.

Lemma words_split l s : words l s -> forall k, (List.length l <= k)%nat -> split_max k s = l.
Proof.
  induction 1; intros k K.
  - now apply split_max_blank.
  - destruct k; cbn in K; [lia|]. rewrite split_max_word; auto.
    + now rewrite split_max_blank.
    + now apply sep_blank.
  - destruct k; cbn in K; [lia|]. rewrite split_max_word; auto.
    + f_equal. rewrite <- (IHwords k) by lia.
      assert (L : lstrip (g ++ s) = lstrip s) by (apply lstrip_blank, H1).
      destruct k; cbn [split_max]; now rewrite L.
    + now apply sep_gap.
Qed.

Lemma words_length l s : words l s -> (List.length l <= List.length s)%nat.
Proof.
  induction 1; cbn [List.length].
  - lia.
  - rewrite !app_length. destruct H0 as [N _]. destruct w; [contradiction|]. cbn [List.length]. lia.
  - rewrite !app_length. destruct H0 as [N _]. destruct w; [contradiction|]. cbn [List.length]. lia.
Qed.

Lemma split_words l s : words l s -> split s = l.
Proof. intro H. apply words_split; auto. now apply words_length. Qed.

(** ** numbers *)

Lemma hex_digit_val c d : hex_digit c d -> digit_val c = Some d /\ 0 <= d < 16 /\ c <> "_"%char.
Proof.
  intros [H0 H].
  assert (L : (Z.to_nat d < 16)%nat) by (apply (proj1 (nth_error_Some (list_ascii_of_string "0123456789abcdef") _)); rewrite H; discriminate).
  assert (D : d = Z.of_nat (Z.to_nat d)) by lia. rewrite D in *. clear D H0.
  set (n := Z.to_nat d) in *. rewrite Nat2Z.id in H. clearbody n. clear d. revert H.
  do 16 (destruct n; [cbn; intro H; injection H as <-; repeat split; cbn; try lia; discriminate|]). lia.
Qed.

Lemma int_digits_snoc s c d : digit_val c = Some d -> 0 <= d < 16 -> c <> "_"%char ->
  forall acc us z, int_digits 16 s acc us = Some z -> int_digits 16 (s ++ [c]) acc us = Some (z * 16 + d).
Proof.
  intros D L U. induction s as [|x s IH]; intros acc us z H.
  - cbn in H. destruct us; [discriminate|]. injection H as <-. cbn [int_digits app].
    destruct (keqP c "_"%char); [contradiction|]. rewrite D.
    destruct (d <? 16) eqn:E; [reflexivity|apply Z.ltb_ge in E; lia].
  - cbn [int_digits app] in *. destruct (x =?= "_"%char).
    + destruct us; [discriminate|]. auto.
    + destruct (digit_val x); [|discriminate]. destruct (z0 <? 16); [|discriminate]. auto.
Qed.

Lemma hex_digits_int s z : hex_digits s z -> int_digits 16 s 0 true = Some z /\ exists c r, s = c :: r /\ c <> "_"%char.
Proof.
  induction 1 as [c d H|s z c d _ IH H].
  - destruct (hex_digit_val _ _ H) as (D & L & U). split; [|eauto]. cbn [int_digits].
    destruct (keqP c "_"%char); [contradiction|]. rewrite D.
    destruct (d <? 16) eqn:E; [reflexivity|apply Z.ltb_ge in E; lia].
  - destruct (hex_digit_val _ _ H) as (D & L & U). destruct IH as [I (x & r & -> & X)]. split.
    + now apply int_digits_snoc.
    + exists x, (r ++ [c]). auto.
Qed.

Lemma number_int z t : number z t -> py_int t = Ok z.
Proof.
  intros (s & H & ->). destruct (hex_digits_int _ _ H) as [I (c & r & -> & U)].
  cbn [list_ascii_of_string app]. unfold py_int, int_unsigned, int_prefixed.
  destruct c as [[] [] [] [] [] [] [] []]; try rewrite I; try reflexivity.
  exfalso; apply U; reflexivity.
Qed.

Lemma hex_digit_nows c d : hex_digit c d -> ~ ws c.
Proof.
  intros [H0 H].
  assert (L : (Z.to_nat d < 16)%nat) by (apply (proj1 (nth_error_Some (list_ascii_of_string "0123456789abcdef") _)); rewrite H; discriminate).
  set (n := Z.to_nat d) in *. clearbody n. clear d H0. revert H.
  do 16 (destruct n; [cbn; intro H; injection H as <-; unfold ws; cbn; intuition discriminate|]). lia.
Qed.

Lemma number_word z t : number z t -> word t.
Proof.
  intros (s & H & ->). split; [discriminate|]. cbn [list_ascii_of_string app].
  repeat constructor; try (unfold ws; cbn; intuition discriminate).
  induction H.
  - constructor; [|constructor]. eapply hex_digit_nows; eauto.
  - apply Forall_app. split; auto. constructor; [|constructor]. eapply hex_digit_nows; eauto.
Qed.

Lemma number_head z t : number z t -> exists r, t = "0"%char :: "x"%char :: r.
Proof. intros (s & _ & ->). cbn. eauto. Qed.

(** ** prefixes *)

Lemma sw_spec p s : sw p s = true <-> prefix p s.
Proof.
  unfold sw, prefix. generalize (list_ascii_of_string p). intro l. clear p. revert s.
  induction l as [|c l IH]; intro s; cbn [startswith].
  - split; intros _; [exists s; reflexivity|reflexivity].
  - destruct s as [|d s]; [split; [discriminate|intros (r & H); discriminate]|].
    rewrite andb_true_iff, IH. split.
    + intros [E (r & ->)]. destruct (keqP c d); [subst|discriminate]. exists r. reflexivity.
    + intros (r & H). injection H as -> ->. split; [apply keq_refl|eauto].
Qed.
Lemma sw_true p s : prefix p s -> sw p s = true.
Proof. apply sw_spec. Qed.
Lemma sw_false p s : ~ prefix p s -> sw p s = false.
Proof. intro H. destruct (sw p s) eqn:E; auto. apply sw_spec in E. contradiction. Qed.

Lemma contains_substring a s : contains a s = true <-> substring a s.
Proof.
  induction s as [|c s IH]; cbn [contains]; rewrite orb_true_iff.
  - split.
    + intros [H|H]; [|discriminate]. exists [], []. destruct a; [reflexivity|discriminate].
    + intros (x & y & H). symmetry in H. apply app_eq_nil in H as [_ H]. apply app_eq_nil in H as [-> _]. left. reflexivity.
  - rewrite IH. split.
    + intros [H|(x & y & ->)].
      * revert H. generalize (c :: s). clear. intros s H.
        assert (exists r, s = a ++ r) as [r ->].
        { revert s H. induction a; intros s H; cbn in *; [eauto|]. destruct s; [discriminate|].
          apply andb_true_iff in H as [E H]. destruct (keqP a a1); [subst|discriminate].
          destruct (IHa _ H) as [r ->]. exists r; reflexivity. }
        exists [], r. reflexivity.
      * exists (c :: x), y. reflexivity.
    + intros (x & y & H). destruct x as [|d x].
      * left. cbn in H. rewrite H. clear. induction a; cbn; auto. now rewrite keq_refl.
      * injection H as -> ->. right. eexists _, _; reflexivity.
Qed.

(** ** locations *)

Lemma cut_at_none c s : ~ In c s -> cut_at c s = None.
Proof.
  induction s as [|d s IH]; intro H; cbn [cut_at]; auto. destruct (keqP d c).
  - subst. exfalso. apply H. now left.
  - rewrite IH; auto. intro I. apply H. now right.
Qed.
Lemma cut_at_app c a b : ~ In c a -> cut_at c (a ++ c :: b) = Some (a, b).
Proof.
  induction a as [|d a IH]; intro H; cbn [cut_at app].
  - now rewrite keq_refl.
  - destruct (keqP d c); [subst; exfalso; apply H; now left|]. rewrite IH; auto. intro I. apply H. now right.
Qed.
Lemma cut_at_spec c s : match cut_at c s with Some (a, b) => s = a ++ c :: b /\ ~ In c a | None => ~ In c s end.
Proof.
  induction s as [|d s IH]; cbn [cut_at]; auto.
  destruct (keqP d c) as [E|E]; [subst; split; auto|].
  destruct (cut_at c s) as [[a b]|].
  - destruct IH as [-> N]. split; auto. intros [I|I]; auto.
  - intros [I|I]; auto.
Qed.

Lemma location_parse ar ob t : location ar ob t -> get_archive_object_file t = (ar, ob).
Proof.
  unfold get_archive_object_file. intros [ar' ob' H|ob' H].
  - unfold member_text. rewrite cut_at_app by auto. now rewrite removelast_last.
  - now rewrite cut_at_none.
Qed.
