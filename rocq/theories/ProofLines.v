(** * The lines of a text *)
From Coq Require Import Ascii String List ZArith Lia Bool.
From Verif Require Import Base PyStr SpecLines.
Import ListNotations.
Open Scope list_scope.

Lemma linebreak_spec c : is_linebreak c = true <-> In c break_chars.
Proof.
  destruct c as [[] [] [] [] [] [] [] []]; vm_compute; split; intros H; try discriminate H; try reflexivity; try tauto;
    repeat (destruct H as [H|H]; [discriminate H|]); contradiction.
Qed.
Lemma linebreak_not c : is_linebreak c = false <-> ~ In c break_chars.
Proof. rewrite <- linebreak_spec. now destruct (is_linebreak c). Qed.
Lemma unbroken_nil : unbroken_text [].
Proof. intros c _ []. Qed.
Lemma unbroken_snoc l c : unbroken_text l -> ~ In c break_chars -> unbroken_text (l ++ [c]).
Proof. intros U N x B I. apply in_app_or in I. destruct I as [I|[<-|[]]]; [exact (U x B I)|exact (N B)]. Qed.
Lemma crlf c s : (c = "013"%char /\ exists r, s = "010"%char :: r) \/
  (c = "013"%char -> forall r, s <> "010"%char :: r).
Proof.
  destruct (ascii_dec c "013"%char) as [->|N]; [|right; intros E; contradiction]. destruct s as [|x s]; [right; discriminate|].
  destruct (ascii_dec x "010"%char) as [->|N]; [left; split; [reflexivity|eauto]|right; intros _ r E; injection E as E _; contradiction].
Qed.
Lemma go_break c s cur : In c break_chars -> (c = "013"%char -> forall r, s <> "010"%char :: r) -> splitlines_go (c :: s) cur = rev cur :: splitlines_go s [].
Proof.
  intros B N. apply linebreak_spec in B. cbn [splitlines_go]. rewrite B. f_equal.
  destruct (ascii_dec c "013"%char) as [->|X].
  - destruct s as [|x s]; [reflexivity|]. destruct (ascii_dec x "010"%char) as [->|Y]; [exfalso; exact (N eq_refl s eq_refl)|].
    destruct x as [[] [] [] [] [] [] [] []]; try reflexivity. exfalso. now apply Y.
  - destruct c as [[] [] [] [] [] [] [] []]; try reflexivity. exfalso. now apply X.
Qed.
Lemma go_crlf s cur : splitlines_go ("013"%char :: "010"%char :: s) cur = rev cur :: splitlines_go s [].
Proof. reflexivity. Qed.
Lemma go_plain : forall l s cur, unbroken_text l -> splitlines_go (l ++ s) cur = splitlines_go s (rev l ++ cur).
Proof.
  induction l as [|c l IH]; intros s cur U; [reflexivity|]. cbn [app splitlines_go].
  assert (N : is_linebreak c = false) by (apply linebreak_not; intros B; apply (U c B); now left). rewrite N.
  rewrite IH by (intros x B I; apply (U x B); now right). cbn [rev]. now rewrite <- app_assoc.
Qed.
Lemma lines_sound s ls : text_lines s ls -> splitlines s = ls.
Proof.
  unfold splitlines. induction 1 as [|l U N|l e rest ls U E T IH].
  - reflexivity.
  - rewrite <- (app_nil_r l) at 1. rewrite go_plain by exact U. rewrite app_nil_r. cbn [splitlines_go].
    destruct (rev l) eqn:R; [|rewrite <- R; now rewrite rev_involutive]. exfalso. apply N. rewrite <- (rev_involutive l), R. reflexivity.
  - rewrite go_plain by exact U. rewrite app_nil_r. destruct E as [rest|c rest B X].
    + cbn [app]. rewrite go_crlf, rev_involutive. now rewrite IH.
    + cbn [app]. rewrite (go_break c rest (rev l) B X), rev_involutive. now rewrite IH.
Qed.
Lemma lines_total : forall n s l, (List.length s <= n)%nat -> unbroken_text l -> text_lines (l ++ s) (splitlines_go s (rev l)).
Proof.
  induction n as [|n IH]; intros s l Le U.
  - destruct s; [|cbn in Le; lia]. rewrite app_nil_r. cbn [splitlines_go]. destruct l as [|c l]; [constructor|].
    destruct (rev (c :: l)) eqn:R; [exfalso; apply (f_equal (@List.length ascii)) in R; rewrite rev_length in R; discriminate R|]. rewrite <- R, rev_involutive. apply lines_last; [exact U|discriminate].
  - destruct s as [|c s].
    { rewrite app_nil_r. cbn [splitlines_go]. destruct l as [|c l]; [constructor|].
      destruct (rev (c :: l)) eqn:R; [exfalso; apply (f_equal (@List.length ascii)) in R; rewrite rev_length in R; discriminate R|]. rewrite <- R, rev_involutive. apply lines_last; [exact U|discriminate]. }
    cbn [List.length] in Le. destruct (is_linebreak c) eqn:B.
    + apply linebreak_spec in B. destruct (crlf c s) as [(-> & r & ->)|N].
      * rewrite go_crlf, rev_involutive. change (l ++ "013"%char :: "010"%char :: r) with (l ++ ["013"; "010"]%char ++ r). constructor; [exact U|constructor|].
        apply (IH r []); [cbn [List.length] in Le; lia|apply unbroken_nil].
      * rewrite (go_break c s (rev l) B N), rev_involutive. change (l ++ c :: s) with (l ++ [c] ++ s). constructor; [exact U|now constructor|].
        apply (IH s []); [lia|apply unbroken_nil].
    + cbn [splitlines_go]. rewrite B. replace (l ++ c :: s) with ((l ++ [c]) ++ s) by (rewrite <- app_assoc; reflexivity).
      replace (c :: rev l) with (rev (l ++ [c])) by (rewrite rev_app_distr; reflexivity). apply IH; [lia|]. apply unbroken_snoc; [exact U|now apply linebreak_not].
Qed.
Lemma lines_exact s ls : splitlines s = ls <-> text_lines s ls.
Proof.
  split; [|apply lines_sound]. intros <-. exact (lines_total (List.length s) s [] (le_n _) unbroken_nil).
Qed.
(** the lines of a text that is written line by line *)
Lemma lines_written ls : Forall unbroken_text ls -> splitlines (flat_map (fun l => l ++ ["010"%char]) ls) = ls.
Proof.
  intros F. apply lines_sound. induction F as [|l ls U F IH]; [constructor|]. cbn [flat_map]. rewrite <- app_assoc. constructor; [exact U| |exact IH].
  constructor; [left; reflexivity|discriminate].
Qed.
