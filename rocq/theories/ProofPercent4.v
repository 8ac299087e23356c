(** * Percentages, continued: unchanged ones, characters of the texts *)
From Coq Require Import Ascii String List ZArith QArith Qabs Lia Lqa Bool.
From Coq Require Import Floats.SpecFloat.
From Verif Require Import Base MemMap SpecMap Table SpecTable Text SpecText SpecMain Percent SpecPercent ProofText2 ProofText3.
Import ListNotations.
Open Scope list_scope.
Open Scope Z_scope.

(** nothing is left of a number minus itself *)
Lemma minus_self x : fsub x x = S754_nan \/ exists s, fsub x x = S754_zero s /\ (s = true -> False).
Proof.
  unfold fsub. destruct x as [s|s| |s m e]; cbn [SFsub]; auto.
  - right. destruct s; cbn; eauto; exists false; split; auto; discriminate.
  - destruct s; cbn; auto.
  - right. exists false. split; [|discriminate]. rewrite Z.sub_diag. reflexivity.
Qed.
Lemma diff_self x : rounded_diff (fsub x x) = list_ascii_of_string "   0.0".
Proof.
  destruct (minus_self x) as [E|(s & E & N)]; rewrite E; [reflexivity|]. destruct s; [destruct (N eq_refl)|reflexivity].
Qed.
Lemma zero_cell_shown c : zero_cell (plain_pct python_floats) c -> c = [] \/ (exists z, cell_text true (z, 0) c) \/ exists n, c = n ++ list_ascii_of_string "    0.0".
Proof.
  intros [H|[H|(q & ->)]]; auto. right. right. exists (rounded_text q). unfold plain_pct. cbn [negb python_floats ft_num ft_diff]. now rewrite diff_self.
Qed.

(** characters *)
Lemma number_char_numeral c : number_char c = true -> ~ ws c -> ~ ws c /\ c <> "["%char /\ c <> "\"%char.
Proof. intros N W. split; [exact W|]. split; intros ->; vm_compute in N; discriminate N. Qed.
Lemma show_numeral z : numeral (show_Z z).
Proof.
  destruct (show_word z) as (N & W). split; [exact N|]. pose proof (show_Z_chars z) as C. rewrite Forall_forall in *. rewrite forallb_forall in C.
  intros c I. apply number_char_numeral; auto.
Qed.
Lemma numeral_app a b : numeral a -> numeral b -> numeral (a ++ b).
Proof. intros [N F] [_ G]. split; [|apply Forall_app; now split]. destruct a; [contradiction|discriminate]. Qed.
Lemma numeral_one c : (forall w, ws w -> w <> c) -> c <> "["%char -> c <> "\"%char -> numeral [c].
Proof. intros W A B. split; [discriminate|]. repeat constructor; auto. intro X. exact (W c X eq_refl). Qed.
Lemma sign_numeral c : In c (list_ascii_of_string "+-.0") -> numeral [c].
Proof.
  cbn [list_ascii_of_string In]. intros H. apply numeral_one; [intros w W E|intros E|intros E]; subst; intuition (subst; try discriminate); unfold ws in *; cbn in *; lia.
Qed.
Lemma rounded_numeral x : numeral (rounded_text x).
Proof.
  assert (H : forall n, numeral (hundredths_text n)).
  { intros n. unfold hundredths_text. cbv zeta. apply numeral_app; [apply show_numeral|]. apply (numeral_app ["."%char]); [apply sign_numeral; cbn; auto|].
    destruct (_ =? 0); [apply show_numeral|]. destruct (_ <? 10); [|apply show_numeral]. apply (numeral_app ["0"%char]); [apply sign_numeral; cbn; auto|apply show_numeral]. }
  unfold rounded_text. destruct (negative x); [|apply H]. apply (numeral_app ["-"%char]); [apply sign_numeral; cbn; auto|apply H].
Qed.
Lemma python_texts : float_texts (ft_num python_floats) (ft_diff python_floats).
Proof.
  split; [exact rounded_numeral|]. intros x. cbn [python_floats ft_diff]. unfold rounded_diff, pad6. eexists. eexists. split; [reflexivity|].
  destruct (rounded_sign x); [apply rounded_numeral|apply rounded_numeral|]. apply (numeral_app ["+"%char]); [apply sign_numeral; cbn; auto|apply rounded_numeral].
Qed.
