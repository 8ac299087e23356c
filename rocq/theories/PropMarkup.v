(** * Property C135: what a text with brackets is shown as *)
From Coq Require Import Ascii String List Arith Lia Bool.
From Verif Require Import Base MemMap PyStr SpecMap Markup SpecText SpecMarkup ProofMarkup.
Import ListNotations.
Open Scope list_scope.

Local Notation tx := list_ascii_of_string.

(** the tags are found, and obeyed, exactly as documented *)
Theorem c135_shown : forall normalize s t open, rendered normalize s = Some (t, open) <-> exists l q, written s l q /\ shows normalize [] l q t open.
Proof. exact markup_shown. Qed.
Print Assumptions c135_shown.

(** there is an error, in place of all output, exactly if nothing can be shown: a tag ends a
    style that is not open *)
Theorem c135_error : forall normalize s, plain normalize s = None <-> forall l q t open, written s l q -> ~ shows normalize [] l q t open.
Proof. exact markup_error. Qed.
Print Assumptions c135_error.

(** a name in a report is shown as it is exactly if it has no tag and no opening bracket
    behind a backslash *)
Theorem c135_names : forall normalize s, shown_as normalize s s <-> ~ has_tag s /\ ~ has_escape s.
Proof. exact shown_exactly. Qed.
Print Assumptions c135_names.

(** ** examples *)
Lemma c135_words c r : tag_char c -> forallb (fun d => negb (d =?= "["%char) && negb (d =?= "]"%char)) r = true -> tag_words (c :: r).
Proof.
  intros T H. exists c, r. split; [reflexivity|]. split; [exact T|]. apply Forall_forall. intros d I. rewrite forallb_forall in H. specialize (H d I). apply andb_true_iff in H.
  destruct H as [A B]. apply negb_true_iff in A, B. now split; intros ->; rewrite keq_refl in *.
Qed.
Lemma c135_no_tag s : ~ In "["%char s -> ~ has_tag s.
Proof. intros N (p & c & t & q & -> & _). apply N. apply in_or_app. right. now left. Qed.
(** "x\\[red=a]y\[b]z[/ red]" is shown as "x\y[b]z", "a[/b]" is an error *)
Definition c135_text : str := tx "x\\[red=a]y\[b]z[/ red]".
Definition c135_tags : list (str * nat * str) := [(tx "x", 2 * 1, tx "red=a"); (tx "y", 2 * 0 + 1, tx "b"); (tx "z", 2 * 0, tx "/ red")]%nat.
Example c135_example : written c135_text c135_tags [] /\ shows (fun s => s) [] c135_tags [] (tx "x\y[b]z") [] /\
  rendered (fun s => s) c135_text = Some (tx "x\y[b]z", []) /\ plain (fun s => s) (tx "a[/b]") = None /\
  ~ has_tag (tx "lib[0].a") /\ ~ has_escape (tx "lib[0].a") /\ has_escape (tx "C:\[0]\lib.a").
Proof.
  assert (NT : forall c, c <> "["%char -> ~ has_tag [c]) by (intros c N; apply c135_no_tag; intros [E|[]]; now apply N).
  assert (NB : forall c, c <> "092"%char -> ~ ends_in_backslash [c]) by (intros c N (q & E); destruct q as [|d [|e q]]; [injection E as E; now apply N|discriminate|discriminate]).
  split; [|split; [|split; [reflexivity|split; [reflexivity|split; [|split]]]]].
  - apply (written_tag (tx "x") 2 (tx "red=a") (tx "y\[b]z[/ red]")); [now apply NT|now apply NB|apply c135_words; [left; cbn; lia|reflexivity]|].
    apply (written_tag (tx "y") 1 (tx "b") (tx "z[/ red]")); [now apply NT|now apply NB|apply c135_words; [left; cbn; lia|reflexivity]|].
    apply (written_tag (tx "z") 0 (tx "/ red") []); [now apply NT|now apply NB|apply c135_words; [right; right; now left|reflexivity]|]. constructor. apply c135_no_tag. intros [].
  - assert (U : forall c, unescaped [c] [c]) by (intros c; constructor; [discriminate|constructor]).
    apply (shows_tag (fun s => s) [] (tx "x") 1 (tx "red=a") _ _ (tx "x") (tx "y[b]z") [tx "red"]); [apply U| |].
    + apply (opens (fun s => s) (tx "red=a") (tx "red") []); [|discriminate]. split; [cbn; intuition discriminate|]. right. now exists (tx "a").
    + apply (shows_escaped (fun s => s) _ (tx "y") 0 (tx "b") _ _ (tx "y") (tx "z")); [apply U|].
      apply (shows_tag (fun s => s) _ (tx "z") 0 (tx "/ red") _ _ (tx "z") [] []); [apply U| |constructor; constructor].
      apply (closes (fun s => s) (tx "/ red") (tx " red") (tx "red") [] []).
      * split; [cbn; intuition discriminate|now left].
      * split; [exists "r"%char, (tx "ed")|exists (tx "re"), "d"%char]; (split; [reflexivity|]; cbn; intuition discriminate).
      * exists (tx " "), []. split; [repeat constructor; cbn; tauto|]. split; [constructor|reflexivity].
      * intros [].
  - apply (c135_names (fun s => s)). reflexivity.
  - apply (c135_names (fun s => s)). reflexivity.
  - exists (tx "C:"), (tx "0]\lib.a"). reflexivity.
Qed.
