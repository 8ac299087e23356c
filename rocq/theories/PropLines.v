(** * Property C117: the lines of the map file *)
From Coq Require Import Ascii String List ZArith Bool.
From Verif Require Import Base PyStr SpecLines ProofLines MapFile FixMap FixProject.
Import ListNotations.
Open Scope list_scope.

(** C117: the lines that are read are those of the text: each ends with one of the characters
    that end a line, or with a carriage return and a line feed; the last one need not end *)
Theorem c117_lines : forall s ls, splitlines s = ls <-> text_lines s ls.
Proof. exact lines_exact. Qed.
Print Assumptions c117_lines.
(** a map file as the linker writes it, one line after the other, is read line by line *)
Theorem c117_written : forall ls, Forall unbroken_text ls -> splitlines (flat_map (fun l => l ++ ["010"%char]) ls) = ls.
Proof. exact lines_written. Qed.
Print Assumptions c117_written.

Notation tx := list_ascii_of_string.
Example c117_example : Forall unbroken_text fx_lines /\ splitlines px_text = fx_lines /\
  text_lines (tx "a" ++ ["013"; "010"]%char ++ tx "b c" ++ ["013"%char] ++ ["012"%char] ++ tx "d") [tx "a"; tx "b c"; tx ""; tx "d"].
Proof.
  assert (U : forall l, forallb (fun c => negb (existsb (fun b => Ascii.eqb b c) break_chars)) l = true -> unbroken_text l).
  { intros l H c B I. rewrite forallb_forall in H. specialize (H c I). apply negb_true_iff in H. rewrite <- not_true_iff_false in H. apply H. apply existsb_exists. exists c. split; [exact B|apply Ascii.eqb_refl]. }
  split; [|split].
  - repeat (constructor; [apply U; vm_compute; reflexivity|]). constructor.
  - exact px_lines.
  - apply lines_cons; [apply U; reflexivity|constructor|]. apply (lines_cons (tx "b c") ["013"%char] ("012"%char :: tx "d")); [apply U; reflexivity|constructor; [cbn; tauto|discriminate]|].
    apply (lines_cons [] ["012"%char] (tx "d")); [apply U; reflexivity|constructor; [cbn; tauto|discriminate]|]. apply lines_last; [apply U; reflexivity|discriminate].
Qed.
