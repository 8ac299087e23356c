(** * Proofs about the command line: the order of options, and files *)
From Coq Require Import Ascii String List Bool Arith Lia.
From Verif Require Import Base MemMap PyStr Deps Table Project Main ProofMain Command CommandLine SpecLetters SpecMain SpecLine ProofLine1 ProofLine2.
Import ListNotations.
Open Scope list_scope.
Local Notation tx := list_ascii_of_string.

(** ** states that differ only in the order of the options *)
Definition alike (o p : dict str cval) : Prop := (forall k, dget k o = dget k p) /\ eager o = eager p.
Lemma alike_refl o : alike o o. Proof. now split. Qed.
Lemma alike_trans o p q : alike o p -> alike p q -> alike o q.
Proof. intros [A B] [C D]. split; [intros k; now rewrite A|now rewrite B]. Qed.
Lemma alike_dset k v o p : alike o p -> alike (dset k v o) (dset k v p).
Proof.
  intros [A B]. split; [|rewrite !eager_dset; now rewrite B]. intros j. destruct (keqP j k) as [->|N]; [now rewrite !dget_dset_eq|now rewrite !dget_dset_neq].
Qed.
Lemma alike_process x v o p : alike o p -> alike (process x v o) (process x v p).
Proof. intros E. unfold process. destruct (op_action x); try (now apply alike_dset). destruct E as [A B]. rewrite (A (op_dest x)). apply alike_dset. now split. Qed.
Lemma process_is x v o : exists w, process x v o = dset (op_dest x) w o /\ forall p, dget (op_dest x) p = dget (op_dest x) o -> process x v p = dset (op_dest x) w p.
Proof. unfold process. destruct (op_action x); eexists; (split; [reflexivity|]); intros p E; rewrite ?E; reflexivity. Qed.
Lemma alike_comm j k v w o : j <> k -> (eager (dset j v []) = None \/ eager (dset k w []) = None) -> alike (dset j v (dset k w o)) (dset k w (dset j v o)).
Proof.
  intros N G. split.
  - intros i. destruct (keqP i j) as [->|A]; [|destruct (keqP i k) as [->|B]].
    + rewrite dget_dset_eq, (dget_dset_neq j k) by exact N. now rewrite dget_dset_eq.
    + rewrite (dget_dset_neq k j) by congruence. now rewrite !dget_dset_eq.
    + now rewrite !dget_dset_neq by assumption.
  - rewrite !eager_dset. destruct (eager o); [reflexivity|]. rewrite !eager_dset in G. cbn [eager] in G. destruct G as [G|G]; rewrite G; [destruct (if k =?= _ then _ else _)|destruct (if j =?= _ then _ else _)]; reflexivity.
Qed.

Definition same_state (s t : dict str cval * list str) : Prop := alike (fst s) (fst t) /\ snd s = snd t.
Lemma same_apply i s t : same_state s t -> same_state (apply s i) (apply t i).
Proof. intros [A B]. destruct i; cbn [apply]; split; cbn [fst snd]; try (now apply alike_process); try assumption; now rewrite B. Qed.
Lemma same_all l : forall s t, same_state s t -> same_state (apply_all l s) (apply_all l t).
Proof. unfold apply_all. induction l as [|i l IH]; intros s t E; [exact E|]. apply IH. now apply same_apply. Qed.

Definition item_dest (i : item) : option str := match i with Switch s => Some (op_dest (switch_opt s)) | Set_ s _ => Some (op_dest (setting_opt s)) | File _ => None end.
Lemma swap_process x v y w o : op_dest x <> op_dest y -> (eager (dset (op_dest x) (VBool true) []) = None \/ eager (dset (op_dest y) (VBool true) []) = None) ->
  alike (process x v (process y w o)) (process y w (process x v o)).
Proof.
  intros N G. destruct (process_is x v o) as (a & A & A'). destruct (process_is y w o) as (b & B & B').
  rewrite (A' (process y w o)), (B' (process x v o)), A, B.
  - apply alike_comm; [exact N|]. destruct G as [G|G]; [left|right]; rewrite eager_dset in *; exact G.
  - rewrite A. now apply dget_dset_neq; congruence.
  - rewrite B. now apply dget_dset_neq.
Qed.
Lemma switch_quiet s : ~ In s [Doc; Help] -> eager (dset (op_dest (switch_opt s)) (VBool true) []) = None.
Proof. intros N. destruct s; try reflexivity; destruct N; cbn; auto. Qed.
Lemma setting_quiet s : eager (dset (op_dest (setting_opt s)) (VBool true) []) = None.
Proof. destruct s; reflexivity. Qed.
Lemma two_eager s t : ~ (In s [Doc; Help] /\ In t [Doc; Help]) ->
  eager (dset (op_dest (switch_opt s)) (VBool true) []) = None \/ eager (dset (op_dest (switch_opt t)) (VBool true) []) = None.
Proof.
  intros N. destruct (in_dec switch_dec s [Doc; Help]) as [I|I]; [right|left]; apply switch_quiet; auto.
Qed.
Lemma swap_items x y s : independent x y -> same_state (apply (apply s x) y) (apply (apply s y) x).
Proof.
  destruct s as [o la]. intros I. destruct x as [s|s u|u], y as [t|t v|v]; cbn [apply fst snd independent] in *; split; cbn [fst snd]; try reflexivity; try (apply alike_refl); try (now destruct I).
  - destruct (switch_dec s t) as [->|N]; [apply alike_refl|]. destruct I as [L E]. apply swap_process.
    + intros D. destruct (switch_dest _ _ D) as [D'|[[->| ->] [->| ->]]]; try (now apply N); apply L; cbn; auto.
    + apply two_eager. tauto.
  - apply swap_process; [apply not_eq_sym, mixed_dest|left; apply setting_quiet].
  - apply swap_process; [apply mixed_dest|right; apply setting_quiet].
  - apply swap_process; [intros D; apply setting_dest in D; congruence|left; apply setting_quiet].
Qed.
Lemma reordered_state l m : reordered l m -> forall s, same_state (apply_all l s) (apply_all m s).
Proof.
  induction 1 as [l|a x y b m I R IH]; intros s; [split; [apply alike_refl|reflexivity]|].
  specialize (IH s). rewrite !apply_app in *. cbn [apply_all fold_left] in *. change (fold_left apply) with apply_all in *.
  assert (S : same_state (apply_all b (apply (apply (apply_all a s) x) y)) (apply_all b (apply (apply (apply_all a s) y) x))) by (apply same_all, swap_items, I).
  destruct S as [A B], IH as [C D]. split; [eapply alike_trans; eassumption|congruence].
Qed.

Lemma get_cmd_alike o p env f input : alike o p -> get_cmd o env f input = get_cmd p env f input.
Proof. intros [A _]. unfold get_cmd, get_flag, get_text, get_filter. now rewrite !A. Qed.
Lemma get_format_alike o p : alike o p -> get_format o = get_format p.
Proof. intros [A _]. unfold get_format, get_text. now rewrite A. Qed.
Lemma parse_reordered env ws wt l m : says ws l -> says wt m -> reordered l m -> parse_command_line env ws = parse_command_line env wt.
Proof.
  intros H K R. pose proof (reordered_state _ _ R ([], [])) as [A B]. fold (opts_of l) (opts_of m) in A. unfold parse_command_line. rewrite (read_items _ _ H), (read_items _ _ K).
  assert (F : files l = files m) by (etransitivity; [symmetry; apply (files_snd l [] [])|]; etransitivity; [exact B|]; apply (files_snd m [] [])).
  rewrite F, (proj2 A), (get_format_alike _ _ A). destruct (eager (opts_of m)); [reflexivity|]. destruct (get_format (opts_of m)) as [f|]; [|reflexivity].
  destruct (files m) as [|x [|]]; try reflexivity. now rewrite (get_cmd_alike _ _ env f x A).
Qed.

(** ** files *)
Section Words.
Variables (d : disk) (chips : str -> res (list Pipeline.chip_type)) (render : console -> list piece -> str) (encode : str -> str) (ord : set_order) (pf : pct_format) (env : bool).

Lemma words_silent ws o s r s' : (forall c, parse_command_line env ws <> AskRun c) ->
  main_words d chips render encode ord pf env ws o s = (r, s') ->
  r <> Done tt /\ s_files s' = s_files s /\ s_dirs s' = s_dirs s /\ s_printed s' = s_printed s /\ s_notes s' = s_notes s.
Proof.
  intros N. unfold main_words. destruct (parse_command_line env ws) as [c| | |]; [now destruct (N c)|..];
    unfold compute, andthen, tick; (destruct (o (s_tick s)) as [[[e|] k]|]; intros E; injection E as <- <-; repeat split; discriminate).
Qed.
Lemma words_files ws l o s r s' : says ws l -> main_words d chips render encode ord pf env ws o s = (r, s') ->
  forall fn, last_value OutputFile l <> Some fn -> dget fn (s_files s') = dget fn (s_files s).
Proof.
  intros H E fn N. pose proof (parse_says env ws l H) as U. unfold main_words in E. destruct (parse_command_line env ws) as [c| | |] eqn:P.
  - destruct U as (_ & _ & M). unfold Command.run_files in E. destruct (ProofMain.run_files _ _ _ _ _ _ _ _ _ _ E) as [[F _]|(fn' & s1 & [O _] & _ & [F|(k & F)])]; rewrite F; try reflexivity.
    apply dget_dset_neq. intros ->. apply N. rewrite <- O. symmetry. apply (mn_output _ _ _ M).
  - edestruct (words_silent ws o s r s') as (_ & -> & _); [intros c; rewrite P; discriminate| |reflexivity]. unfold main_words. now rewrite P.
  - edestruct (words_silent ws o s r s') as (_ & -> & _); [intros c; rewrite P; discriminate| |reflexivity]. unfold main_words. now rewrite P.
  - edestruct (words_silent ws o s r s') as (_ & -> & _); [intros c; rewrite P; discriminate| |reflexivity]. unfold main_words. now rewrite P.
Qed.
End Words.
