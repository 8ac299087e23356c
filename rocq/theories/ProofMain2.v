From Coq Require Import Ascii String List ZArith Lia Bool.
From Verif Require Import Base MemMap SpecTree Filter Pipeline PyStr MapFile Deps Table Formats Main SpecMain ProofMain.
Import ListNotations.
Open Scope list_scope.
Open Scope Z_scope.

(** ** Runs without faults that differ in the messages given before *)

Definition like (s t : state) : Prop := samefiles s t /\ s_printed s = s_printed t.
Definition shift {A} (m : prog A) : Prop :=
  forall s r s', m no_faults s = (r, s') -> forall t, like t s ->
    exists t' l, m no_faults t = (r, t') /\ like t' s' /\ s_notes s' = s_notes s ++ l /\ s_notes t' = s_notes t ++ l.

Lemma shift_ret {A} (a : A) : shift (ret a).
Proof. intros s r s' E t T. inversion E; subst. exists t, []. rewrite !app_nil_r. repeat split; apply T. Qed.

Lemma shift_andthen {A B} (m : prog A) (f : A -> prog B) : shift m -> (forall a, shift (f a)) -> shift (andthen m f).
Proof.
  intros M F s r s' E t T. unfold andthen in *. destruct (m no_faults s) as [x s1] eqn:Em.
  destruct (M _ _ _ Em _ T) as (t1 & l & E1 & T1 & N1 & N2). rewrite E1. destruct x as [a|e|].
  - destruct (F a _ _ _ E _ T1) as (t2 & l2 & E2 & T2 & N3 & N4). exists t2, (l ++ l2). rewrite E2, N3, N4, N1, N2, !app_assoc. repeat split; apply T2.
  - inversion E; subst. exists t1, l. repeat split; try apply T1; assumption.
  - inversion E; subst. exists t1, l. repeat split; try apply T1; assumption.
Qed.

Lemma shift_tick : shift tick.
Proof. intros s r s' E t T. inversion E; subst. exists (next t), []. cbn. rewrite !app_nil_r. repeat split; apply T. Qed.

Lemma shift_compute {A} (r : res A) : shift (compute r).
Proof.
  apply shift_andthen; [exact shift_tick|]. intros _ s x s' E t T. destruct r; inversion E; subst; exists t, []; rewrite !app_nil_r; repeat split; apply T.
Qed.
Ltac shift_upd l0 := apply shift_andthen; [exact shift_tick|]; intros _ s r s' E t ((T1 & T2 & T3) & T4); inversion E; subst;
  eexists; exists l0; cbn; rewrite ?app_nil_r; repeat split; cbn; rewrite ?T1, ?T2, ?T3, ?T4; reflexivity.
Lemma shift_print p : shift (print p). Proof. shift_upd (@nil note). Qed.
Lemma shift_tell n : shift (tell n). Proof. shift_upd [n]. Qed.
Lemma shift_console c : shift (set_console c). Proof. shift_upd (@nil note). Qed.
Lemma shift_mkdir d : shift (mkdir d). Proof. shift_upd (@nil note). Qed.
Lemma shift_open d : shift (open_truncate d). Proof. shift_upd (@nil note). Qed.
Lemma shift_write d x : shift (write d x).
Proof. intros s r s' E t ((T1 & T2 & T3) & T4). inversion E; subst. eexists. exists []. cbn. rewrite ?app_nil_r. repeat split; cbn; congruence. Qed.
Lemma shift_die {A} : shift (@die A).
Proof. apply shift_andthen; [apply shift_tell|]. intros _. apply shift_compute. Qed.
Lemma shift_if {A} (b : bool) (m n : prog A) : shift m -> shift n -> shift (if b then m else n).
Proof. destruct b; auto. Qed.
Lemma shift_print_all l : shift (print_all l).
Proof. induction l as [|p l IH]; [apply shift_ret|]. apply shift_andthen; [apply shift_print|]. intros _. exact IH. Qed.
Lemma shift_mkdirs l : shift (mkdirs l).
Proof. induction l as [|p l IH]; [apply shift_ret|]. apply shift_andthen; [apply shift_mkdir|]. intros _. exact IH. Qed.
Lemma shift_table t : shift (table_result t).
Proof. destruct t; [apply shift_ret|apply shift_die]. Qed.
Lemma shift_cod {A} (r : res A) : shift (compute_or_die r).
Proof. destruct r as [a|[]]; try apply shift_compute. apply shift_die. Qed.

Lemma shift_handle {A} (m : prog A) h : shift m -> (forall e k, h e = Some k -> shift k) -> shift (handle m h).
Proof.
  intros M H s r s' E t T. unfold handle in *. destruct (m no_faults s) as [x s1] eqn:Em.
  destruct (M _ _ _ Em _ T) as (t1 & l & E1 & T1 & N1 & N2). rewrite E1. destruct x as [a|e|].
  - inversion E; subst. exists t1, l. repeat split; try apply T1; assumption.
  - destruct (h e) as [k|] eqn:K.
    + destruct (H e k K _ _ _ E _ T1) as (t2 & l2 & E2 & T2 & N3 & N4). exists t2, (l ++ l2). rewrite E2, N3, N4, N1, N2, !app_assoc. repeat split; apply T2.
    + inversion E; subst. exists t1, l. repeat split; try apply T1; assumption.
  - inversion E; subst. exists t1, l. repeat split; try apply T1; assumption.
Qed.

Ltac shift := repeat first
  [ apply shift_if | apply shift_ret | apply shift_print | apply shift_tell | apply shift_console | apply shift_print_all | apply shift_table
  | apply shift_cod | apply shift_compute | apply shift_die | apply shift_mkdirs | apply shift_open | apply shift_write
  | (apply shift_andthen; [|intros]) ].

Lemma shift_table_of x m a : shift (table_of x m a).
Proof. unfold table_of. shift. Qed.
Lemma shift_show x m a : shift (show x m a).
Proof.
  unfold show. destruct (a_format a); unfold table_show, json_show, raw_show, csv_show, tree_show, dot_show_prog, show_diff_info; shift; apply shift_table_of.
Qed.
Lemma shift_compare ls projects a m : shift (compare ls projects a m).
Proof. unfold compare. destruct (a_diff a) as [[|c d]|]; shift. destruct a0 as [r mf]. shift. Qed.
Lemma shift_analyse ls ord pf projects i a : shift (analyse ls ord pf projects i a).
Proof. unfold analyse. shift. destruct a2 as [m mf]. shift. apply shift_compare. Qed.

Definition tail (ls : args -> bool) ord pf projects (input : str) (a0 : args) : prog unit :=
  let a := set_use_dwarf (dwarf_option a0) a0 in
  run (x, m) <- analyse (ls a) ord pf projects input a;
  show x m a.
Lemma shift_tail ls ord pf projects i a : shift (tail ls ord pf projects i a).
Proof. unfold tail. cbn zeta. apply shift_andthen; [apply shift_analyse|]. intros [x m]. apply shift_show. Qed.

Section Run.
  Variable render : console -> list piece -> str.
  Variable encode : str -> str.

  Lemma shift_finish c : shift (finish render encode c).
  Proof.
    unfold finish. destruct (a_output_file (c_args c)) as [[|h fn]|]; try apply shift_ret.
    intros s r s' E t T. pose proof T as ((T1 & T2 & T3) & T4). rewrite T3, T4.
    assert (W : forall x, shift (write_output_file (h :: fn) x)).
    { intros x. unfold write_output_file. apply shift_handle; [shift|]. intros e k K. destruct e; inversion K; subst. apply shift_die. }
    exact (W _ _ _ _ E _ T).
  Qed.
  Lemma shift_handlers e k : on_exception e = Some k -> shift k.
  Proof. destruct e; intros E; inversion E; subst; shift. Qed.

  Variable ord : set_order.
  Variable pf : pct_format.
  Variable projects : str -> project.

  Definition later ls c a := (run _ <- tail ls ord pf projects (c_input c) a; finish render encode c).
  Lemma shift_later ls c a : shift (later ls c a).
  Proof. apply shift_andthen; [apply shift_tail|]. intros _. apply shift_finish. Qed.

  (** normalisation without faults *)
  Lemma normalise_result a s : exists s1, normalise a no_faults s = (Done (set_abbrev (negb (a_no_abbrev (without_conflicts a))) (without_conflicts a)), s1) /\
    like s1 s /\ s_notes s1 = s_notes s ++ conflict_warnings a.
  Proof.
    unfold normalise, without_conflicts, conflict_warnings, conflict_abbrev, conflict_diff.
    destruct a as [f ar ad ds dr det fi di na ab un su sh uf ud ou so fil sd sr]. cbn [a_no_abbrev a_unify].
    destruct (na && un) eqn:E1.
    - unfold andthen, ret. cbn. destruct (ad && given di) eqn:E2; cbn.
      + eexists. split; [reflexivity|]. split; [repeat split|]. cbn. rewrite <- app_assoc. reflexivity.
      + eexists. split; [reflexivity|]. split; [repeat split|]. cbn. reflexivity.
    - unfold andthen, ret. cbn. destruct (ad && given di) eqn:E2; cbn.
      + eexists. split; [reflexivity|]. split; [repeat split|]. cbn. reflexivity.
      + eexists. split; [reflexivity|]. split; [repeat split|]. cbn. rewrite app_nil_r. reflexivity.
  Qed.

  Lemma without_twice a : conflict_abbrev (without_conflicts a) = false /\ conflict_diff (without_conflicts a) = false /\
    without_conflicts (without_conflicts a) = without_conflicts a.
  Proof.
    unfold without_conflicts, conflict_abbrev, conflict_diff. destruct a as [f ar ad ds dr det fi di na ab un su sh uf ud ou so fil sd sr]. cbn.
    destruct na, un, ad, di as [[|]|]; cbn; repeat split; reflexivity.
  Qed.

  Definition after_console ls c := (run a <- normalise (c_args c); later ls c a).

  Lemma run_after ls c o s : run_with render encode ls ord pf projects c o s =
    handle (run _ <- set_console (console_of c); after_console ls c) on_exception o s.
  Proof.
    unfold run_with, handle. f_equal. unfold after_console, later. rewrite report_rest. unfold rest, tail.
    unfold andthen. destruct (set_console (console_of c) o s) as [[[]|e|] s1]; try reflexivity.
    destruct (normalise (c_args c) o s1) as [[a|e|] s2]; try reflexivity.
  Qed.

  Lemma conflicts_run ls c s r s1 : run_with render encode ls ord pf projects c no_faults s = (r, s1) ->
    exists s2 l, run_with render encode ls ord pf projects (with_args c (without_conflicts (c_args c))) no_faults s = (r, s2) /\
      like s2 s1 /\ s_notes s1 = s_notes s ++ conflict_warnings (c_args c) ++ l /\ s_notes s2 = s_notes s ++ l.
  Proof.
    rewrite !run_after. set (c2 := with_args c (without_conflicts (c_args c))). unfold handle, andthen at 1 2.
    change (console_of c2) with (console_of c). set (con := console_of c).
    assert (Es : set_console con no_faults s = (Done tt, State (S (s_tick s)) (s_files s) (s_dirs s) con (s_printed s) (s_notes s))) by reflexivity.
    rewrite !Es. set (t := State _ _ _ _ _ _).
    unfold after_console. unfold andthen at 1 2.
    destruct (normalise_result (c_args c) t) as (t1 & N1 & L1 & K1). rewrite N1.
    change (c_args c2) with (without_conflicts (c_args c)).
    destruct (normalise_result (without_conflicts (c_args c)) t) as (t2 & N2 & L2 & K2). rewrite N2.
    destruct (without_twice (c_args c)) as (W1 & W2 & W3). unfold conflict_warnings in K2. rewrite W1, W2, app_nil_r in K2. rewrite W3.
    set (a := set_abbrev _ _).
    assert (L21 : like t2 t1). { destruct L1 as ((? & ? & ?) & ?), L2 as ((? & ? & ?) & ?). repeat split; congruence. }
    change (later ls c2 a) with (later ls c a).
    assert (H : shift (handle (later ls c a) on_exception)) by (apply shift_handle; [apply shift_later|apply shift_handlers]).
    intros E. destruct (H t1 r s1 E t2 L21) as (s2 & l & E2 & L3 & M1 & M2).
    exists s2, l. split; [exact E2|]. split; [exact L3|]. rewrite M1, M2, K1, K2. cbn [t s_notes]. rewrite app_assoc. split; reflexivity.
  Qed.
End Run.
