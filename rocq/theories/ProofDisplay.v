(** * Options of the console *)
From Coq Require Import Ascii String List ZArith Lia Bool.
From Verif Require Import Base MemMap Filter Pipeline PyStr MapFile Deps Table Formats Main SpecMain ProofMain Project Command SpecDisplay.
Import ListNotations.
Open Scope list_scope.

Lemma dset_names (fn : str) (u v : str) (d d' : dict str str) : map fst d = map fst d' -> map fst (dset fn u d) = map fst (dset fn v d').
Proof.
  revert d'. induction d as [|[k x] d IH]; intros [|[k' x'] d'] E; cbn in E; try discriminate; [reflexivity|]. injection E as <- E. cbn [dset].
  destruct (fn =?= k); cbn [map fst]; [now rewrite E|]. now rewrite (IH d' E).
Qed.

Section Sim.
Variable out : option str.
Notation alike := (alike out).

Definition sim {A} (m m' : prog A) : Prop := forall o s t, alike s t -> fst (m o s) = fst (m' o t) /\ alike (snd (m o s)) (snd (m' o t)).

Lemma sim_ret {A} (a : A) : sim (ret a) (ret a).
Proof. intros o s t H. now split. Qed.
Lemma alike_next s t : alike s t -> alike (next s) (next t).
Proof. intros [H1 H2 H3 H4 H5 H6]. split; cbn; congruence || assumption. Qed.
Lemma sim_tick : sim tick tick.
Proof.
  intros o s t H. pose proof (alike_next _ _ H) as N. unfold tick. rewrite (al_tick _ _ _ H). destruct (o (s_tick t)) as [[[e|] k]|]; now split.
Qed.
Lemma sim_then {A B} (m m' : prog A) (f f' : A -> prog B) : sim m m' -> (forall a, sim (f a) (f' a)) -> sim (andthen m f) (andthen m' f').
Proof.
  intros M F o s t H. unfold andthen. destruct (M o s t H) as [E K]. destruct (m o s) as [x s1], (m' o t) as [x' t1]. cbn in E, K. subst x'. destruct x; [apply F; exact K|now split..].
Qed.
Lemma sim_step {A} (f : state -> result A * state) (f' : state -> result A * state) : (forall s t, alike s t -> fst (f s) = fst (f' t) /\ alike (snd (f s)) (snd (f' t))) ->
  sim (run _ <- tick; fun _ s => f s) (run _ <- tick; fun _ s => f' s).
Proof. intros F. apply sim_then; [apply sim_tick|]. intros _ o s t H. now apply F. Qed.
Lemma sim_compute {A} (r : res A) : sim (compute r) (compute r).
Proof. apply sim_step. intros s t H. destruct r; now split. Qed.
Lemma sim_print p : sim (print p) (print p).
Proof. apply sim_step. intros s t [H1 H2 H3 H4 H5 H6]. split; [reflexivity|]. split; cbn; congruence || assumption. Qed.
Lemma sim_tell n : sim (tell n) (tell n).
Proof. apply sim_step. intros s t [H1 H2 H3 H4 H5 H6]. split; [reflexivity|]. split; cbn; congruence || assumption. Qed.
Lemma sim_console c c' : sim (set_console c) (set_console c').
Proof. apply sim_step. intros s t [H1 H2 H3 H4 H5 H6]. split; [reflexivity|]. split; cbn; congruence || assumption. Qed.
Lemma sim_die {A} : sim (@die A) (@die A).
Proof. apply sim_then; [apply sim_tell|]. intros _. apply sim_compute. Qed.
Lemma sim_handle {A} (m m' : prog A) h : sim m m' -> (forall e k, h e = Some k -> sim k k) -> sim (handle m h) (handle m' h).
Proof.
  intros M Hh o s t H. unfold handle. destruct (M o s t H) as [E K]. destruct (m o s) as [x s1], (m' o t) as [x' t1]. cbn in E, K. subst x'. destruct x as [a|e|]; [now split| |now split].
  destruct (h e) as [k|] eqn:X; [apply (Hh e k X); exact K|now split].
Qed.
Lemma sim_file fn u v s t : out = Some fn -> alike s t -> alike (set_file fn u s) (set_file fn v t).
Proof.
  intros O [H1 H2 H3 H4 H5 H6]. split; cbn; try assumption; [now apply dset_names|]. intros g N. assert (g <> fn) by (intros ->; now apply N). rewrite !dget_dset_neq by assumption. now apply H3.
Qed.
Lemma sim_write fn u v : out = Some fn -> sim (write_output_file fn u) (write_output_file fn v).
Proof.
  intros O. unfold write_output_file. apply sim_handle.
  - apply sim_then.
    + induction (above [] fn) as [|d l IH]; [apply sim_ret|]. apply sim_then; [|intros _; exact IH]. apply sim_step. intros s t [H1 H2 H3 H4 H5 H6]. split; [reflexivity|]. split; cbn; try assumption. now rewrite H4.
    + intros _. apply sim_then; [apply sim_step; intros s t H; split; [reflexivity|]; now apply sim_file|]. intros _ o s t H. unfold write. rewrite (al_tick _ _ _ H).
      pose proof (alike_next _ _ H) as N. destruct (o (s_tick t)) as [[[e|] k]|]; (split; [reflexivity|]; now apply sim_file).
  - intros e k E. destruct e; try discriminate. injection E as <-. apply sim_die.
Qed.
Ltac sims := repeat first
  [ apply sim_ret | apply sim_compute | apply sim_print | apply sim_tell | apply sim_die
  | apply sim_then; [|intros ?]
  | match goal with
    | |- sim (if ?b then _ else _) _ => destruct b
    | |- sim (match ?x with _ => _ end) _ => destruct x
    end ].
Lemma sim_table_result t : sim (table_result t) (table_result t). Proof. unfold table_result. sims. Qed.
Lemma sim_compute_or_die {A} (r : res A) : sim (compute_or_die r) (compute_or_die r). Proof. unfold compute_or_die. sims. Qed.
Lemma sim_table_of x m a : sim (table_of x m a) (table_of x m a).
Proof. unfold table_of. repeat (match goal with |- sim (if ?b then _ else _) _ => destruct b end); try apply sim_table_result; try apply sim_compute_or_die. apply sim_then; [apply sim_compute_or_die|intros t; apply sim_table_result]. Qed.
Lemma sim_print_all l : sim (print_all l) (print_all l).
Proof. induction l as [|p l IH]; [apply sim_ret|]. apply sim_then; [apply sim_print|intros _; exact IH]. Qed.
Lemma sim_show x m a : sim (show x m a) (show x m a).
Proof.
  unfold show, table_show, json_show, raw_show, csv_show, tree_show, dot_show_prog, show_diff_info.
  destruct (a_format a); repeat first [apply sim_table_of|apply sim_compute_or_die|apply sim_print_all|progress sims].
Qed.
Lemma sim_report ls ord pf projects c c' : same_but_display c c' -> sim (report ls ord pf projects c) (report ls ord pf projects c').
Proof.
  intros (E1 & E2). unfold report. rewrite <- E1, <- E2. apply sim_then; [apply sim_console|intros _].
  apply sim_then; [unfold normalise; sims|]. intros a. apply sim_then; [|intros [x m]; apply sim_show]. unfold analyse, compare.
  repeat first [progress sims|match goal with |- context [let (_, _) := ?p in _] => destruct p end].
Qed.
Lemma sim_run render encode ord pf projects c c' : same_but_display c c' -> (forall fn, output c fn -> out = Some fn) ->
  sim (run_cmd render encode ord pf projects c) (run_cmd render encode ord pf projects c').
Proof.
  intros S O. unfold run_cmd, run_with. apply sim_handle.
  - apply sim_then; [now apply sim_report|]. intros _. unfold finish. destruct S as (<- & _). destruct (a_output_file (c_args c)) as [[|h fn]|] eqn:E; try apply sim_ret.
    intros o s t H. apply sim_write; [|exact H]. apply O. split; [exact E|discriminate].
  - intros e k E. destruct e; try discriminate; injection E as <-; first [apply sim_die|apply sim_compute].
Qed.
End Sim.

Lemma alike_refl out s : alike out s s. Proof. now split. Qed.
Lemma display_same d chips render encode ord pf c c' o s r s1 : same_but_display c c' ->
  run_files d chips render encode ord pf c o s = (r, s1) ->
  exists s2, run_files d chips render encode ord pf c' o s = (r, s2) /\ alike (a_output_file (c_args c)) s1 s2.
Proof.
  intros S R. unfold run_files in *. destruct S as (E1 & E2).
  destruct (sim_run (a_output_file (c_args c)) render encode ord pf (projects_of d chips (c_args c)) c c' (conj E1 E2)) with (o := o) (s := s) (t := s) as [K1 K2]; [intros fn [E _]; exact E|apply alike_refl|].
  rewrite <- E1. rewrite R in K1, K2. cbn in K1, K2. destruct (run_cmd render encode ord pf (projects_of d chips (c_args c)) c' o s) as [r2 s2]. cbn in *. exists s2. now subst r2.
Qed.
Lemma quiet_file d chips render encode ord pf c o s s1 fn : quiet_is_silent render -> output c fn -> c_quiet c = true ->
  run_files d chips render encode ord pf c o s = (Done tt, s1) -> dget fn (s_files s1) = Some (encode []).
Proof.
  intros Q O C R. unfold run_files in R. destruct (run_success _ _ _ _ _ _ _ _ _ _ O R) as (t & _ & ->). rewrite dget_dset_eq. f_equal. f_equal. apply Q. exact C.
Qed.
Lemma terminal_same d chips render encode ord pf c fn f o s : output c fn ->
  run_files d chips render encode ord pf (with_terminal f c) o s = run_files d chips render encode ord pf c o s.
Proof.
  intros [E N]. unfold run_files, run_cmd, run_with, report, finish, console_of. cbn [with_terminal c_args c_input c_quiet c_no_color c_force_terminal]. rewrite E. now destruct fn.
Qed.
