From Coq Require Import Ascii String List ZArith Lia Bool.
From Verif Require Import Base MemMap SpecTree Filter Pipeline PyStr MapFile Deps Table Formats Main SpecMain.
Import ListNotations.
Open Scope list_scope.
Open Scope Z_scope.

(** ** Programs that leave the files alone and depend only on what is printed *)

Definition samefiles (s t : state) : Prop := s_files s = s_files t /\ s_dirs s = s_dirs t /\ s_console s = s_console t.
Definition sameout (s t : state) : Prop := s_printed s = s_printed t /\ s_notes s = s_notes t.

(** under any faults the files stay; a run that is not disturbed does the same as without faults *)
Definition tame {A} (m : prog A) : Prop :=
  (forall o s r s', m o s = (r, s') -> samefiles s' s) /\
  (forall o s a s', m o s = (Done a, s') -> forall t, sameout t s -> exists t', m no_faults t = (Done a, t') /\ sameout t' s') .

Lemma samefiles_refl s : samefiles s s. Proof. repeat split. Qed.
Lemma samefiles_trans a b c : samefiles a b -> samefiles b c -> samefiles a c.
Proof. intros (? & ? & ?) (? & ? & ?). repeat split; congruence. Qed.

Lemma tame_ret {A} (a : A) : tame (ret a).
Proof.
  split.
  - intros o s r s' E. inversion E; subst. apply samefiles_refl.
  - intros o s b s' E t T. inversion E; subst. exists t. split; [reflexivity|exact T].
Qed.

Lemma tame_andthen {A B} (m : prog A) (f : A -> prog B) : tame m -> (forall a, tame (f a)) -> tame (andthen m f).
Proof.
  intros [M1 M2] F. split.
  - intros o s r s' E. unfold andthen in E. destruct (m o s) as [[a|e|] s1] eqn:Em.
    + eapply samefiles_trans; [eapply (proj1 (F a)); exact E|eapply M1; exact Em].
    + inversion E; subst. eapply M1; exact Em.
    + inversion E; subst. eapply M1; exact Em.
  - intros o s b s' E t T. unfold andthen in *. destruct (m o s) as [[a|e|] s1] eqn:Em; try discriminate E.
    destruct (M2 _ _ _ _ Em _ T) as (t1 & Et & T1). rewrite Et. exact (proj2 (F a) _ _ _ _ E _ T1).
Qed.

Lemma tame_tick : tame tick.
Proof.
  split.
  - intros o s r s' E. unfold tick in E. destruct (o (s_tick s)) as [[[e|] k]|]; inversion E; subst; repeat split.
  - intros o s a s' E t T. unfold tick in *. destruct (o (s_tick s)) as [[[e|] k]|]; inversion E; subst. cbn.
    eexists. split; [reflexivity|exact T].
Qed.

(** a pure change of the state that leaves the files alone and treats output alike *)
Lemma tame_pure {A} (f : state -> result A * state) :
  (forall s r s', f s = (r, s') -> samefiles s' s) ->
  (forall s a s', f s = (Done a, s') -> forall t, sameout t s -> exists t', f t = (Done a, t') /\ sameout t' s') -> tame (fun _ s => f s).
Proof. intros H1 H2. split; [intros o; exact H1|intros o; exact H2]. Qed.

Lemma tame_compute {A} (r : res A) : tame (compute r).
Proof.
  apply tame_andthen; [exact tame_tick|]. intros _. apply tame_pure.
  - intros s x s' E. destruct r; inversion E; subst; apply samefiles_refl.
  - intros s a s' E t T. destruct r; inversion E; subst. exists t. split; [reflexivity|exact T].
Qed.

Ltac tame_upd := apply tame_andthen; [exact tame_tick|]; intros _; apply tame_pure;
  [intros s x s' E; inversion E; subst; repeat split
  |intros s a s' E t [T1 T2]; inversion E; subst; eexists; split; [reflexivity|split; cbn; congruence]].
Lemma tame_print p : tame (print p). Proof. tame_upd. Qed.
Lemma tame_tell n : tame (tell n). Proof. tame_upd. Qed.
Lemma tame_die {A} : tame (@die A).
Proof. apply tame_andthen; [apply tame_tell|]. intros _. apply tame_compute. Qed.
Lemma tame_print_all l : tame (print_all l).
Proof. induction l as [|p l IH]; [apply tame_ret|]. apply tame_andthen; [apply tame_print|]. intros _. exact IH. Qed.

Lemma tame_if {A} (b : bool) (m n : prog A) : tame m -> tame n -> tame (if b then m else n).
Proof. destruct b; auto. Qed.
Lemma tame_table t : tame (table_result t).
Proof. destruct t; [apply tame_ret|apply tame_die]. Qed.
Lemma tame_cod {A} (r : res A) : tame (compute_or_die r).
Proof. destruct r as [a|[]]; try apply tame_compute. apply tame_die. Qed.

Ltac tame := repeat first
  [ apply tame_if | apply tame_ret | apply tame_print | apply tame_tell | apply tame_print_all | apply tame_table
  | apply tame_cod | apply tame_compute | apply tame_die | (apply tame_andthen; [|intros]) ].

Lemma tame_table_of x m a : tame (table_of x m a).
Proof. unfold table_of. tame. Qed.
Lemma tame_show x m a : tame (show x m a).
Proof.
  unfold show. destruct (a_format a); unfold table_show, json_show, raw_show, csv_show, tree_show, dot_show_prog, show_diff_info; tame; apply tame_table_of.
Qed.
Lemma tame_compare ls projects a m : tame (compare ls projects a m).
Proof.
  unfold compare. destruct (a_diff a) as [[|c d]|]; tame. destruct a0 as [r mf]. tame.
Qed.
Lemma tame_analyse ls ord pf projects i a : tame (analyse ls ord pf projects i a).
Proof.
  unfold analyse. tame. destruct a2 as [m mf]. tame. apply tame_compare.
Qed.
Lemma tame_normalise a : tame (normalise a).
Proof. unfold normalise. tame. Qed.

(** the part behind the console settings *)
Definition rest (ls : args -> bool) ord pf projects (c : cmd) : prog unit :=
  run a <- normalise (c_args c);
  let a := set_use_dwarf (dwarf_option a) a in
  run (x, m) <- analyse (ls a) ord pf projects (c_input c) a;
  show x m a.
Lemma report_rest ls ord pf projects c : report ls ord pf projects c = (run _ <- set_console (console_of c); rest ls ord pf projects c).
Proof. reflexivity. Qed.
Lemma tame_rest ls ord pf projects c : tame (rest ls ord pf projects c).
Proof.
  unfold rest. apply tame_andthen; [apply tame_normalise|]. intros a. cbn zeta.
  apply tame_andthen; [apply tame_analyse|]. intros [x m]. apply tame_show.
Qed.

(** the report does not depend on --output-file *)
Lemma andthen_ext {A B} (m : prog A) (f g : A -> prog B) : (forall a o s, f a o s = g a o s) -> forall o s, andthen m f o s = andthen m g o s.
Proof. intros H o s. unfold andthen. destruct (m o s) as [[]]; auto. Qed.

Definition pmap {A B} (f : A -> B) (r : result A * state) : result B * state :=
  match r with (Done a, s) => (Done (f a), s) | (Raised e, s) => (Raised e, s) | (Killed, s) => (Killed, s) end.
Lemma andthen_pmap {A B C} (m : prog A) (n : prog B) (f : A -> B) (g : B -> prog C) : (forall o s, n o s = pmap f (m o s)) ->
  forall o s, andthen n g o s = andthen m (fun a => g (f a)) o s.
Proof. intros H o s. unfold andthen. rewrite H. destruct (m o s) as [[]]; reflexivity. Qed.

Lemma normalise_output f a o s : normalise (set_output f a) o s = pmap (set_output f) (normalise a o s).
Proof.
  unfold normalise. cbn [set_output a_no_abbrev a_unify].
  destruct (a_no_abbrev a && a_unify a).
  - unfold andthen, ret. destruct (tell WarnNoAbbrev o s) as [[[]|e|] s1]; [|reflexivity|reflexivity]. cbn.
    destruct (a_archive_dependencies a && given (a_diff a)); [|reflexivity]. cbn.
    destruct (tell WarnDiff o s1) as [[[]|e|] s2]; reflexivity.
  - unfold andthen, ret. cbn.
    destruct (a_archive_dependencies a && given (a_diff a)); [|reflexivity]. cbn.
    destruct (tell WarnDiff o s) as [[[]|e|] s2]; reflexivity.
Qed.

Lemma dep_rows_ext a b name d : a_abbrev a = a_abbrev b -> a_dep_symbols a = a_dep_symbols b -> forall l i, dep_rows a name d i l = dep_rows b name d i l.
Proof.
  intros E1 E2. induction l as [|kv l IH]; intros i; [reflexivity|]. cbn [dep_rows]. rewrite IH. unfold dep_row, shown. rewrite E1, E2. reflexivity.
Qed.
Lemma deps_table_ext a b deps : a_abbrev a = a_abbrev b -> a_dep_symbols a = a_dep_symbols b -> a_dep_reverse a = a_dep_reverse b ->
  dependencies_table a deps = dependencies_table b deps.
Proof.
  intros E1 E2 E3. unfold dependencies_table. rewrite E2, E3. f_equal. apply flat_map_ext. intros kv. apply dep_rows_ext; assumption.
Qed.
Lemma deps_prog_output f ord crt m syms a :
  get_archives_dependencies_table ord crt m syms (set_output f a) = get_archives_dependencies_table ord crt m syms a.
Proof.
  unfold get_archives_dependencies_table.
  change (get_archives_dependencies ord crt m syms (set_output f a)) with (get_archives_dependencies ord crt m syms a).
  destruct (get_archives_dependencies ord crt m syms a) as [d|]; [|reflexivity]. cbn [bind].
  rewrite (deps_table_ext (set_output f a) a); reflexivity.
Qed.
Lemma table_of_output f x m a : table_of x m (set_output f a) = table_of x m a.
Proof. unfold table_of. rewrite deps_prog_output. reflexivity. Qed.
Lemma show_output f x m a : show x m (set_output f a) = show x m a.
Proof.
  unfold show. cbn [set_output a_format]. destruct (a_format a); try reflexivity.
  - unfold table_show. rewrite table_of_output. reflexivity.
  - unfold table_show. rewrite table_of_output. reflexivity.
  - unfold csv_show. rewrite table_of_output. reflexivity.
Qed.

Lemma rest_output ls ord pf projects c f o s : (forall a, ls (set_output f a) = ls a) ->
  rest ls ord pf projects (with_args c (set_output f (c_args c))) o s = rest ls ord pf projects c o s.
Proof.
  intros L. unfold rest. cbn [with_args c_args c_input].
  rewrite (andthen_pmap (normalise (c_args c)) _ (set_output f) _ (normalise_output f (c_args c)) o s).
  apply andthen_ext. clear o s. intros a o s. cbn zeta.
  change (set_use_dwarf (dwarf_option (set_output f a)) (set_output f a)) with (set_output f (set_use_dwarf (dwarf_option a) a)).
  rewrite L. set (b := set_use_dwarf (dwarf_option a) a).
  change (analyse (ls b) ord pf projects (c_input c) (set_output f b)) with (analyse (ls b) ord pf projects (c_input c) b).
  apply andthen_ext. intros [x m] o' s'.
  rewrite show_output. reflexivity.
Qed.

(** ** Writing the file *)

Definition wrote (fn text : str) (s s' : state) : Prop :=
  s_files s' = s_files s \/ exists k, s_files s' = dset fn (firstn k text) (s_files s).

Lemma mkdirs_files l o s r s' : mkdirs l o s = (r, s') -> s_files s' = s_files s.
Proof.
  revert s. induction l as [|d l IH]; intros s E; cbn [mkdirs] in E; [inversion E; reflexivity|].
  unfold andthen in E. unfold mkdir in E. unfold andthen, tick in E.
  destruct (o (s_tick s)) as [[[e|] k]|]; [inversion E; subst; reflexivity|inversion E; subst; reflexivity|].
  apply IH in E. exact E.
Qed.

Lemma die_files {A} o s (r : result A) s' : die o s = (r, s') -> s_files s' = s_files s.
Proof. intros E. exact (proj1 (proj1 tame_die _ _ _ _ E)). Qed.

Lemma dset_dset {V} k (a b : V) (d : dict str V) : dset k b (dset k a d) = dset k b d.
Proof.
  induction d as [|[k' v] d IH]; cbn [dset]; [rewrite keq_refl; reflexivity|].
  destruct (k =?= k') eqn:E; cbn [dset]; rewrite E; [reflexivity|]. rewrite IH. reflexivity.
Qed.

Lemma write_inner fn text o s r s' :
  (run _ <- mkdirs (above [] fn); run _ <- open_truncate fn; write fn text) o s = (r, s') ->
  (r = Done tt -> s_files s' = dset fn text (s_files s)) /\ wrote fn text s s'.
Proof.
  unfold andthen at 1. destruct (mkdirs (above [] fn) o s) as [[[]|e|] s1] eqn:E1; pose proof (mkdirs_files _ _ _ _ _ E1) as F1.
  2,3: intros E; inversion E; subst; split; [discriminate|left; exact F1].
  unfold andthen at 1, open_truncate. unfold andthen, tick.
  destruct (o (s_tick s1)) as [[[e|] k]|].
  1,2: intros E; inversion E; subst; split; [discriminate|left; exact F1].
  unfold write. cbn [set_file next s_tick].
  destruct (o (S (s_tick s1))) as [[[e|] k]|]; intros E; inversion E; subst.
  - split; [discriminate|]. right. exists k. cbn [set_file next s_files]. rewrite dset_dset, F1. reflexivity.
  - split; [discriminate|]. right. exists k. cbn [set_file next s_files]. rewrite dset_dset, F1. reflexivity.
  - split; [intros _; cbn [set_file next s_files]; rewrite dset_dset, F1; reflexivity|].
    right. exists (length text). cbn [set_file next s_files]. rewrite dset_dset, F1, firstn_all. reflexivity.
Qed.

Lemma write_output fn text o s r s' : write_output_file fn text o s = (r, s') ->
  (r = Done tt -> s_files s' = dset fn text (s_files s)) /\ wrote fn text s s'.
Proof.
  unfold write_output_file, handle.
  destruct ((run _ <- mkdirs (above [] fn); run _ <- open_truncate fn; write fn text) o s) as [x s1] eqn:E1.
  destruct (write_inner _ _ _ _ _ _ E1) as [H1 H2]. destruct x as [[]|e|]; intros E.
  - inversion E; subst. split; assumption.
  - destruct e; try (inversion E; subst; split; [discriminate|exact H2]).
    assert (D : s_files s' = s_files s1) by (eapply die_files; exact E). split.
    + intros R. subst r. unfold die, andthen, compute, andthen in E.
      destruct (tell Died o s1) as [[[]|e|] s2]; try discriminate E. destruct (tick o s2) as [[[]|e|] s3]; discriminate E.
    + destruct H2 as [H2|[k H2]]; [left; congruence|right; exists k; congruence].
  - inversion E; subst. split; [discriminate|exact H2].
Qed.

(** ** The whole run *)

Lemma tick_done o s s' u : tick o s = (Done u, s') -> s' = next s.
Proof. unfold tick. destruct (o (s_tick s)) as [[[e|] k]|]; intros E; inversion E; reflexivity. Qed.

Lemma console_step c o s r s' : set_console c o s = (r, s') -> s_files s' = s_files s /\ s_dirs s' = s_dirs s /\ sameout s' s /\
  (forall u, r = Done u -> s_console s' = c).
Proof.
  unfold set_console, andthen, tick. destruct (o (s_tick s)) as [[[e|] k]|]; intros E; inversion E; subst; repeat split; try discriminate.
Qed.

Lemma on_exception_tame e k : on_exception e = Some k -> tame k.
Proof. destruct e; intros E; inversion E; subst; tame. Qed.

Section Run.
  Variable render : console -> list piece -> str.
  Variable encode : str -> str.
  Variable ord : set_order.
  Variable pf : pct_format.
  Variable projects : str -> project.

  Notation run_cmd := (run_cmd render encode ord pf projects).

  Lemma load_output f a : load_symbols (set_output f a) = load_symbols a.
  Proof. reflexivity. Qed.

  (** the report of a disturbed run that came to the end *)
  Lemma report_done ls c o s s1 t : (forall f a, ls (set_output f a) = ls a) ->
    report ls ord pf projects c o s = (Done tt, s1) -> sameout t s ->
    exists t1, report ls ord pf projects (to_stdout c) no_faults t = (Done tt, t1) /\ sameout t1 s1 /\
      samefiles t1 (State 0 (s_files t) (s_dirs t) (console_of (to_stdout c)) [] []) /\
      s_files s1 = s_files s /\ s_dirs s1 = s_dirs s /\ s_console s1 = console_of c.
  Proof.
    intros L E T. rewrite report_rest in *. unfold andthen in E at 1.
    destruct (set_console (console_of c) o s) as [[[]|e|] s2] eqn:E2; try discriminate E.
    destruct (console_step _ _ _ _ _ E2) as (F1 & F2 & F3 & F4). specialize (F4 tt eq_refl).
    destruct (set_console (console_of (to_stdout c)) no_faults t) as [x t2] eqn:Et.
    assert (X : x = Done tt). { cbn in Et. inversion Et; reflexivity. }
    subst x. destruct (console_step _ _ _ _ _ Et) as (G1 & G2 & G3 & G4). specialize (G4 tt eq_refl).
    assert (T2 : sameout t2 s2). { destruct F3, G3, T. split; congruence. }
    destruct (proj2 (tame_rest ls ord pf projects c) _ _ _ _ E _ T2) as (t1 & E1 & O1).
    exists t1. unfold andthen at 1. rewrite Et. unfold to_stdout at 1. rewrite rest_output by (intros; apply L). rewrite E1.
    destruct (proj1 (tame_rest ls ord pf projects c) _ _ _ _ E1) as (H1 & H2 & H3).
    destruct (proj1 (tame_rest ls ord pf projects c) _ _ _ _ E) as (K1 & K2 & K3).
    repeat split; cbn; try congruence; apply O1.
  Qed.

  Lemma report_files ls c o s r s1 : report ls ord pf projects c o s = (r, s1) -> s_files s1 = s_files s /\ s_dirs s1 = s_dirs s.
  Proof.
    rewrite report_rest. unfold andthen at 1.
    destruct (set_console (console_of c) o s) as [[[]|e|] s2] eqn:E2; destruct (console_step _ _ _ _ _ E2) as (F1 & F2 & F3 & F4); intros E.
    2,3: inversion E; subst; split; assumption.
    destruct (proj1 (tame_rest ls ord pf projects c) _ _ _ _ E) as (H1 & H2 & H3). split; congruence.
  Qed.

  Lemma stdout_run ls c t t1 : report ls ord pf projects (to_stdout c) no_faults t = (Done tt, t1) ->
    run_with render encode ls ord pf projects (to_stdout c) no_faults t = (Done tt, t1).
  Proof. intros E. unfold run_with, handle. unfold andthen at 1. rewrite E. reflexivity. Qed.

  (** what a run does to the files *)
  Lemma run_files c o s r s' : run_cmd c o s = (r, s') ->
    (s_files s' = s_files s /\ s_dirs s' = s_dirs s) \/
    exists fn s1, output c fn /\ run_cmd (to_stdout c) no_faults s = (Done tt, s1) /\
      wrote fn (encode (render (file_console c) (s_printed s1))) s s'.
  Proof.
    intros E. unfold Main.run_cmd, run_with, handle in E. unfold andthen at 1 in E.
    destruct (report load_symbols ord pf projects c o s) as [x s1] eqn:R.
    destruct (report_files _ _ _ _ _ _ R) as [F1 F2].
    assert (Bad : forall e, match on_exception e with Some k => k o s1 | None => (Raised e, s1) end = (r, s') ->
      s_files s' = s_files s /\ s_dirs s' = s_dirs s).
    { intros e H. destruct (on_exception e) as [k|] eqn:K.
      - destruct (proj1 (on_exception_tame e k K) _ _ _ _ H) as (H1 & H2 & _). split; congruence.
      - inversion H; subst. split; assumption. }
    destruct x as [[]|e|]; [|left; apply (Bad e); exact E|left; inversion E; subst; split; assumption].
    destruct (report_done _ _ _ _ _ s load_output R (conj eq_refl eq_refl)) as (t1 & R1 & O1 & S1 & _ & _ & C1).
    unfold finish in E. unfold output.
    destruct (a_output_file (c_args c)) as [[|h fn]|] eqn:Eo.
    { left. cbn in E. inversion E; subst. split; assumption. }
    2: { left. cbn in E. inversion E; subst. split; assumption. }
    right. exists (h :: fn), t1. split; [split; [reflexivity|discriminate]|].
    split; [apply stdout_run; exact R1|].
    assert (Ec : console_of c = file_console c). { unfold console_of, file_console. rewrite Eo. reflexivity. }
    rewrite C1, Ec in E. destruct O1 as [O1 _]. rewrite <- O1 in E.
    set (text := encode (render (file_console c) (s_printed t1))) in *.
    destruct (write_output_file (h :: fn) text o s1) as [x s2] eqn:W.
    destruct (write_output _ _ _ _ _ _ W) as [_ W2].
    assert (W3 : wrote (h :: fn) text s s2).
    { destruct W2 as [W2|[k W2]]; [left; congruence|right; exists k; congruence]. }
    destruct x as [[]|e|]; [inversion E; subst; exact W3| |inversion E; subst; exact W3].
    destruct (on_exception e) as [k|] eqn:K; [|inversion E; subst; exact W3].
    destruct (proj1 (on_exception_tame e k K) _ _ _ _ E) as (H1 & H2 & _).
    destruct W3 as [W3|[k' W3]]; [left; congruence|right; exists k'; congruence].
  Qed.

  Lemma handler_raises e k o s u s' : on_exception e = Some k -> k o s = (Done u, s') -> False.
  Proof.
    destruct e; intros E; inversion E; subst; unfold die, andthen, compute, andthen; intros H;
      repeat match type of H with context [match ?x with _ => _ end] => destruct x; try discriminate H end.
  Qed.

  Lemma run_success c fn o s s' : output c fn -> run_cmd c o s = (Done tt, s') ->
    exists s1, run_cmd (to_stdout c) no_faults s = (Done tt, s1) /\
      s_files s' = dset fn (encode (render (file_console c) (s_printed s1))) (s_files s).
  Proof.
    intros [Eo Nf] E. unfold Main.run_cmd, run_with, handle in E. unfold andthen at 1 in E.
    destruct (report load_symbols ord pf projects c o s) as [x s1] eqn:R.
    destruct (report_files _ _ _ _ _ _ R) as [F1 F2].
    destruct x as [[]|e|]; [| |discriminate E].
    2: { destruct (on_exception e) as [k|] eqn:K; [|discriminate E]. destruct (handler_raises _ _ _ _ _ _ K E). }
    destruct (report_done _ _ _ _ _ s load_output R (conj eq_refl eq_refl)) as (t1 & R1 & O1 & S1 & _ & _ & C1).
    exists t1. split; [apply stdout_run; exact R1|].
    unfold finish in E. rewrite Eo in E. destruct fn as [|h fn]; [destruct (Nf eq_refl)|].
    assert (Ec : console_of c = file_console c). { unfold console_of, file_console. rewrite Eo. reflexivity. }
    rewrite C1, Ec in E. destruct O1 as [O1 _]. rewrite <- O1 in E.
    destruct (write_output_file (h :: fn) (encode (render (file_console c) (s_printed t1))) o s1) as [x s2] eqn:W.
    destruct (write_output _ _ _ _ _ _ W) as [W1 W2].
    destruct x as [[]|e|]; [| |discriminate E].
    - inversion E; subst. rewrite (W1 eq_refl), F1. reflexivity.
    - destruct (on_exception e) as [k|] eqn:K; [|discriminate E]. destruct (handler_raises _ _ _ _ _ _ K E).
  Qed.
End Run.
