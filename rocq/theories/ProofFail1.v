(** * Projects that cannot be reported, and those that always are: runs without faults *)
From Coq Require Import Ascii String List ZArith Lia Bool.
From Verif Require Import Base MemMap SpecTree Filter Pipeline SpecPipe PyStr MapFile SpecMap Deps Table SpecTable Formats ElfRead Dwarf Project SpecProject Chips Main SpecMain ProofMain Command SpecEnd SpecCommand SpecFail ProofCommand1.
Import ListNotations.
Open Scope list_scope.
Open Scope Z_scope.

(** ** undisturbed runs *)
Definition quiet (s s' : state) : Prop :=
  s_printed s' = s_printed s /\ s_files s' = s_files s /\ s_dirs s' = s_dirs s /\ exists l, s_notes s' = s_notes s ++ l /\ ~ In Died l.
Lemma quiet_refl s : quiet s s.
Proof. repeat split. exists []. split; [now rewrite app_nil_r|intros []]. Qed.
Lemma quiet_trans a b c : quiet a b -> quiet b c -> quiet a c.
Proof.
  intros (P & F & D & l & N & I) (P' & F' & D' & l' & N' & I'). repeat split; try congruence.
  exists (l ++ l'). split; [rewrite N', N; now rewrite app_assoc|]. intros X. apply in_app_or in X. tauto.
Qed.
Definition goes {A} (m : prog A) (P : A -> Prop) : Prop := forall s, exists a s', m no_faults s = (Done a, s') /\ quiet s s' /\ P a.
Definition stops {A} (m : prog A) (e : exn) : Prop := forall s, exists s', m no_faults s = (Raised e, s') /\ quiet s s'.
Definition finishes (m : prog unit) : Prop := forall s, exists s', m no_faults s = (Done tt, s').

Lemma goes_andthen {A B} (m : prog A) (f : A -> prog B) P Q : goes m P -> (forall a, P a -> goes (f a) Q) -> goes (andthen m f) Q.
Proof.
  intros M F s. destruct (M s) as (a & s1 & E & K & Pa). destruct (F a Pa s1) as (b & s2 & E2 & K2 & Q2).
  exists b, s2. unfold andthen. rewrite E. split; [exact E2|]. split; [eapply quiet_trans; eauto|exact Q2].
Qed.
Lemma stops_andthen {A B} (m : prog A) (f : A -> prog B) P e : goes m P -> (forall a, P a -> stops (f a) e) -> stops (andthen m f) e.
Proof.
  intros M F s. destruct (M s) as (a & s1 & E & K & Pa). destruct (F a Pa s1) as (s2 & E2 & K2).
  exists s2. unfold andthen. rewrite E. split; [exact E2|]. eapply quiet_trans; eauto.
Qed.
Lemma stops_first {A B} (m : prog A) (f : A -> prog B) e : stops m e -> stops (andthen m f) e.
Proof. intros M s. destruct (M s) as (s1 & E & K). exists s1. unfold andthen. rewrite E. now split. Qed.
Lemma finishes_andthen {A} (m : prog A) f P : goes m P -> (forall a, P a -> finishes (f a)) -> finishes (andthen m f).
Proof. intros M F s. destruct (M s) as (a & s1 & E & K & Pa). destruct (F a Pa s1) as (s2 & E2). exists s2. unfold andthen. now rewrite E. Qed.
Lemma finishes_two (m : prog unit) f : finishes m -> finishes f -> finishes (andthen m (fun _ => f)).
Proof. intros M F s. destruct (M s) as (s1 & E). destruct (F s1) as (s2 & E2). exists s2. unfold andthen. now rewrite E. Qed.

Lemma quiet_next s : quiet s (next s).
Proof. repeat split. exists []. split; [now rewrite app_nil_r|intros []]. Qed.
Lemma goes_ret {A} (a : A) (P : A -> Prop) : P a -> goes (ret a) P.
Proof. intros H s. exists a, s. split; [reflexivity|]. split; [apply quiet_refl|exact H]. Qed.
Lemma goes_compute {A} (r : res A) a (P : A -> Prop) : r = Ok a -> P a -> goes (compute r) P.
Proof. intros -> H s. exists a, (next s). split; [reflexivity|]. split; [apply quiet_next|exact H]. Qed.
Lemma stops_compute {A} (r : res A) e : r = Err e -> stops (compute r) e.
Proof. intros -> s. exists (next s). split; [reflexivity|apply quiet_next]. Qed.
Lemma goes_tell n : n <> Died -> goes (tell n) (fun _ => True).
Proof.
  intros H s. do 2 eexists. split; [reflexivity|]. split; [|exact I]. repeat split. exists [n]. split; [reflexivity|].
  intros [X|[]]. now apply H.
Qed.
Lemma goes_console c : goes (set_console c) (fun _ => True).
Proof. intros s. do 2 eexists. split; [reflexivity|]. split; [|exact I]. repeat split. exists []. split; [cbn; now rewrite app_nil_r|intros []]. Qed.
Lemma finishes_print p : finishes (print p).
Proof. intros s. eexists. reflexivity. Qed.
Lemma finishes_ret : finishes (ret tt).
Proof. intros s. eexists. reflexivity. Qed.
Lemma finishes_tell n : finishes (tell n).
Proof. intros s. eexists. reflexivity. Qed.
Lemma finishes_print_all l : finishes (print_all l).
Proof. induction l; [apply finishes_ret|]. cbn [print_all]. apply finishes_two; [apply finishes_print|exact IHl]. Qed.
Lemma finishes_write fn text : finishes (write_output_file fn text).
Proof.
  assert (M : forall l, finishes (mkdirs l)).
  { induction l; [apply finishes_ret|]. cbn [mkdirs]. apply finishes_two; [|exact IHl]. intros s. eexists. reflexivity. }
  intros s. unfold write_output_file, handle. destruct (M (above [] fn) s) as (s1 & E). unfold andthen at 1. rewrite E.
  eexists. cbn. reflexivity.
Qed.
Lemma finishes_finish render encode c : finishes (finish render encode c).
Proof. unfold finish. destruct (a_output_file (c_args c)) as [[|h fn]|]; [apply finishes_ret| |apply finishes_ret]. intros s. apply finishes_write. Qed.

(** ** the options *)
Lemma goes_normalise a : goes (normalise a) (fun b => b = set_abbrev (negb (a_no_abbrev (without_conflicts a))) (without_conflicts a)).
Proof.
  unfold normalise.
  apply (goes_andthen _ _ (fun b => b = if conflict_abbrev a then set_no_abbrev false a else a)).
  { unfold conflict_abbrev. destruct (a_no_abbrev a && a_unify a); [|now apply goes_ret].
    eapply goes_andthen; [now apply goes_tell|]. intros _ _. now apply goes_ret. }
  intros b ->.
  apply (goes_andthen _ _ (fun b => b = if conflict_diff a then set_diff None (if conflict_abbrev a then set_no_abbrev false a else a) else if conflict_abbrev a then set_no_abbrev false a else a)).
  { assert (C : a_archive_dependencies (if conflict_abbrev a then set_no_abbrev false a else a) && given (a_diff (if conflict_abbrev a then set_no_abbrev false a else a)) = conflict_diff a)
      by (destruct (conflict_abbrev a); reflexivity).
    rewrite C. destruct (conflict_diff a); [|now apply goes_ret]. eapply goes_andthen; [now apply goes_tell|]. intros _ _. now apply goes_ret. }
  intros b ->. apply goes_ret. unfold without_conflicts. destruct a. cbn. destruct (conflict_abbrev _), (conflict_diff _); reflexivity.
Qed.

(** ** the command *)
Section Cmd.
  Variables (render : console -> list piece -> str) (encode : str -> str) (ord : set_order) (pf : pct_format) (projects : str -> project) (c : cmd).
  Let a := final_args (c_args c).
  Lemma report_stops e : stops (analyse (load_symbols a) ord pf projects (c_input c) a) e -> stops (report load_symbols ord pf projects c) e.
  Proof.
    intros S. unfold report. eapply stops_andthen; [apply goes_console|]. intros _ _.
    eapply stops_andthen; [apply goes_normalise|]. intros b ->. apply stops_first. exact S.
  Qed.
  Lemma run_stops e s : stops (analyse (load_symbols a) ord pf projects (c_input c) a) e -> e = MemMapException \/ e = MapFileException ->
    diagnosed s (run_cmd render encode ord pf projects c no_faults s).
  Proof.
    intros S X. apply report_stops in S. unfold run_cmd, run_with, handle.
    destruct (stops_first _ (fun _ => finish render encode c) _ S s) as (s1 & E & Q). rewrite E.
    assert (H : on_exception e = Some die) by (destruct X as [->| ->]; reflexivity). rewrite H.
    destruct Q as (P & F & D & l & N & I). cbn. split; [reflexivity|]. cbn. split; [exact P|]. split; [exact F|]. split; [exact D|].
    exists l. split; [now rewrite N, <- app_assoc|exact I].
  Qed.
  Lemma run_raises e s : stops (analyse (load_symbols a) ord pf projects (c_input c) a) e -> on_exception e = None ->
    exists s', run_cmd render encode ord pf projects c no_faults s = (Raised e, s') /\ quiet s s'.
  Proof.
    intros S X. apply report_stops in S. unfold run_cmd, run_with, handle.
    destruct (stops_first _ (fun _ => finish render encode c) _ S s) as (s1 & E & Q). rewrite E, X. now exists s1.
  Qed.
  Lemma run_finishes s P : goes (analyse (load_symbols a) ord pf projects (c_input c) a) P -> (forall x m, P (x, m) -> finishes (show x m a)) ->
    exists s', run_cmd render encode ord pf projects c no_faults s = (Done tt, s').
  Proof.
    intros G S. assert (R : finishes (report load_symbols ord pf projects c)).
    { unfold report. eapply finishes_andthen; [apply goes_console|]. intros _ _. eapply finishes_andthen; [apply goes_normalise|]. intros b ->.
      eapply finishes_andthen; [exact G|]. intros [x m] Px. exact (S x m Px). }
    destruct (finishes_two _ _ R (finishes_finish render encode c) s) as (s' & E). exists s'.
    unfold run_cmd, run_with, handle. now rewrite E.
  Qed.
End Cmd.

(** ** the worlds of the two inputs are those of [load_world] *)
Lemma world_map d chips ls ud deps input : w_mapfile (p_world (load_project d chips ls ud deps input)) = load_map d (abspath (d_cwd d) input).
Proof.
  unfold load_project. cbn [p_world]. destruct (load_world d chips input ls ud) as [w|] eqn:L.
  - assert (H : w_mapfile w = load_map d (abspath (d_cwd d) input)).
    { unfold load_world in L. destruct (get_proj_desc d _); [|discriminate]. cbn [bind] in L. destruct (match ud with Some b => Ok b | None => _ end); [|discriminate].
      cbn [bind] in L. destruct (desc_target _); [|discriminate]. cbn [bind] in L. now injection L as <-. }
    destruct (dep_symbols d _); [exact H|]. destruct deps; exact H.
  - destruct (dep_symbols d _); [reflexivity|]. destruct deps; reflexivity.
Qed.
Lemma world_plain d chips ls ud input w : load_world d chips input ls ud = Ok w -> p_world (load_project d chips ls ud false input) = w.
Proof. intros L. unfold load_project. cbn [p_world]. rewrite L. now destruct (dep_symbols d _). Qed.
