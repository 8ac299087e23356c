From Coq Require Import Ascii String List ZArith Lia Bool.
From Verif Require Import Base MemMap SpecTree Filter Pipeline PyStr MapFile Deps Table Formats ElfRead Dwarf Project Main SpecMain ProofMain Command.
Import ListNotations.
Open Scope list_scope.
Open Scope Z_scope.

(** ** Runs that are done *)
Lemma andthen_done {A B} (m : prog A) (f : A -> prog B) o s b s' : andthen m f o s = (Done b, s') ->
  exists a s1, m o s = (Done a, s1) /\ f a o s1 = (Done b, s').
Proof. unfold andthen. destruct (m o s) as [[a|e|] s1]; intros E; try discriminate. eauto. Qed.
Lemma tick_printed o s u s' : tick o s = (Done u, s') -> s_printed s' = s_printed s.
Proof. intros E. apply tick_done in E. now subst. Qed.
Lemma compute_done {A} (r : res A) o s a s' : compute r o s = (Done a, s') -> r = Ok a /\ s_printed s' = s_printed s.
Proof.
  intros E. apply andthen_done in E. destruct E as (u & s1 & T & E). apply tick_printed in T. destruct r; inversion E; subst. now split.
Qed.
Lemma tell_done n o s u s' : tell n o s = (Done u, s') -> s_printed s' = s_printed s.
Proof. intros E. apply andthen_done in E. destruct E as (u' & s1 & T & E). apply tick_printed in T. inversion E; subst. exact T. Qed.
Lemma print_done p o s u s' : print p o s = (Done u, s') -> s_printed s' = s_printed s ++ [p].
Proof. intros E. apply andthen_done in E. destruct E as (u' & s1 & T & E). apply tick_printed in T. inversion E; subst. cbn. now rewrite T. Qed.
Lemma print_all_done l : forall o s u s', print_all l o s = (Done u, s') -> s_printed s' = s_printed s ++ l.
Proof.
  induction l as [|p l IH]; intros o s u s' E; cbn [print_all] in E.
  - inversion E; subst. now rewrite app_nil_r.
  - apply andthen_done in E. destruct E as (u' & s1 & P & E). apply print_done in P. rewrite (IH _ _ _ _ E), P, <- app_assoc. reflexivity.
Qed.
Lemma die_done {A} o s (a : A) s' : die o s = (Done a, s') -> False.
Proof. intros E. apply andthen_done in E. destruct E as (u & s1 & _ & E). apply compute_done in E. destruct E as [E _]. discriminate E. Qed.
Lemma cod_done {A} (r : res A) o s a s' : compute_or_die r o s = (Done a, s') -> r = Ok a /\ s_printed s' = s_printed s.
Proof.
  unfold compute_or_die. destruct r as [x|e]; [apply compute_done|]. destruct e; try apply compute_done. intros E. now apply die_done in E.
Qed.
Lemma table_done t o s x s' : table_result t o s = (Done x, s') -> t = TOk x /\ s_printed s' = s_printed s.
Proof. destruct t; intros E; [inversion E; subst; now split|now apply die_done in E]. Qed.
Lemma ret_done {A} (a b : A) o s s' : ret a o s = (Done b, s') -> b = a /\ s' = s.
Proof. intros E. inversion E; now subst. Qed.

Definition final_args (a : args) : args :=
  let a := without_conflicts a in let a := set_abbrev (negb (a_no_abbrev a)) a in set_use_dwarf (dwarf_option a) a.
Lemma normalise_done a o s b s' : normalise a o s = (Done b, s') ->
  b = set_abbrev (negb (a_no_abbrev (without_conflicts a))) (without_conflicts a) /\ s_printed s' = s_printed s.
Proof.
  unfold normalise. intros E. apply andthen_done in E. destruct E as (a1 & s1 & E1 & E). apply andthen_done in E. destruct E as (a2 & s2 & E2 & E).
  apply ret_done in E. destruct E as (-> & ->).
  assert (H1 : a1 = (if conflict_abbrev a then set_no_abbrev false a else a) /\ s_printed s1 = s_printed s).
  { unfold conflict_abbrev. destruct (a_no_abbrev a && a_unify a); [|apply ret_done in E1; destruct E1 as (-> & ->); now split].
    apply andthen_done in E1. destruct E1 as (u & s0 & T & E1). apply tell_done in T. apply ret_done in E1. destruct E1 as (-> & ->). now split. }
  destruct H1 as (-> & P1).
  assert (H2 : a2 = (if conflict_diff a then set_diff None (if conflict_abbrev a then set_no_abbrev false a else a) else if conflict_abbrev a then set_no_abbrev false a else a) /\ s_printed s2 = s_printed s1).
  { assert (C : a_archive_dependencies (if conflict_abbrev a then set_no_abbrev false a else a) && given (a_diff (if conflict_abbrev a then set_no_abbrev false a else a)) = conflict_diff a)
      by (destruct (conflict_abbrev a); reflexivity).
    rewrite C in E2. destruct (conflict_diff a); [|apply ret_done in E2; destruct E2 as (-> & ->); now split].
    apply andthen_done in E2. destruct E2 as (u & s0 & T & E2). apply tell_done in T. apply ret_done in E2. destruct E2 as (-> & ->). now split. }
  destruct H2 as (-> & P2). split; [|congruence]. unfold without_conflicts. destruct a. cbn. destruct (conflict_abbrev _), (conflict_diff _); reflexivity.
Qed.

(** writing the report into a file prints nothing *)
Lemma mkdirs_printed l : forall o s u s', mkdirs l o s = (Done u, s') -> s_printed s' = s_printed s.
Proof.
  induction l as [|d l IH]; intros o s u s' E; cbn [mkdirs] in E; [inversion E; now subst|].
  apply andthen_done in E. destruct E as (u' & s1 & M & E). apply IH in E. apply andthen_done in M. destruct M as (u2 & s2 & T & M).
  apply tick_printed in T. inversion M; subst. cbn in E. congruence.
Qed.
Lemma write_printed fn text o s u s' : write_output_file fn text o s = (Done u, s') -> s_printed s' = s_printed s.
Proof.
  unfold write_output_file, handle. destruct ((run _ <- mkdirs (above [] fn); run _ <- open_truncate fn; write fn text) o s) as [[u'|e|] s1] eqn:E; intros H.
  - inversion H; subst. apply andthen_done in E. destruct E as (u1 & s2 & M & E). apply mkdirs_printed in M.
    apply andthen_done in E. destruct E as (u2 & s3 & O & E). apply andthen_done in O. destruct O as (u3 & s4 & T & O). apply tick_printed in T. inversion O; subst.
    unfold write in E. destruct (o (s_tick (set_file fn [] s4))) as [[[e|] k]|]; inversion E; subst. cbn. congruence.
  - destruct e; try discriminate. now apply die_done in H.
  - discriminate.
Qed.
Lemma finish_printed render encode c o s u s' : finish render encode c o s = (Done u, s') -> s_printed s' = s_printed s.
Proof. unfold finish. destruct (a_output_file (c_args c)) as [[|h fn]|]; intros E; [inversion E; now subst|now apply write_printed in E|inversion E; now subst]. Qed.

(** ** A command that is done *)
Section Cmd.
  Variables (render : console -> list piece -> str) (encode : str -> str) (ord : set_order) (pf : pct_format) (projects : str -> project).
  Lemma run_done c o s s' : run_cmd render encode ord pf projects c o s = (Done tt, s') -> given (a_diff (final_args (c_args c))) = false ->
    let a := final_args (c_args c) in let p := projects (c_input c) in
    exists mf e m mf' x s1 s2, w_mapfile (p_world p) = Ok mf /\ w_elf (p_world p) = Ok e /\
      get (p_world p) (load_symbols a) (a_use_dwarf a) (Some mf) e = Ok (m, mf') /\
      x = Extras (p_crt p) (match e with Some _ => Some (p_syms p) | None => None end) ord pf /\
      s_printed s1 = s_printed s /\ show x (let m := prepare a m in if a_unify a then unify m else m) a o s1 = (Done tt, s2) /\ s_printed s' = s_printed s2.
  Proof.
    intros E D a p. unfold run_cmd, run_with, handle in E.
    destruct ((run _ <- report load_symbols ord pf projects c; finish render encode c) o s) as [[u|e|] s3] eqn:R.
    2:{ destruct (on_exception e) as [k|] eqn:X; [|discriminate]. exfalso. eapply handler_raises; eassumption. }
    2:{ discriminate. }
    inversion E; subst u s3. apply andthen_done in R. destruct R as ([] & s2 & R & F). apply finish_printed in F.
    unfold report in R. apply andthen_done in R. destruct R as (u1 & t1 & C & R).
    assert (Pc : s_printed t1 = s_printed s). { apply console_step in C. destruct C as (_ & _ & (C & _) & _). exact C. }
    apply andthen_done in R. destruct R as (a0 & t2 & N & R). apply normalise_done in N. destruct N as (-> & Pn).
    assert (R' : (run (x, m) <- analyse (load_symbols a) ord pf projects (c_input c) a; show x m a) o t2 = (Done tt, s2)) by exact R. clear R. rename R' into R.
    apply andthen_done in R. destruct R as ([x m1] & t3 & An & Sh). unfold analyse in An. fold p in An. cbn zeta in An.
    apply andthen_done in An. destruct An as (mf & q1 & A1 & An). apply compute_done in A1. destruct A1 as (A1 & P1).
    apply andthen_done in An. destruct An as (e & q2 & A2 & An). apply compute_done in A2. destruct A2 as (A2 & P2).
    apply andthen_done in An. destruct An as ([m mf'] & q3 & A3 & An). apply compute_done in A3. destruct A3 as (A3 & P3).
    apply andthen_done in An. destruct An as (m2 & q4 & A4 & An). apply ret_done in An. destruct An as (An & ->). injection An as -> ->.
    assert (H4 : m2 = prepare a m /\ q4 = q3).
    { unfold compare in A4. destruct (a_diff a) as [[|ch d]|] eqn:Ed; try (apply ret_done in A4; exact A4). unfold a in Ed. rewrite Ed in D. discriminate D. }
    destruct H4 as (-> & ->). exists mf, e, m, mf', (Extras (p_crt p) (match e with Some _ => Some (p_syms p) | None => None end) ord pf), q3, s2.
    repeat (split; [first [assumption|reflexivity|congruence]|]). exact F.
  Qed.
End Cmd.

(** ** The files *)
Lemma final_load a : load_symbols (final_args a) = load_symbols a. Proof. reflexivity. Qed.
Lemma final_dwarf a : a_use_dwarf (final_args a) = dwarf_option a. Proof. reflexivity. Qed.
Lemma final_diff a : given (a_diff a) = false -> given (a_diff (final_args a)) = false.
Proof. intros D. cbn. destruct (conflict_diff a); [reflexivity|exact D]. Qed.

Lemma load_project_get d chips input ls ud deps mf e m mf' : let p := load_project d chips ls ud deps input in
  w_mapfile (p_world p) = Ok mf -> w_elf (p_world p) = Ok e -> get (p_world p) ls ud (Some mf) e = Ok (m, mf') ->
  get_files d chips input ls ud = Ok m.
Proof.
  intros p M E G. unfold get_files. subst p. unfold load_project in *. cbn [p_world] in *.
  destruct (load_world d chips input ls ud) as [w|x] eqn:L.
  2:{ exfalso. destruct (dep_symbols d (abspath (d_cwd d) input)) as [l|y]; [discriminate E|]. destruct deps; discriminate E. }
  cbn [bind]. set (q := match dep_symbols d _ with Ok _ => w | Err _ => _ end) in *.
  assert (Q : q = w). { unfold q in *. destruct (dep_symbols d _); [reflexivity|]. destruct deps; [discriminate E|reflexivity]. }
  rewrite Q in *. clear q Q.
  assert (F : dwarf_flag ud w = w_lto w).
  { destruct ud as [b|]; [|reflexivity]. unfold load_world in L. destruct (get_proj_desc d _) as [pd|]; [|discriminate]. cbn [bind] in L.
    destruct (desc_target pd); [|discriminate]. cbn [bind] in L. injection L as <-. reflexivity. }
  assert (G2 : get w ls (Some (w_lto w)) None None = Ok (m, mf')).
  { unfold get, load_mapfile in *. rewrite M. cbn [dwarf_flag]. rewrite <- F. exact G. }
  rewrite G2. reflexivity.
Qed.

(** what a command without comparison prints is the report of the memory map of its files *)
Lemma command_done d chips render encode ord pf c o files s : run_files d chips render encode ord pf c o (start files) = (Done tt, s) ->
  given (a_diff (c_args c)) = false -> let a := final_args (c_args c) in
  exists m x s1 s2, get_files d chips (c_input c) (load_symbols (c_args c)) (dwarf_option (c_args c)) = Ok m /\
    x_order x = ord /\ x_pct x = pf /\
    s_printed s1 = [] /\ show x (let m := prepare a m in if a_unify a then unify m else m) a o s1 = (Done tt, s2) /\ s_printed s = s_printed s2.
Proof.
  intros R D a. apply run_done in R; [|now apply final_diff]. destruct R as (mf & e & m & mf' & x & s1 & s2 & M & E & G & X & P1 & Sh & P2).
  exists m, x, s1, s2. split; [|subst x; repeat (split; [first [reflexivity|assumption]|]); exact P2].
  rewrite final_load, final_dwarf in G. eapply load_project_get; eassumption.
Qed.
