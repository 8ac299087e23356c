From Coq Require Import Ascii String List ZArith Lia Bool.
From Verif Require Import Base MemMap Filter Pipeline PyStr MapFile Deps Table Formats Main SpecMain ProofMain ProofMain2 ProofMain5 SpecShape ProofShape ElfRead Project Command
  ProofCommand1 ProofReport2 ProofReport4 SpecNotes.
Import ListNotations.
Open Scope list_scope.
Open Scope Z_scope.

(** ** notes of successful steps *)
Lemma tick_n o s u s' : tick o s = (Done u, s') -> s_notes s' = s_notes s.
Proof. unfold tick. destruct (o (s_tick s)) as [[[e|] k]|]; intros E; inversion E; reflexivity. Qed.
Lemma compute_n {A} (r : res A) o s a s' : compute r o s = (Done a, s') -> r = Ok a /\ s_notes s' = s_notes s.
Proof. intros E. apply andthen_done in E. destruct E as (u & s1 & T & E). apply tick_n in T. destruct r; inversion E; subst. now split. Qed.
Lemma print_n p o s u s' : print p o s = (Done u, s') -> s_notes s' = s_notes s.
Proof. intros E. apply andthen_done in E. destruct E as (v & s1 & T & E). apply tick_n in T. inversion E; subst. exact T. Qed.
Lemma print_all_n l : forall o s u s', print_all l o s = (Done u, s') -> s_notes s' = s_notes s.
Proof.
  induction l as [|p l IH]; intros o s u s' E; cbn [print_all] in E; [inversion E; reflexivity|].
  apply andthen_done in E. destruct E as (v & s1 & P & E). apply print_n in P. apply IH in E. congruence.
Qed.
Lemma console_n c o s u s' : set_console c o s = (Done u, s') -> s_notes s' = s_notes s.
Proof. intros E. apply andthen_done in E. destruct E as (v & s1 & T & E). apply tick_n in T. inversion E; subst. exact T. Qed.
Lemma cod_n {A} (r : res A) o s a s' : compute_or_die r o s = (Done a, s') -> s_notes s' = s_notes s.
Proof. unfold compute_or_die. destruct r as [x|[]]; intros E; try (now apply compute_n in E). now apply die_done in E. Qed.
Lemma table_n t o s x s' : table_result t o s = (Done x, s') -> s_notes s' = s_notes s.
Proof. destruct t; cbn [table_result]; intros E; [apply ret_done in E; now destruct E as (_ & ->)|now apply die_done in E]. Qed.
Lemma table_of_n x m a o s t s' : table_of x m a o s = (Done t, s') -> s_notes s' = s_notes s.
Proof.
  unfold table_of. destruct (a_archives a); [apply table_n|]. destruct (given (a_archive_details a)).
  { intros E. apply andthen_done in E. destruct E as (y & s1 & E1 & E). apply cod_n in E1. apply table_n in E. congruence. }
  destruct (a_archive_dependencies a); [apply cod_n|]. destruct (a_files a); apply table_n.
Qed.

Definition opt (b : bool) (l : list note) : list note := if b then l else [].
Lemma opt_when b (P : Prop) l : (b = true <-> P) -> when P l (opt b l).
Proof. intros H. destruct b; [left|right]; cbn; split; try reflexivity; [now apply H|]. intros X. apply H in X. discriminate. Qed.

Lemma normalise_n a o s b s' : normalise a o s = (Done b, s') ->
  s_notes s' = s_notes s ++ opt (a_no_abbrev a && a_unify a) [WarnNoAbbrev] ++ opt (a_archive_dependencies a && given (a_diff a)) [WarnDiff].
Proof.
  unfold normalise. intros E. apply andthen_done in E. destruct E as (a1 & s1 & E1 & E). apply andthen_done in E. destruct E as (a2 & s2 & E2 & E).
  apply ret_done in E. destruct E as (_ & ->).
  assert (H1 : a_archive_dependencies a1 = a_archive_dependencies a /\ a_diff a1 = a_diff a /\ s_notes s1 = s_notes s ++ opt (a_no_abbrev a && a_unify a) [WarnNoAbbrev]).
  { destruct (a_no_abbrev a && a_unify a).
    - apply andthen_done in E1. destruct E1 as (u & s0 & T & E1). apply tell_notes in T. apply ret_done in E1. destruct E1 as (-> & ->). repeat split; assumption.
    - apply ret_done in E1. destruct E1 as (-> & ->). cbn. now rewrite app_nil_r. }
  destruct H1 as (D1 & D2 & N1). rewrite D1, D2 in E2. rewrite app_assoc, <- N1.
  destruct (a_archive_dependencies a && given (a_diff a)).
  - apply andthen_done in E2. destruct E2 as (u & s0 & T & E2). apply tell_notes in T. apply ret_done in E2. destruct E2 as (_ & ->). exact T.
  - apply ret_done in E2. destruct E2 as (_ & ->). cbn. now rewrite app_nil_r.
Qed.

Definition tabular (a : args) : bool := match a_format a with FTable | FText => true | _ => false end.
Lemma show_n x m a o s u s' : show x m a o s = (Done u, s') -> (a_archive_dependencies a && given (a_diff a) = false) ->
  s_notes s' = s_notes s ++ opt (tabular a && given (a_diff a)) [DiffInfo (m_project_path m) (m_project_path_diff m)] ++
    opt (tabular a && (negb (a_archives a) && negb (given (a_archive_details a)) && negb (a_archive_dependencies a) && negb (a_files a))) [ImageInfo (m_image_size m) (m_image_size_diff m); SizeNote].
Proof.
  intros E C. unfold show in E. unfold tabular.
  assert (Tb : table_show x m a o s = (Done u, s') ->
    s_notes s' = s_notes s ++ opt (given (a_diff a)) [DiffInfo (m_project_path m) (m_project_path_diff m)] ++
      opt (negb (a_archives a) && negb (given (a_archive_details a)) && negb (a_archive_dependencies a) && negb (a_files a)) [ImageInfo (m_image_size m) (m_image_size_diff m); SizeNote]).
  { clear E. intros E. unfold table_show in E. apply andthen_done in E. destruct E as (u0 & s0 & E0 & E).
    apply andthen_done in E. destruct E as (t & s1 & E1 & E). apply table_of_n in E1. apply andthen_done in E. destruct E as (u2 & s2 & E2 & E). apply print_n in E2.
    assert (N0 : s_notes s0 = s_notes s ++ opt (given (a_diff a)) [DiffInfo (m_project_path m) (m_project_path_diff m)]).
    { unfold show_diff_info in E0. destruct (given (a_diff a)) eqn:G.
      - rewrite andb_true_r in C. rewrite C, andb_false_r in E0. now apply tell_notes in E0.
      - assert (E0' : ret tt o s = (Done u0, s0)) by (destruct (negb (a_archives a) && negb (given (a_archive_details a)) && a_archive_dependencies a); exact E0).
        apply ret_done in E0'. destruct E0' as (_ & ->). cbn. now rewrite app_nil_r. }
    rewrite app_assoc, <- N0, <- E1, <- E2. fold (is_summary a). destruct (is_summary a).
    - apply andthen_done in E. destruct E as (u3 & s3 & E3 & E). apply tell_notes in E3. apply tell_notes in E. rewrite E, E3, <- app_assoc. reflexivity.
    - apply ret_done in E. destruct E as (_ & ->). cbn. now rewrite app_nil_r. }
  assert (Q : forall m1 : prog unit, (forall o s u s', m1 o s = (Done u, s') -> s_notes s' = s_notes s) -> m1 o s = (Done u, s') -> s_notes s' = s_notes s ++ [] ++ []).
  { intros m1 H1 H2. rewrite !app_nil_r. eapply H1. exact H2. }
  destruct (a_format a); cbn [andb opt]; try (exact (Tb E)); (eapply Q; [|exact E]); clear; intros o s u s' E.
  - unfold tree_show in E. destruct (a_archive_dependencies a); [|now apply print_n in E]. apply andthen_done in E. destruct E as (d & s1 & E1 & E). apply cod_n in E1. apply print_n in E. congruence.
  - unfold csv_show in E. apply andthen_done in E. destruct E as (d & s1 & E1 & E). apply table_of_n in E1. apply print_all_n in E. congruence.
  - unfold json_show in E. destruct (a_archives a); [now apply print_n in E|]. destruct (given (a_archive_details a)).
    { apply andthen_done in E. destruct E as (d & s1 & E1 & E). apply cod_n in E1. apply print_n in E. congruence. }
    destruct (a_archive_dependencies a).
    { apply andthen_done in E. destruct E as (d & s1 & E1 & E). apply cod_n in E1. apply print_n in E. congruence. }
    destruct (a_files a); now apply print_n in E.
  - unfold raw_show in E. destruct (a_archive_dependencies a); [|now apply print_n in E]. apply andthen_done in E. destruct E as (d & s1 & E1 & E). apply cod_n in E1. apply print_n in E. congruence.
  - unfold dot_show_prog in E. apply andthen_done in E. destruct E as (d & s1 & E1 & E). apply cod_n in E1. apply print_n in E. congruence.
Qed.

Lemma prepare_fields a m : m_target (prepare a m) = m_target m /\ m_project_path (prepare a m) = m_project_path m /\ m_image_size (prepare a m) = m_image_size m /\ m_image_size_diff (prepare a m) = m_image_size_diff m.
Proof. unfold prepare. destruct (a_show_unused a), (a_use_flash_size a); repeat split. Qed.

Lemma given_iff (x : option str) : given x = true <-> exists fn, x = Some fn /\ fn <> [].
Proof. destruct x as [[|c f]|]; cbn; split; try discriminate; try (intros (fn & E & N); congruence). intros _. exists (c :: f). split; [reflexivity|discriminate]. Qed.
Lemma given_none (x : option str) : given x = false <-> x = None \/ x = Some [].
Proof. destruct x as [[|c f]|]; cbn; split; auto; try discriminate. intros [?|?]; discriminate. Qed.

Lemma summary_iff a : (negb (a_archives a) && negb (given (a_archive_details a)) && negb (a_archive_dependencies a) && negb (a_files a)) = true <-> summary_asked a.
Proof. unfold summary_asked. rewrite !andb_true_iff, !negb_true_iff, given_none. tauto. Qed.
Lemma tabular_iff a : tabular a = true <-> with_tables a.
Proof. unfold tabular, with_tables. destruct (a_format a); split; auto; try discriminate; intros [?|?]; discriminate. Qed.

Theorem run_messages d chips render encode ord pf c o files s : run_files d chips render encode ord pf c o (start files) = (Done tt, s) ->
  let a := c_args c in let ls := load_symbols a in let ud := dwarf_option a in
  exists cur ref, get_files d chips (c_input c) ls ud = Ok cur /\
    match reference a with Some fn => exists r, ref = Some r /\ get_files d chips fn ls ud = Ok r | None => ref = None end /\
    messages a cur ref (s_notes s).
Proof.
  intros E. cbv zeta. unfold run_files, run_cmd, run_with, handle in E. set (projects := projects_of d chips (c_args c)) in E.
  destruct ((run _ <- report load_symbols ord pf projects c; finish render encode c) o (start files)) as [[u|e|] s3] eqn:R.
  2:{ destruct (on_exception e) as [k|] eqn:X; [|discriminate]. exfalso. eapply handler_raises; eassumption. }
  2:{ discriminate. }
  inversion E; subst u s3. clear E. apply andthen_done in R. destruct R as ([] & s2 & R & F). apply finish_quiet in F. destruct F as (_ & F).
  set (a := final_args (c_args c)). set (p := projects (c_input c)).
  unfold report in R. apply andthen_done in R. destruct R as (u1 & t1 & C & R). apply console_n in C.
  apply andthen_done in R. destruct R as (a0 & t2 & N & R). pose proof (normalise_n _ _ _ _ _ N) as Nn. apply normalise_done in N. destruct N as (-> & _).
  assert (R' : (run (x, m) <- analyse (load_symbols a) ord pf projects (c_input c) a; show x m a) o t2 = (Done tt, s2)) by exact R. clear R. rename R' into R.
  apply andthen_done in R. destruct R as ([x m1] & t3 & An & Sh). unfold analyse in An. fold p in An. cbn zeta in An.
  apply andthen_done in An. destruct An as (mf & q1 & A1 & An). apply compute_n in A1. destruct A1 as (A1 & P1).
  apply andthen_done in An. destruct An as (e & q2 & A2 & An). apply compute_n in A2. destruct A2 as (A2 & P2).
  apply andthen_done in An. destruct An as ([m mf'] & q3 & A3 & An). apply compute_n in A3. destruct A3 as (A3 & P3).
  apply andthen_done in An. destruct An as (m2 & q4 & A4 & An). apply ret_done in An. destruct An as (An & ->). injection An as -> ->.
  change (s_notes (start files)) with (@nil note) in C.
  assert (Da : a_diff a = if conflict_diff (c_args c) then None else a_diff (c_args c)) by reflexivity.
  assert (Cd : a_archive_dependencies a && given (a_diff a) = false).
  { rewrite Da. change (a_archive_dependencies a) with (a_archive_dependencies (c_args c)). unfold conflict_diff. destruct (a_archive_dependencies (c_args c)); [|reflexivity]. cbn [andb].
    destruct (given (a_diff (c_args c))) eqn:G; [reflexivity|exact G]. }
  apply show_n in Sh; [|exact Cd].
  assert (MM : forall M, M = (if a_unify (c_args c) then unify m2 else m2) -> m_project_path M = m_project_path m2 /\ m_project_path_diff M = m_project_path_diff m2 /\ m_image_size M = m_image_size m2 /\ m_image_size_diff M = m_image_size_diff m2)
    by (intros M ->; destruct (a_unify (c_args c)); repeat split).
  destruct (MM _ eq_refl) as (MM1 & MM2 & MM3 & MM4). cbv zeta in Sh. rewrite MM1, MM2, MM3, MM4 in Sh. clear MM MM1 MM2 MM3 MM4. rewrite F, Sh.
  change (a_archives a) with (a_archives (c_args c)). change (a_archive_details a) with (a_archive_details (c_args c)).
  change (a_archive_dependencies a) with (a_archive_dependencies (c_args c)). change (a_files a) with (a_files (c_args c)). change (tabular a) with (tabular (c_args c)).
  assert (G : get_files d chips (c_input c) (load_symbols (c_args c)) (dwarf_option (c_args c)) = Ok m).
  { change (load_symbols a) with (load_symbols (c_args c)) in A3. change (a_use_dwarf a) with (dwarf_option (c_args c)) in A3. eapply load_project_get; eassumption. }
  destruct (prepare_fields a m) as (T1 & T2 & T3 & T4).
  assert (W1 : when (a_no_abbrev (c_args c) = true /\ a_unify (c_args c) = true) [WarnNoAbbrev] (opt (a_no_abbrev (c_args c) && a_unify (c_args c)) [WarnNoAbbrev])) by (apply opt_when, andb_true_iff).
  assert (W2 : when (a_archive_dependencies (c_args c) = true /\ exists fn, a_diff (c_args c) = Some fn /\ fn <> []) [WarnDiff] (opt (a_archive_dependencies (c_args c) && given (a_diff (c_args c))) [WarnDiff])).
  { apply opt_when. rewrite andb_true_iff, given_iff. tauto. }
  assert (W5 : forall l, when (with_tables (c_args c) /\ summary_asked (c_args c)) l (opt (tabular (c_args c) && (negb (a_archives (c_args c)) && negb (given (a_archive_details (c_args c))) && negb (a_archive_dependencies (c_args c)) && negb (a_files (c_args c)))) l)).
  { intros l. apply opt_when. rewrite andb_true_iff, summary_iff, tabular_iff. tauto. }
  unfold compare in A4. destruct (given (a_diff a)) eqn:Gd.
  - (* compared *)
    destruct (a_diff a) as [[|ch fn]|] eqn:Ed; try discriminate Gd.
    assert (Re : a_diff (c_args c) = Some (ch :: fn) /\ a_archive_dependencies (c_args c) = false).
    { unfold conflict_diff in Da. destruct (a_archive_dependencies (c_args c)) eqn:Dp; cbn [andb] in Da; [|split; [now symmetry|reflexivity]].
      destruct (given (a_diff (c_args c))) eqn:G2; [discriminate Da|]. rewrite <- Da in G2. discriminate G2. }
    destruct Re as (Re & Dp).
    apply andthen_done in A4. destruct A4 as ([r mf2] & q5 & B1 & A4). apply compute_n in B1. destruct B1 as (B1 & Q1).
    cbv zeta in A4. rewrite prepare_flash in A4. apply andthen_done in A4. destruct A4 as (u2 & q6 & B2 & A4). apply ret_done in A4. destruct A4 as (-> & ->).
    set (rr := if a_show_unused a then r else remove_unused r) in *.
    assert (RF : m_target rr = m_target r /\ m_project_path rr = m_project_path r /\ m_image_size rr = m_image_size r) by (unfold rr; destruct (a_show_unused a); repeat split).
    destruct RF as (R1 & R2 & R3).
    assert (B3 : s_notes q6 = s_notes q5 ++ opt (negb (m_target m =?= m_target r)) [WarnTarget (m_target m) (m_target r)]).
    { cbn [diff m_target m_target_diff] in B2. rewrite T1, R1 in B2. destruct (m_target m =?= m_target r); cbn [negb opt].
      - apply ret_done in B2. destruct B2 as (_ & ->). now rewrite app_nil_r.
      - now apply tell_notes in B2. }
    exists m, (Some r). split; [exact G|]. split.
    { unfold reference. rewrite Re, Dp. exists r. split; [reflexivity|]. change (load_symbols a) with (load_symbols (c_args c)) in B1. change (a_use_dwarf a) with (dwarf_option (c_args c)) in B1. eapply load_project_ref. exact B1. }
    cbn [diff m_project_path m_project_path_diff m_image_size m_image_size_diff]. rewrite T2, T3, R2, R3.
    do 5 eexists. split.
    { match goal with |- _ ++ ?x ++ ?y = _ => transitivity (opt (a_no_abbrev (c_args c) && a_unify (c_args c)) [WarnNoAbbrev] ++ opt (a_archive_dependencies (c_args c) && given (a_diff (c_args c))) [WarnDiff] ++
        opt (negb (m_target m =?= m_target r)) [WarnTarget (m_target m) (m_target r)] ++ x ++ y) end; [|reflexivity].
      rewrite B3, Q1, P3, P2, P1, Nn, C. cbn [app]. now rewrite <- !app_assoc. }
    split; [exact W1|]. split; [exact W2|]. split; [|split; [|apply W5]].
    + apply opt_when. rewrite negb_true_iff. destruct (keqP (m_target m) (m_target r)) as [X|X]; split; congruence.
    + apply opt_when. rewrite andb_true_iff, tabular_iff. tauto.
  - (* alone *)
    assert (H4 : m2 = prepare a m /\ q4 = q3).
    { destruct (a_diff a) as [[|ch fn]|]; try discriminate Gd; apply ret_done in A4; exact A4. }
    destruct H4 as (-> & ->). exists m, None. split; [exact G|]. split.
    { unfold reference. unfold conflict_diff in Da. destruct (a_diff (c_args c)) as [[|ch fn]|] eqn:Ea; try reflexivity. destruct (a_archive_dependencies (c_args c)); [reflexivity|].
      cbn [andb] in Da. rewrite Da in Gd. discriminate Gd. }
    destruct (get_pristine _ _ _ _ _ _ _ A3) as ((_ & _ & Pz & _) & _).
    rewrite T3, T4, Pz, andb_false_r. cbn [opt app].
    exists (opt (a_no_abbrev (c_args c) && a_unify (c_args c)) [WarnNoAbbrev]), (opt (a_archive_dependencies (c_args c) && given (a_diff (c_args c))) [WarnDiff]), [], [].
    eexists. split.
    { match goal with |- _ ++ ?y = _ => transitivity (opt (a_no_abbrev (c_args c) && a_unify (c_args c)) [WarnNoAbbrev] ++ opt (a_archive_dependencies (c_args c) && given (a_diff (c_args c))) [WarnDiff] ++ y) end; [|reflexivity].
      rewrite P3, P2, P1, Nn, C. cbn [app]. now rewrite <- !app_assoc. }
    split; [exact W1|]. split; [exact W2|]. split; [reflexivity|]. split; [reflexivity|]. apply W5.
Qed.

(** ** a killed process *)
Definition stops {A} (m : prog A) : Prop := forall o s r s', m o s = (r, s') ->
  (s_tick s <= s_tick s')%nat /\
  (r = Killed -> exists n k, (s_tick s <= n)%nat /\ o n = Some (FKill, k) /\ s_tick s' = S n) /\
  (forall n k, (s_tick s <= n < s_tick s')%nat -> o n = Some (FKill, k) -> r = Killed /\ s_tick s' = S n).
Lemma stops_ret {A} (a : A) : stops (ret a).
Proof. intros o s r s' E. inversion E; subst. split; [lia|]. split; [discriminate|]. intros. lia. Qed.
Lemma stops_pure {A} (f : state -> result A * state) : (forall s, fst (f s) <> Killed /\ s_tick (snd (f s)) = s_tick s) -> stops (fun _ s => f s).
Proof. intros H o s r s' E. destruct (H s) as (H1 & H2). rewrite E in H1, H2. cbn in H1, H2. split; [lia|]. split; [congruence|]. intros. lia. Qed.
Lemma stops_tick : stops tick.
Proof.
  intros o s r s' E. unfold tick in E. destruct (o (s_tick s)) as [[[e|] k]|] eqn:O; inversion E; subst; cbn [next s_tick].
  - split; [lia|]. split; [discriminate|]. intros n k' N O'. replace n with (s_tick s) in O' by lia. congruence.
  - split; [lia|]. split; [|intros n k' N _; split; [reflexivity|cbn; lia]]. intros _. exists (s_tick s), k. repeat split; [lia|exact O].
  - split; [lia|]. split; [discriminate|]. intros n k' N O'. replace n with (s_tick s) in O' by lia. congruence.
Qed.
Lemma stops_then {A B} (m : prog A) (f : A -> prog B) : stops m -> (forall a, stops (f a)) -> stops (andthen m f).
Proof.
  intros Hm Hf o s r s' E. unfold andthen in E. destruct (m o s) as [[a|e|] s1] eqn:M.
  - destruct (Hm _ _ _ _ M) as (L1 & _ & K1). destruct (Hf a _ _ _ _ E) as (L2 & K2 & K3). split; [lia|]. split.
    + intros R. destruct (K2 R) as (n & k & N & O & T). exists n, k. repeat split; [lia|exact O|exact T].
    + intros n k N O. destruct (Nat.lt_ge_cases n (s_tick s1)) as [X|X].
      * destruct (K1 n k ltac:(lia) O) as (X1 & _). discriminate X1.
      * eapply K3; [|exact O]. lia.
  - inversion E; subst. destruct (Hm _ _ _ _ M) as (L1 & _ & K1). split; [exact L1|]. split; [discriminate|]. intros n k N O. destruct (K1 n k N O) as (X1 & _). discriminate X1.
  - inversion E; subst. destruct (Hm _ _ _ _ M) as (L1 & K2 & K3). split; [exact L1|]. split; [auto|]. intros n k N O. split; [reflexivity|]. now apply (K3 n k).
Qed.
Lemma stops_compute {A} (r : res A) : stops (compute r).
Proof. apply stops_then; [apply stops_tick|]. intros _. apply (stops_pure (fun s => match r with Ok a => (Done a, s) | Err e => (Raised e, s) end)). intros s. destruct r; cbn; split; try discriminate; reflexivity. Qed.
Ltac pure_step := apply stops_then; [apply stops_tick|]; intros _; match goal with |- stops (fun _ s => @?f s) => apply (stops_pure f) end; intros s; cbn; split; [discriminate|reflexivity].
Lemma stops_print p : stops (print p). Proof. pure_step. Qed.
Lemma stops_tell n : stops (tell n). Proof. pure_step. Qed.
Lemma stops_console c : stops (set_console c). Proof. pure_step. Qed.
Lemma stops_mkdir n : stops (mkdir n). Proof. pure_step. Qed.
Lemma stops_open n : stops (open_truncate n). Proof. pure_step. Qed.
Lemma stops_write fn t : stops (write fn t).
Proof.
  intros o s r s' E. unfold write in E. destruct (o (s_tick s)) as [[[e|] k]|] eqn:O; inversion E; subst; cbn [set_file next s_tick].
  - split; [lia|]. split; [discriminate|]. intros n k' N O'. replace n with (s_tick s) in O' by lia. congruence.
  - split; [lia|]. split; [|intros n k' N _; split; [reflexivity|cbn; lia]]. intros _. exists (s_tick s), k. repeat split; [lia|exact O].
  - split; [lia|]. split; [discriminate|]. intros n k' N O'. replace n with (s_tick s) in O' by lia. congruence.
Qed.
Lemma stops_die {A} : stops (@die A). Proof. apply stops_then; [apply stops_tell|]. intros _. apply stops_compute. Qed.
Lemma stops_cod {A} (r : res A) : stops (compute_or_die r).
Proof. unfold compute_or_die. destruct r as [x|[]]; try apply stops_compute. apply stops_die. Qed.
Lemma stops_table t : stops (table_result t). Proof. destruct t; [apply stops_ret|apply stops_die]. Qed.
Lemma stops_print_all l : stops (print_all l).
Proof. induction l as [|p l IH]; cbn [print_all]; [apply stops_ret|]. apply stops_then; [apply stops_print|]. intros _. exact IH. Qed.
Lemma stops_mkdirs l : stops (mkdirs l).
Proof. induction l as [|p l IH]; cbn [mkdirs]; [apply stops_ret|]. apply stops_then; [apply stops_mkdir|]. intros _. exact IH. Qed.
Lemma stops_handle {A} (m : prog A) h : stops m -> (forall e k, h e = Some k -> stops k) -> stops (handle m h).
Proof.
  intros Hm Hh o s r s' E. unfold handle in E. destruct (m o s) as [[a|e|] s1] eqn:M; [inversion E; subst; exact (Hm _ _ _ _ M)| |inversion E; subst; exact (Hm _ _ _ _ M)].
  destruct (h e) as [k|] eqn:X; [|inversion E; subst; exact (Hm _ _ _ _ M)].
  destruct (Hm _ _ _ _ M) as (L1 & _ & K1). destruct (Hh _ _ X _ _ _ _ E) as (L2 & K2 & K3). split; [lia|]. split.
  - intros R. destruct (K2 R) as (n & q & N & O & T). exists n, q. repeat split; [lia|exact O|exact T].
  - intros n q N O. destruct (Nat.lt_ge_cases n (s_tick s1)) as [Y|Y].
    + destruct (K1 n q ltac:(lia) O) as (X1 & _). discriminate X1.
    + eapply K3; [|exact O]. lia.
Qed.
Create HintDb stops.
#[local] Hint Resolve stops_ret stops_tick stops_compute stops_print stops_tell stops_console stops_mkdir stops_open stops_write stops_die stops_cod stops_table stops_print_all stops_mkdirs : stops.
Ltac go := repeat first [ solve [auto with stops nocore] | apply stops_then; [|intros ?] | match goal with
  | |- stops (if ?b then _ else _) => destruct b
  | |- stops (match ?x with _ => _ end) => destruct x
  | |- stops (let _ := _ in _) => cbv zeta end ].
Lemma stops_table_of x m a : stops (table_of x m a). Proof. unfold table_of. go. Qed.
#[local] Hint Resolve stops_table_of : stops.
Lemma stops_show x m a : stops (show x m a).
Proof. unfold show, table_show, show_diff_info, csv_show, json_show, raw_show, tree_show, dot_show_prog. go. Qed.
#[local] Hint Resolve stops_show : stops.
Lemma stops_normalise a : stops (normalise a). Proof. unfold normalise. go. Qed.
Lemma stops_compare ls ps a m : stops (compare ls ps a m). Proof. unfold compare. go. Qed.
#[local] Hint Resolve stops_normalise stops_compare : stops.
Lemma stops_report ls ord pf ps c : stops (report ls ord pf ps c).
Proof. unfold report, analyse. cbv zeta. go. Qed.
Lemma stops_finish render encode c : stops (finish render encode c).
Proof.
  unfold finish. destruct (a_output_file (c_args c)) as [[|h fn]|]; try apply stops_ret. intros o s r s' E. revert E.
  generalize (encode (render (s_console s) (s_printed s))). intros t E. revert E.
  assert (W : stops (write_output_file (h :: fn) t)).
  { unfold write_output_file. apply stops_handle; [go|]. intros e k X. destruct e; inversion X; subst. apply stops_die. }
  intros E. exact (W _ _ _ _ E).
Qed.
Theorem run_killed render encode ord pf ps c o s r s' : run_cmd render encode ord pf ps c o s = (r, s') ->
  (r = Killed -> killed_last o s') /\ (forall n k, (s_tick s <= n < s_tick s')%nat -> o n = Some (FKill, k) -> r = Killed /\ s_tick s' = S n).
Proof.
  intros E. assert (S1 : stops (run_cmd render encode ord pf ps c)).
  { unfold run_cmd, run_with. apply stops_handle.
    - apply stops_then; [apply stops_report|]. intros _. apply stops_finish.
    - intros e k X. destruct e; inversion X; subst; auto with stops. }
  destruct (S1 _ _ _ _ E) as (L & K1 & K2). split.
  - intros R. destruct (K1 R) as (n & k & _ & O & T). exists n, k. now split.
  - exact K2.
Qed.
