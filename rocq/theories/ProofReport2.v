From Coq Require Import Ascii String List ZArith Lia Bool Permutation Sorted.
From Verif Require Import Base MemMap SpecTree SpecOps Filter Pipeline SpecPipe SpecBuild SpecBytes SpecShape ProofOps ProofTrim ProofDiff ProofDiff2 ProofSummary ProofSummary2 ProofSummary3 Fixtures ProofBuild ProofRegions ProofTypes ProofBytes ProofBytes2 ProofBytes3 ProofShape PyStr MapFile SpecMap
  ElfRead SpecElf Project SpecProject ProofProject2 SpecEnd ProofEnd Chips SpecChips ProofChips Deps Table SpecTable Formats ProofFormats Main SpecMain ProofMain ProofMain4 ProofMain5 Command SpecCommand SpecFail SpecReport
  ProofCommand1 ProofCommand2 ProofCommand3 ProofCommand4 ProofCommand5 ProofReport1.
Import ListNotations.
Open Scope list_scope.
Open Scope Z_scope.

(** ** the options as if the size of flash were used *)
Definition with_flash (a : args) : args :=
  Args (a_format a) (a_archives a) (a_archive_dependencies a) (a_dep_symbols a) (a_dep_reverse a) (a_archive_details a) (a_files a)
    (a_diff a) (a_no_abbrev a) (a_abbrev a) (a_unify a) (a_show_unused a) (a_show_unchanged a) true (a_use_dwarf a)
    (a_output_file a) (a_sort a) (a_filter a) (a_sort_diff a) (a_sort_reverse a).

Lemma ignore_flash_twice m : ignore_flash_size (ignore_flash_size m) = ignore_flash_size m.
Proof.
  unfold ignore_flash_size. cbn [with_types m_types]. unfold with_types. cbn. f_equal. unfold dmapk. rewrite map_map. apply map_ext. intros [T t]. cbn [fst snd].
  destruct (is_flash T); reflexivity.
Qed.
Lemma prepare_flash a m : (if a_use_flash_size a then prepare a m else ignore_flash_size (prepare a m)) = prepare a m.
Proof. unfold prepare. destruct (a_use_flash_size a); [reflexivity|]. apply ignore_flash_twice. Qed.

Lemma finish_quiet render encode c o s u s' : finish render encode c o s = (Done u, s') -> s_printed s' = s_printed s /\ s_notes s' = s_notes s.
Proof. unfold finish. destruct (a_output_file (c_args c)) as [[|h fn]|]; intros E; [inversion E; now subst|now apply write_quiet in E|inversion E; now subst]. Qed.

(** ** a command that is done, with or without a reference *)
Section Cmd.
  Variables (render : console -> list piece -> str) (encode : str -> str) (ord : set_order) (pf : pct_format) (projects : str -> project).
  Lemma run_any c o s s' : run_cmd render encode ord pf projects c o s = (Done tt, s') ->
    let a := final_args (c_args c) in let p := projects (c_input c) in
    exists mf e m mf' x M s1 s2, w_mapfile (p_world p) = Ok mf /\ w_elf (p_world p) = Ok e /\
      get (p_world p) (load_symbols a) (a_use_dwarf a) (Some mf) e = Ok (m, mf') /\
      x = Extras (p_crt p) (match e with Some _ => Some (p_syms p) | None => None end) ord pf /\
      ((given (a_diff a) = false /\ M = prepare a m) \/
       exists fn r mf2, a_diff a = Some fn /\ fn <> [] /\ get (p_world (projects fn)) (load_symbols a) (a_use_dwarf a) None None = Ok (r, mf2) /\
         M = diff (prepare a m) (prepare (with_flash a) r)) /\
      s_printed s1 = s_printed s /\ show x (if a_unify a then unify M else M) a o s1 = (Done tt, s2) /\ s_printed s' = s_printed s2 /\ s_notes s' = s_notes s2.
  Proof.
    intros E a p. unfold run_cmd, run_with, handle in E.
    destruct ((run _ <- report load_symbols ord pf projects c; finish render encode c) o s) as [[u|e|] s3] eqn:R.
    2:{ destruct (on_exception e) as [k|] eqn:X; [|discriminate]. exfalso. eapply handler_raises; eassumption. }
    2:{ discriminate. }
    inversion E; subst u s3. apply andthen_done in R. destruct R as ([] & s2 & R & F). apply finish_quiet in F. destruct F as (F & F').
    unfold report in R. apply andthen_done in R. destruct R as (u1 & t1 & C & R).
    assert (Pc : s_printed t1 = s_printed s). { apply console_step in C. destruct C as (_ & _ & (C & _) & _). exact C. }
    apply andthen_done in R. destruct R as (a0 & t2 & N & R). apply normalise_done in N. destruct N as (-> & Pn).
    assert (R' : (run (x, m) <- analyse (load_symbols a) ord pf projects (c_input c) a; show x m a) o t2 = (Done tt, s2)) by exact R. clear R. rename R' into R.
    apply andthen_done in R. destruct R as ([x m1] & t3 & An & Sh). unfold analyse in An. fold p in An. cbn zeta in An.
    apply andthen_done in An. destruct An as (mf & q1 & A1 & An). apply compute_done in A1. destruct A1 as (A1 & P1).
    apply andthen_done in An. destruct An as (e & q2 & A2 & An). apply compute_done in A2. destruct A2 as (A2 & P2).
    apply andthen_done in An. destruct An as ([m mf'] & q3 & A3 & An). apply compute_done in A3. destruct A3 as (A3 & P3).
    apply andthen_done in An. destruct An as (m2 & q4 & A4 & An). apply ret_done in An. destruct An as (An & ->). injection An as -> ->.
    assert (H4 : ((given (a_diff a) = false /\ m2 = prepare a m) \/
       exists fn r mf2, a_diff a = Some fn /\ fn <> [] /\ get (p_world (projects fn)) (load_symbols a) (a_use_dwarf a) None None = Ok (r, mf2) /\
         m2 = diff (prepare a m) (prepare (with_flash a) r)) /\ s_printed q4 = s_printed q3).
    { unfold compare in A4. destruct (a_diff a) as [[|ch fn]|] eqn:Ed; try (apply ret_done in A4; destruct A4 as (-> & ->); split; [left; split; [reflexivity|reflexivity]|reflexivity]).
      apply andthen_done in A4. destruct A4 as ([r mf2] & q5 & B1 & A4). apply compute_done in B1. destruct B1 as (B1 & Q1).
      cbv zeta in A4. rewrite prepare_flash in A4. apply andthen_done in A4. destruct A4 as (u2 & q6 & B2 & A4). apply ret_done in A4. destruct A4 as (-> & ->).
      assert (Q2 : s_printed q6 = s_printed q5).
      { destruct (m_target _ =?= _); [apply ret_done in B2; destruct B2 as (_ & ->); reflexivity|now apply tell_done in B2]. }
      split; [|congruence]. right. exists (ch :: fn), r, mf2. split; [reflexivity|]. split; [discriminate|]. split; [exact B1|reflexivity]. }
    destruct H4 as (H4 & P4). exists mf, e, m, mf', (Extras (p_crt p) (match e with Some _ => Some (p_syms p) | None => None end) ord pf), m2, q4, s2.
    do 3 (split; [assumption|]). split; [reflexivity|]. split; [exact H4|]. split; [congruence|]. split; [exact Sh|]. now split.
  Qed.
End Cmd.

Lemma load_project_ref d chips input ls ud deps m mf' : let p := load_project d chips ls ud deps input in
  get (p_world p) ls ud None None = Ok (m, mf') -> get_files d chips input ls ud = Ok m.
Proof.
  intros p G. assert (X : exists mf e, w_mapfile (p_world p) = Ok mf /\ w_elf (p_world p) = Ok e /\ get (p_world p) ls ud (Some mf) e = Ok (m, mf')).
  { unfold get, load_mapfile in G. destruct (w_mapfile (p_world p)) as [mf|x] eqn:M; [|destruct x; discriminate]. cbn [bind] in G.
    destruct (w_elf (p_world p)) as [e|x] eqn:E; [|discriminate]. exists mf, e. split; [reflexivity|]. split; [reflexivity|].
    unfold get, load_mapfile. cbn [bind]. cbn [bind] in G. destruct e as [f|]; rewrite ?E; cbn [bind]; exact G. }
  destruct X as (mf & e & M & E & G'). subst p. eapply load_project_get; eassumption.
Qed.

Lemma command_any d chips render encode ord pf c o files s : run_files d chips render encode ord pf c o (start files) = (Done tt, s) ->
  a_unify (c_args c) = false -> a_archive_dependencies (c_args c) = false -> let a := final_args (c_args c) in
  exists m x M s1 s2, get_files d chips (c_input c) (load_symbols (c_args c)) (dwarf_option (c_args c)) = Ok m /\
    x_order x = ord /\ x_pct x = pf /\
    ((given (a_diff (c_args c)) = false /\ M = prepare (c_args c) m) \/
     exists fn r, a_diff (c_args c) = Some fn /\ fn <> [] /\ get_files d chips fn (load_symbols (c_args c)) (dwarf_option (c_args c)) = Ok r /\
       M = diff (prepare (c_args c) m) (prepare (with_flash (c_args c)) r)) /\
    s_printed s1 = [] /\ show x M a o s1 = (Done tt, s2) /\ s_printed s = s_printed s2 /\ s_notes s = s_notes s2.
Proof.
  intros R Au Ad a. apply run_any in R. destruct R as (mf & e & m & mf' & x & M & s1 & s2 & Mf & E & G & X & D & P1 & Sh & P2 & N2).
  change (a_unify (final_args (c_args c))) with (a_unify (c_args c)) in Sh. rewrite Au in Sh.
  rewrite final_load, final_dwarf in G.
  assert (Da : a_diff (final_args (c_args c)) = a_diff (c_args c)). { cbn. unfold conflict_diff. rewrite Ad. reflexivity. }
  exists m, x, M, s1, s2. split; [eapply load_project_get; eassumption|]. rewrite X. split; [reflexivity|]. split; [reflexivity|]. rewrite Da, ?final_load, ?final_dwarf in D. rewrite <- X.
  split; [|repeat (split; [assumption|]); exact N2].
  destruct D as [(D & ->)|(fn & r & mf2 & D & Nf & Gr & ->)]; [left; split; [exact D|reflexivity]|]. right. exists fn, r. split; [exact D|]. split; [exact Nf|]. split; [|reflexivity].
  eapply load_project_ref. exact Gr.
Qed.

(** ** the map of a project *)
Lemma built_ledger d dir name text rs l crt im types a ls ud m :
  built d dir name text rs l crt im types -> get_files d (get_memory_types chip_info) (in_dir dir name) ls ud = Ok m -> no_dwarf d dir ud ->
  (a_show_unused a = true \/ filled im types l) -> exists lu ln lo, ledger a (Account rs l im types) (prepare a m) lu ln lo.
Proof.
  intros Bt G Nd Fi. destruct (built_map _ _ _ _ _ _ _ _ _ Bt _ _ _ G Nd) as (keep & b & groups & K & Bb & Pr & Gr & Ks & Im & H).
  pose proof (names_distinct _ _ _ _ _ _ _ _ _ Bt keep K) as Nm. assert (Wd : wf_dict (m_types m)) by apply Pr.
  destruct (prepare_types a m) as (E1 & E2).
  { intros Su T t It. pose proof It as Et. apply In_dget in Et; [|exact Wd]. destruct (H T t Et) as (_ & _ & L1 & L2 & U).
    split; [exact U|]. destruct Fi as [Fi|Fi]; [congruence|]. intros n sx Isx.
    assert (Ws : wf_dict (t_sections t)). { destruct Pr as ((_ & W2) & _). rewrite Forall_forall in W2. specialize (W2 _ It). apply W2. }
    apply In_dget in Isx; [|exact Ws]. destruct (L2 n sx Isx) as (o' & Io & Co & En). specialize (L1 o' Io Co). rewrite En, Isx in L1.
    eapply listed_filled; eassumption. }
  assert (Se : Forall (fun o => counted im o -> section_mapped rs types (printed_section o) /\ items_in o) l).
  { eapply Forall_impl; [|apply (bt_sections _ _ _ _ _ _ _ _ _ Bt)]. intros q Hq Cq. split; apply Hq, Cq. }
  assert (Sz : Forall (fun o => Forall (fun i => 0 <= it_size i) (pr_items o)) l).
  { eapply Forall_impl; [|apply (printed_nonneg _ _ _ _ (bt_map _ _ _ _ _ _ _ _ _ Bt))]. intros q (_ & Hq). eapply Forall_impl; [|exact Hq]. intros i Hi. apply Hi. }
  do 3 eexists. eapply (ledger_of rs l im types m a keep b groups Se Sz K Bb Pr Nm Ks); try eassumption; try (intros T t Et; apply (H T t Et)).
  transitivity (m_image_size_diff m); [|apply Pr]. unfold prepare. destruct (a_show_unused a), (a_use_flash_size a); reflexivity.
Qed.

Lemma without_dwarf_option d dir a : without_dwarf d dir a -> (given (a_archive_details a) = true -> a_use_dwarf a <> Some true) -> a_format a <> FRaw -> no_dwarf d dir (dwarf_option a).
Proof.
  unfold without_dwarf, dwarf_option. destruct (a_use_dwarf a) as [[|]|]; [|auto|auto]. intros (A1 & A2) D F. left. rewrite A1, A2.
  destruct (given (a_archive_details a)); [exfalso; now apply D|]. destruct (a_format a); try reflexivity. congruence.
Qed.
