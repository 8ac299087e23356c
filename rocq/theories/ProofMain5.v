From Coq Require Import Ascii String List ZArith Lia Bool.
From Verif Require Import Base MemMap SpecTree SpecOps SpecTable SpecPipe SpecShape Filter Pipeline PyStr MapFile Deps Table Formats Main SpecMain ProofLetters
  ProofOps ProofBuild ProofShape ProofMain ProofMain2 ProofMain4.
Import ListNotations.
Open Scope list_scope.
Open Scope Z_scope.

(** what a completed program has printed and reported *)
Definition emits {A} (m : prog A) (P : A -> list piece -> list note -> Prop) : Prop := forall o s a s', m o s = (Done a, s') ->
  exists ps ns, s_printed s' = s_printed s ++ ps /\ s_notes s' = s_notes s ++ ns /\ P a ps ns.

Lemma emits_weaken {A} (m : prog A) (P Q : A -> list piece -> list note -> Prop) : emits m P -> (forall a ps ns, P a ps ns -> Q a ps ns) -> emits m Q.
Proof. intros H I o s a s' E. destruct (H _ _ _ _ E) as (ps & ns & E1 & E2 & E3). exists ps, ns. auto. Qed.
Lemma emits_ret {A} (a : A) (P : A -> list piece -> list note -> Prop) : P a [] [] -> emits (ret a) P.
Proof. intros H o s a' s' E. injection E as <- <-. exists [], []. rewrite !app_nil_r. auto. Qed.
Lemma emits_andthen {A B} (m : prog A) (f : A -> prog B) P Q : emits m P ->
  (forall a ps ns, P a ps ns -> emits (f a) (fun b qs ms => Q b (ps ++ qs) (ns ++ ms))) -> emits (andthen m f) Q.
Proof.
  intros H K o s b s' E. unfold andthen in E. destruct (m o s) as [[a|e|] s1] eqn:M; try discriminate E.
  destruct (H _ _ _ _ M) as (ps & ns & E1 & E2 & E3). destruct (K _ _ _ E3 _ _ _ _ E) as (qs & ms & F1 & F2 & F3).
  exists (ps ++ qs), (ns ++ ms). rewrite F1, F2, E1, E2, !app_assoc. auto.
Qed.
Lemma emits_compute {A} (r : res A) : emits (compute r) (fun a ps ns => r = Ok a /\ ps = [] /\ ns = []).
Proof.
  intros o s a s' E. unfold compute, andthen in E. destruct (tick o s) as [[[]|e|] s1] eqn:T; try discriminate E.
  apply tick_done in T. subst s1. destruct r as [x|]; inversion E; subst. exists [], []. rewrite !app_nil_r. cbn. auto.
Qed.
Lemma emits_print p : emits (print p) (fun _ ps ns => ps = [p] /\ ns = []).
Proof.
  intros o s a s' E. unfold print, andthen in E. destruct (tick o s) as [[[]|e|] s1] eqn:T; try discriminate E.
  apply tick_done in T. subst s1. injection E as <- <-. exists [p], []. rewrite app_nil_r. cbn. auto.
Qed.
Lemma emits_tell n : emits (tell n) (fun _ ps ns => ps = [] /\ ns = [n]).
Proof.
  intros o s a s' E. unfold tell, andthen in E. destruct (tick o s) as [[[]|e|] s1] eqn:T; try discriminate E.
  apply tick_done in T. subst s1. injection E as <- <-. exists [], [n]. rewrite app_nil_r. cbn. auto.
Qed.
Lemma emits_console c : emits (set_console c) (fun _ ps ns => ps = [] /\ ns = []).
Proof.
  intros o s a s' E. unfold set_console, andthen in E. destruct (tick o s) as [[[]|e|] s1] eqn:T; try discriminate E.
  apply tick_done in T. subst s1. injection E as <- <-. exists [], []. rewrite !app_nil_r. cbn. auto.
Qed.
Lemma emits_die {A} (P : A -> list piece -> list note -> Prop) : emits die P.
Proof.
  unfold die. eapply emits_andthen; [apply emits_tell|]. intros u ps ns _. eapply emits_weaken; [apply emits_compute|].
  intros a qs ms (E & _). discriminate E.
Qed.
Lemma emits_table t : emits (table_result t) (fun x ps ns => t = TOk x /\ ps = [] /\ ns = []).
Proof. destruct t; [apply emits_ret; auto|apply emits_die]. Qed.
Lemma emits_cod {A} (r : res A) : emits (compute_or_die r) (fun a ps ns => r = Ok a /\ ps = [] /\ ns = []).
Proof. destruct r as [a|[]]; try apply emits_compute. apply emits_die. Qed.
Lemma emits_print_all l : emits (print_all l) (fun _ ps ns => ps = l /\ ns = []).
Proof.
  induction l as [|p l IH]; [apply emits_ret; auto|]. cbn [print_all]. eapply emits_andthen; [apply emits_print|]. intros _ ps ns [-> ->].
  eapply emits_weaken; [exact IH|]. intros _ qs ms [-> ->]. auto.
Qed.

(** ** --diff with the project itself *)

Definition quiet {A} (P : A -> Prop) : A -> list piece -> list note -> Prop := fun a ps ns => ps = [] /\ ns = [] /\ P a.

Section Diff.
  Variable ord : set_order.
  Variable pf : pct_format.
  Variable projects : str -> project.

  Lemma compare_self ls i a m0 mf : a_diff a = Some i -> i <> [] ->
    get (p_world (projects i)) ls (a_use_dwarf a) None None = Ok (m0, mf) ->
    emits (compare ls projects a (prepare a m0)) (quiet (agreeing a)).
  Proof.
    intros E N G. unfold compare. rewrite E. destruct i as [|c d]; [contradiction|]. rewrite G.
    eapply emits_andthen; [apply emits_compute|]. intros [r mf'] ps ns (E1 & -> & ->). injection E1 as <- <-. cbn zeta.
    set (r := if a_show_unused a then m0 else remove_unused m0).
    assert (W : wf_map r). { apply get_pristine' in G. destruct G as [W _]. unfold r. destruct (a_show_unused a); [exact W|apply wf_remove_unused, W]. }
    assert (P : (if a_use_flash_size a then prepare a m0 else ignore_flash_size (prepare a m0)) = (if a_use_flash_size a then r else ignore_flash_size r)).
    { unfold prepare. fold r. destruct (a_use_flash_size a); [reflexivity|]. rewrite ignore_flash_idem. reflexivity. }
    rewrite P. pose proof (same_agreeing a r W) as Z. pose proof Z as ((_ & Zt & _) & _). rewrite <- Zt, keq_refl.
    eapply emits_andthen; [apply (emits_ret tt (fun _ ps ns => ps = [] /\ ns = [])); auto|]. intros _ ps ns [-> ->].
    apply emits_ret. cbn [app]. split; [reflexivity|]. split; [reflexivity|]. exact Z.
  Qed.

  Lemma analyse_self ls i a : a_diff a = Some i -> i <> [] ->
    emits (analyse ls ord pf projects i a) (quiet (fun xm => agreeing a (snd xm) /\ x_pct (fst xm) = pf)).
  Proof.
    intros E N. unfold analyse. eapply emits_andthen; [apply emits_compute|]. intros mf ps ns (E1 & -> & ->).
    eapply emits_andthen; [apply emits_compute|]. intros e ps ns (E2 & -> & ->).
    eapply emits_andthen; [apply emits_compute|]. intros [m0 mf'] ps ns (E3 & -> & ->).
    assert (G : get (p_world (projects i)) ls (a_use_dwarf a) None None = Ok (m0, mf')).
    { rewrite <- E3. unfold get. cbn [load_mapfile]. rewrite E1. reflexivity. }
    eapply emits_andthen; [apply (compare_self ls i a m0 mf' E N G)|]. intros m ps ns (-> & -> & Z). apply emits_ret. cbn [app].
    split; [reflexivity|]. split; [reflexivity|]. cbn [fst snd x_pct]. split; [|reflexivity].
    destruct (a_unify a); [apply unify_agreeing|]; exact Z.
  Qed.

  Lemma show_self x m a : given (a_diff a) = true -> a_archive_dependencies a = false -> x_pct x = pf -> agreeing a m ->
    emits (show x m a) (fun _ ps ns => zero_report pf (skipped a) ps /\ Forall zero_note ns).
  Proof.
    intros Gd Ad Px Z. pose proof (agreeing_zmap a m Z) as Zm.
    assert (T : emits (table_of x m a) (quiet (zero_table pf))).
    { unfold table_of. rewrite Ad. destruct (a_archives a).
      { eapply emits_weaken; [apply emits_table|]. intros t ps ns (E & -> & ->). split; [reflexivity|]. split; [reflexivity|].
        eapply zentries_table; [exact Gd| |exact E]. apply zfiltered, zarchives, Zm. }
      destruct (given (a_archive_details a)).
      { eapply emits_andthen; [apply emits_cod|]. intros t ps ns (E & -> & ->). unfold get_symbols_table in E.
        destruct (get_symbols_summary m a) as [d|] eqn:Es; [|discriminate E]. cbn [bind] in E. injection E as <-.
        eapply emits_weaken; [apply emits_table|]. intros t ps ns (E & -> & ->). split; [reflexivity|]. split; [reflexivity|].
        eapply zentries_table; [exact Gd| |exact E]. apply zfiltered. eapply zsymbols; eassumption. }
      destruct (a_files a).
      { eapply emits_weaken; [apply emits_table|]. intros t ps ns (E & -> & ->). split; [reflexivity|]. split; [reflexivity|].
        eapply zentries_table; [exact Gd| |exact E]. apply zfiltered, zobjects, Zm. }
      eapply emits_weaken; [apply emits_table|]. intros t ps ns (E & -> & ->). split; [reflexivity|]. split; [reflexivity|].
      rewrite Px in E. eapply zsummary_table; eassumption. }
    assert (Tab : emits (table_show x m a) (fun _ ps ns => zero_report pf (skipped a) ps /\ Forall zero_note ns)).
    { unfold table_show. rewrite Ad, !andb_false_r. eapply emits_andthen.
      { unfold show_diff_info. rewrite Gd. apply emits_tell. }
      intros _ ps ns [-> ->]. eapply emits_andthen; [exact T|]. intros t ps ns (-> & -> & Zt).
      eapply emits_andthen; [apply emits_print|]. intros _ ps ns [-> ->].
      assert (D : zero_note (DiffInfo (m_project_path m) (m_project_path_diff m))) by (destruct Z as ((_ & _ & Zp & _) & _); symmetry; exact Zp).
      assert (R : zero_report pf (skipped a) [PTable t]) by (right; constructor; [exact Zt|constructor]).
      destruct (is_summary a).
      - eapply emits_andthen; [apply emits_tell|]. intros _ ps ns [-> ->]. eapply emits_weaken; [apply emits_tell|]. intros _ ps ns [-> ->].
        cbn [app]. split; [exact R|]. constructor; [exact D|]. constructor; [exact (proj1 Zm)|]. constructor; [exact Logic.I|constructor].
      - apply emits_ret. cbn [app]. split; [exact R|]. constructor; [exact D|constructor]. }
    assert (One : forall p, zero_piece pf (skipped a) p -> emits (print p) (fun _ ps ns => zero_report pf (skipped a) ps /\ Forall zero_note ns)).
    { intros p Zp. eapply emits_weaken; [apply emits_print|]. intros _ ps ns [-> ->]. split; [right; constructor; [exact Zp|constructor]|constructor]. }
    unfold show. destruct (a_format a); try exact Tab.
    - unfold tree_show. rewrite Ad. apply One. apply ztree; assumption.
    - unfold csv_show. eapply emits_andthen; [exact T|]. intros t ps ns (-> & -> & Zt). eapply emits_weaken; [apply emits_print_all|].
      intros _ ps ns [-> ->]. split; [left; exists t; auto|constructor].
    - unfold json_show. rewrite Ad. destruct (a_archives a); [apply One; apply zse_entries, zsorted, zarchives, Zm|].
      destruct (given (a_archive_details a)).
      { eapply emits_andthen; [apply emits_cod|]. intros d ps ns (E & -> & ->). eapply emits_weaken; [apply (One (PEntries (get_summary_sorted d a)))|].
        - apply zse_entries, zsorted. eapply zsymbols; eassumption.
        - auto. }
      destruct (a_files a); [apply One; apply zse_entries, zsorted, zobjects, Zm|]. apply One. exact Logic.I.
    - unfold raw_show. rewrite Ad. apply One. exact (proj1 Z).
    - unfold dot_show_prog. eapply emits_andthen; [apply emits_cod|]. intros d ps ns (E & -> & ->). eapply emits_weaken; [apply (One (PDot d) Logic.I)|]. auto.
  Qed.

  Variable render : console -> list piece -> str.
  Variable encode : str -> str.

  Lemma normalise_diff a : a_archive_dependencies a = false ->
    emits (normalise a) (fun b ps ns => ps = [] /\ Forall zero_note ns /\ a_diff b = a_diff a /\ a_archive_dependencies b = false /\ a_use_flash_size b = a_use_flash_size a).
  Proof.
    intros Ad. unfold normalise. eapply emits_andthen.
    { instantiate (1 := fun b ps ns => ps = [] /\ Forall zero_note ns /\ a_diff b = a_diff a /\ a_archive_dependencies b = false /\ a_use_flash_size b = a_use_flash_size a).
      destruct (a_no_abbrev a && a_unify a).
      - eapply emits_andthen; [apply emits_tell|]. intros _ ps ns [-> ->]. apply emits_ret. cbn [app]. split; [reflexivity|].
        split; [constructor; [exact Logic.I|constructor]|]. cbn. auto.
      - apply emits_ret. split; [reflexivity|]. split; [constructor|]. auto. }
    intros b ps ns (-> & F & H1 & H2 & H3). rewrite H2. cbn [andb]. eapply emits_andthen.
    { apply (emits_ret b (fun b' ps ns => b' = b /\ ps = [] /\ ns = [])). auto. }
    intros b' ps ns' (-> & -> & ->). apply emits_ret. rewrite !app_nil_r. split; [reflexivity|]. split; [exact F|]. cbn. auto.
  Qed.

  Lemma write_quiet fn text o s u s' : write_output_file fn text o s = (Done u, s') -> s_printed s' = s_printed s /\ s_notes s' = s_notes s.
  Proof.
    assert (Md : forall l o s u s', mkdirs l o s = (Done u, s') -> s_printed s' = s_printed s /\ s_notes s' = s_notes s).
    { clear. induction l as [|d l IH]; intros o s u s' E; [inversion E; auto|]. cbn [mkdirs] in E. unfold andthen at 1 in E.
      destruct (mkdir d o s) as [[[]|e|] s1] eqn:M; try discriminate E. apply IH in E.
      unfold mkdir, andthen in M. destruct (tick o s) as [[[]|e|] s2] eqn:T; try discriminate M. apply tick_done in T. subst s2. injection M as <-. exact E. }
    unfold write_output_file, handle. unfold andthen at 1 2. intros E.
    destruct (mkdirs (above [] fn) o s) as [[[]|e|] s1] eqn:M.
    3: discriminate E.
    2: { destruct e; try discriminate E. destruct (emits_die (fun _ _ _ => False) _ _ _ _ E) as (? & ? & _ & _ & []). }
    apply Md in M. destruct (open_truncate fn o s1) as [[[]|e|] s2] eqn:Op.
    3: discriminate E.
    2: { destruct e; try discriminate E. destruct (emits_die (fun _ _ _ => False) _ _ _ _ E) as (? & ? & _ & _ & []). }
    unfold open_truncate, andthen in Op. destruct (tick o s1) as [[[]|e|] s3] eqn:T; try discriminate Op. apply tick_done in T. subst s3. injection Op as <-.
    unfold write in E. destruct (o _) as [[[e|] k]|].
    - destruct e; try discriminate E. destruct (emits_die (fun _ _ _ => False) _ _ _ _ E) as (? & ? & _ & _ & []).
    - discriminate E.
    - injection E as _ <-. exact M.
  Qed.

  Lemma self_diff c o s s1 : a_diff (c_args c) = Some (c_input c) -> c_input c <> [] -> a_archive_dependencies (c_args c) = false ->
    run_cmd render encode ord pf projects c o s = (Done tt, s1) ->
    exists ps ns, s_printed s1 = s_printed s ++ ps /\ s_notes s1 = s_notes s ++ ns /\ Forall zero_note ns /\
      zero_report pf (fun t => negb (a_use_flash_size (c_args c)) && is_flash t) ps.
  Proof.
    intros Ed Ni Ad E. unfold run_cmd, run_with, handle in E. unfold andthen at 1 in E.
    destruct (report load_symbols ord pf projects c o s) as [x s2] eqn:R.
    destruct x as [[]|e|]; [| |discriminate E].
    2: { destruct (on_exception e) as [k|] eqn:K; [|discriminate E]. destruct (handler_raises _ _ _ _ _ _ K E). }
    assert (P : emits (report load_symbols ord pf projects c)
      (fun _ ps ns => zero_report pf (fun t => negb (a_use_flash_size (c_args c)) && is_flash t) ps /\ Forall zero_note ns)).
    { unfold report. eapply emits_andthen; [apply emits_console|]. intros _ ps ns [-> ->].
      eapply emits_andthen; [apply normalise_diff; exact Ad|]. intros b ps ns (-> & F & H1 & H2 & H3). cbn zeta.
      eapply emits_andthen; [apply analyse_self; [cbn [set_use_dwarf a_diff]; rewrite H1; exact Ed|exact Ni]|].
      intros [x m] ps ms (-> & -> & Z & Px). cbn [fst snd] in Z, Px.
      eapply emits_weaken; [apply (show_self x m (set_use_dwarf (dwarf_option b) b))|].
      - cbn [set_use_dwarf a_diff]. rewrite H1, Ed. destruct (c_input c); [contradiction|reflexivity].
      - exact H2.
      - exact Px.
      - exact Z.
      - intros _ ps ms [Q1 Q2]. cbn [app] in *. split; [|apply Forall_app; auto].
        unfold skipped in Q1. cbn [set_use_dwarf a_use_flash_size] in Q1. rewrite H3 in Q1. exact Q1. }
    destruct (P _ _ _ _ R) as (ps & ns & E1 & E2 & Q1 & Q2). exists ps, ns.
    assert (S : s_printed s1 = s_printed s2 /\ s_notes s1 = s_notes s2).
    { unfold finish in E. destruct (a_output_file (c_args c)) as [[|h fn]|]; try (inversion E; auto; fail).
      destruct (write_output_file _ _ o s2) as [y s3] eqn:Wr. destruct y as [[]|e|]; [| |discriminate E].
      - inversion E; subst. eapply write_quiet; exact Wr.
      - destruct (on_exception e) as [k|] eqn:K; [|discriminate E]. destruct (handler_raises _ _ _ _ _ _ K E). }
    destruct S as [-> ->]. auto.
  Qed.
End Diff.

Lemma flash_spec t : is_flash t = true <-> flash_name t.
Proof. unfold is_flash. rewrite contains_spec. symmetry. apply ProofLetters.flash_lower. Qed.

Lemma self_diff_shown render encode ord pf projects c o s s1 :
  a_diff (c_args c) = Some (c_input c) -> c_input c <> [] -> a_archive_dependencies (c_args c) = false ->
  run_cmd render encode ord pf projects c o s = (Done tt, s1) ->
  exists ps ns skip, s_printed s1 = s_printed s ++ ps /\ s_notes s1 = s_notes s ++ ns /\
    (forall t, skip t = true <-> a_use_flash_size (c_args c) = false /\ flash_name t) /\
    zero_report pf skip ps /\ Forall zero_note ns.
Proof.
  intros H1 H2 H3 E. destruct (self_diff ord pf projects render encode c o s s1 H1 H2 H3 E) as (ps & ns & E1 & E2 & E3 & E4).
  exists ps, ns. eexists. split; [exact E1|]. split; [exact E2|]. split; [|split; [exact E4|exact E3]].
  intros t. cbv beta. rewrite andb_true_iff, flash_spec, negb_true_iff. reflexivity.
Qed.

(** C67 *)
Lemma prefix_written render encode ord pf projects c fn o s r s' :
  output c fn -> run_cmd render encode ord pf projects c o s = (r, s') ->
  (forall other, other <> fn -> dget other (s_files s') = dget other (s_files s)) /\
  (dget fn (s_files s') = dget fn (s_files s) \/
   exists s1 k, run_cmd render encode ord pf projects (to_stdout c) no_faults s = (Done tt, s1) /\
     dget fn (s_files s') = Some (firstn k (encode (render (file_console c) (s_printed s1))))).
Proof.
  intros O E. destruct (run_files _ _ _ _ _ _ _ _ _ _ E) as [[-> _]|(fn' & s1 & O' & E1 & [W|[k W]])]; [auto|rewrite W; auto|].
  assert (fn' = fn) as -> by (destruct O as [A _], O' as [B _]; congruence). rewrite W. split.
  - intros other N. apply dget_dset_neq. congruence.
  - right. exists s1, k. split; [exact E1|]. apply dget_dset_eq.
Qed.

(** C68 *)
Lemma conflicts_dropped render encode ord pf projects c s r s1 :
  run_cmd render encode ord pf projects c no_faults s = (r, s1) ->
  exists s2 l, run_cmd render encode ord pf projects (with_args c (without_conflicts (c_args c))) no_faults s = (r, s2) /\
    s_files s2 = s_files s1 /\ s_dirs s2 = s_dirs s1 /\ s_console s2 = s_console s1 /\ s_printed s2 = s_printed s1 /\
    s_notes s1 = s_notes s ++ conflict_warnings (c_args c) ++ l /\ s_notes s2 = s_notes s ++ l.
Proof.
  intros E. destruct (conflicts_run _ _ _ _ _ _ _ _ _ _ E) as (s2 & l & E2 & ((L1 & L2 & L3) & L4) & N1 & N2). exists s2, l. auto 10.
Qed.

Lemma andthen_ext_done {A B} (m : prog A) (f g : A -> prog B) o s : (forall a s', m o s = (Done a, s') -> f a o s' = g a o s') -> andthen m f o s = andthen m g o s.
Proof. intros H. unfold andthen. destruct (m o s) as [[a|e|] s'] eqn:E; auto. Qed.

Lemma normalise_keeps a o s b s' : normalise a o s = (Done b, s') -> a_archive_details b = a_archive_details a /\ a_format b = a_format a.
Proof.
  unfold normalise, andthen, ret. destruct (a_no_abbrev a && a_unify a).
  - destruct (tell WarnNoAbbrev o s) as [[u|e|] s1]; try discriminate. cbn. destruct (_ && _).
    + destruct (tell WarnDiff o s1) as [[u'|e|] s2]; try discriminate. intros E. injection E as <- <-. auto.
    + intros E. injection E as <- <-. auto.
  - destruct (_ && _).
    + destruct (tell WarnDiff o s) as [[u'|e|] s2]; try discriminate. intros E. injection E as <- <-. auto.
    + intros E. injection E as <- <-. auto.
Qed.

Lemma symbols_loaded render encode ord pf projects c o s :
  given (a_archive_details (c_args c)) = true \/ a_format (c_args c) = FRaw ->
  run_cmd render encode ord pf projects c o s = run_with render encode (fun _ => true) ord pf projects c o s.
Proof.
  intros H. unfold run_cmd, run_with, handle.
  assert (R : forall t, report load_symbols ord pf projects c o t = report (fun _ => true) ord pf projects c o t).
  { intros t. unfold report. apply andthen_ext_done. intros _ t1 _. apply andthen_ext_done. intros b t2 N. cbn zeta.
    apply normalise_keeps in N. destruct N as [N1 N2]. unfold load_symbols. cbn [set_use_dwarf a_archive_details a_format]. rewrite N1, N2.
    replace (given (a_archive_details (c_args c)) || is_raw (a_format (c_args c))) with true; [reflexivity|].
    destruct H as [->| ->]; [reflexivity|]. rewrite orb_true_r. reflexivity. }
  assert (Q : andthen (report load_symbols ord pf projects c) (fun _ => finish render encode c) o s =
              andthen (report (fun _ => true) ord pf projects c) (fun _ => finish render encode c) o s).
  { unfold andthen. rewrite R. reflexivity. }
  rewrite Q. reflexivity.
Qed.
