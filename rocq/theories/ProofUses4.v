(** * The dependency reports of a project, and when there are none *)
From Coq Require Import Ascii String List ZArith Lia Bool Sorted.
From Verif Require Import Base MemMap SpecTree SpecOps MapFile Deps SpecDeps Filter SpecFilter Pipeline SpecPipe PyStr SpecMap ProofMap4 ProofMap5 ProofMap6 ProofDeps ProofDeps2 ProofDot
  ElfRead SpecElf Project SpecProject ProofProject1 ProofProject2 SpecEnd ProofEnd Chips Table SpecTable Formats Main SpecMain ProofMain Command SpecCommand SpecFail SpecReport
  ProofCommand1 ProofReport3 ProofReport4 ProofFail1 ProofFail2 ProofFail3 ProofFail4 SpecUses ProofUses1 ProofUses2 ProofUses3.
Import ListNotations.
Open Scope list_scope.
Open Scope Z_scope.

Section Done.
Variables (d : disk) (c : cmd) (k : account) (es : list SpecMap.entry) (ys : list (str * xsym)) (o : oracle) (files : list (str * str)) (s : state).
Variables (render : console -> list piece -> str) (encode : str -> str) (ord : set_order) (pf : pct_format).
Notation a := (c_args c).
Hypotheses (Dp : dep_project d c k es ys) (As : asks_deps a) (SI : set_iteration ord)
  (R : run_files d (get_memory_types chip_info) render encode ord pf c o (start files) = (Done tt, s)).

Lemma format_archives : a_format a = FJson2 \/ a_format a = FTable \/ a_format a = FText \/ a_format a = FCsv -> a_archives a = false /\ given (a_archive_details a) = false.
Proof. destruct As as (_ & _ & H). intros F. destruct H as [H|[H|[H|H]]]; [| | |exact H]; exfalso; rewrite H in F; intuition congruence. Qed.

Lemma json_done : a_format a = FJson2 \/ a_format a = FRaw ->
  exists r ds, s_printed s = [PDeps r] /\ depreport_right k es ys a (fun _ => True) ds /\ Forall2 (dep_object k) ds r.
Proof.
  intros Fo. destruct (dep_core _ _ _ _ _ _ _ _ _ _ _ _ Dp As R) as (x & M & fu & fn & fo & s1 & s2 & Fi & Eo & Cr & Sy & P1 & Sh & P2 & _).
  destruct As as (Ad & Au & _). unfold show in Sh. change (a_format (final_args a)) with (a_format a) in Sh. subst ord.
  assert (X : exists r t, get_archives_dependencies (x_order x) (x_crt x) M (x_syms x) (final_args a) = Ok r /\ s_printed t = s_printed s1 /\ print (PDeps r) o t = (Done tt, s2)).
  { destruct Fo as [Fo|Fo].
    - destruct (format_archives (or_introl Fo)) as (A1 & A2). rewrite Fo in Sh. unfold json_show in Sh. change (a_archives (final_args a)) with (a_archives a) in Sh.
      change (a_archive_details (final_args a)) with (a_archive_details a) in Sh. change (a_archive_dependencies (final_args a)) with (a_archive_dependencies a) in Sh. rewrite A1, A2, Ad in Sh.
      apply andthen_done in Sh. destruct Sh as (r & t & E & Sh). apply cod_done in E. destruct E as (E & Q). exists r, t. now split.
    - rewrite Fo in Sh. unfold raw_show in Sh. change (a_archive_dependencies (final_args a)) with (a_archive_dependencies a) in Sh. rewrite Ad in Sh.
      apply andthen_done in Sh. destruct Sh as (r & t & E & Sh). apply cod_done in E. destruct E as (E & Q). exists r, t. now split. }
  destruct X as (r & t & E & Q & Pr). apply print_done in Pr. exists r, (content r). split; [rewrite P2, Pr, Q, P1; reflexivity|]. eapply all_right; eassumption.
Qed.

Lemma tree_done : a_format a = FTree ->
  exists ds groups, s_printed s = [PTree ((0%nat, dep_title a) :: concat groups)] /\ depreport_right k es ys a (fun _ => True) ds /\ Forall2 (dep_branch k a) ds groups.
Proof.
  intros Fo. destruct (dep_core _ _ _ _ _ _ _ _ _ _ _ _ Dp As R) as (x & M & fu & fn & fo & s1 & s2 & Fi & Eo & Cr & Sy & P1 & Sh & P2 & _).
  destruct As as (Ad & Au & _). unfold show in Sh. change (a_format (final_args a)) with (a_format a) in Sh. subst ord. rewrite Fo in Sh. unfold tree_show in Sh.
  change (a_archive_dependencies (final_args a)) with (a_archive_dependencies a) in Sh. rewrite Ad in Sh. apply andthen_done in Sh. destruct Sh as (r & t & E & Sh). apply cod_done in E. destruct E as (E & Q).
  destruct (all_right k es ys a M fu fn fo x Fi Ad SI Cr Sy r E) as (Dr & Ob). destruct (tree_right k a Au _ _ Ob) as (groups & Eg & Fg). apply print_done in Sh.
  exists (content r), groups. split; [|now split]. rewrite P2, Sh, Q, P1, Eg. reflexivity.
Qed.

Lemma table_deps_done ps : a_format a = FTable \/ a_format a = FText \/ a_format a = FCsv -> asked_filter a ps ->
  exists tb ds rows, prints a s tb /\ tb_headers tb = dep_headers a /\ tb_rows tb = concat rows /\
    depreport_right k es ys a (fun x => exists n, shown_archive a x n /\ selected ps n) ds /\ Forall2 (dep_rows_right k a) ds rows.
Proof.
  intros Fo Fp. destruct (dep_core _ _ _ _ _ _ _ _ _ _ _ _ Dp As R) as (x & M & fu & fn & fo & s1 & s2 & Fi & Eo & Cr & Sy & P1 & Sh & P2 & N2).
  destruct (format_archives (or_intror Fo)) as (A1 & A2). destruct As as (Ad & Au & _). subst ord.
  destruct (prints_done _ _ _ _ _ _ _ Sh P1 P2 N2 Fo) as (tb & t & t' & Et & Pr & _). unfold table_of in Et.
  change (a_archives (final_args a)) with (a_archives a) in Et. change (a_archive_details (final_args a)) with (a_archive_details a) in Et.
  change (a_archive_dependencies (final_args a)) with (a_archive_dependencies a) in Et. rewrite A1, A2, Ad in Et. apply cod_done in Et. destruct Et as (Et & _).
  unfold get_archives_dependencies_table in Et. destruct (get_archives_dependencies _ _ _ _ _) as [r|] eqn:E; [|discriminate]. cbn [bind] in Et. injection Et as <-.
  destruct (filter_right k es ys a M fu fn fo x Fi Ad Au SI Cr Sy r E ps Fp) as (Dr & Ob).
  destruct (table_right k es ys a Au _ _ _ Dr Ob) as (Eh & rows & Er & Fr).
  eexists _, _, rows. split; [exact Pr|]. split; [exact Eh|]. split; [exact Er|]. split; [exact Dr|exact Fr].
Qed.

Lemma dot_done ps : a_format a = FDot -> asked_filter a ps ->
  exists ds lines, s_printed s = [PDot lines] /\ depreport_right k es ys a (fun x => exists n, shown_archive a x n /\ selected ps n) ds /\ graph_right k a ds lines.
Proof.
  intros Fo Fp. destruct (dep_core _ _ _ _ _ _ _ _ _ _ _ _ Dp As R) as (x & M & fu & fn & fo & s1 & s2 & Fi & Eo & Cr & Sy & P1 & Sh & P2 & _).
  destruct As as (Ad & Au & _). unfold show in Sh. change (a_format (final_args a)) with (a_format a) in Sh. subst ord. rewrite Fo in Sh. unfold dot_show_prog in Sh.
  apply andthen_done in Sh. destruct Sh as (lines & t & E & Sh). apply cod_done in E. destruct E as (E & Q). apply print_done in Sh.
  assert (X : exists r, get_archives_dependencies (x_order x) (x_crt x) M (x_syms x) (final_args a) = Ok r).
  { unfold dot_show in E. destruct (negb _); [discriminate|]. destruct (get_archives_dependencies _ _ _ _ _) as [r|]; [|discriminate]. now exists r. }
  destruct X as (r & Er). destruct (filter_right k es ys a M fu fn fo x Fi Ad Au SI Cr Sy r Er ps Fp) as (Dr & Ob).
  pose proof (graph_is k es ys a M fu fn fo x Fi Ad Au SI Cr Sy r Er ps lines Fp E) as G. cbv zeta in G.
  eexists _, lines. split; [rewrite P2, Sh, Q, P1; reflexivity|]. split; [exact Dr|exact G].
Qed.
End Done.

(** ** when there is a report *)
Lemma no_table rs l lines m crt : printed_map rs l crt lines -> crt = None \/ crt = Some [] -> map_file lines = Ok m -> pm_crt m = None.
Proof.
  intros P [->| ->] H; destruct (printed_map_reads _ _ _ _ _ P H) as (_ & _ & E); exact E.
Qed.

Section Any.
Variables (d : disk) (render : console -> list piece -> str) (encode : str -> str) (ord : set_order) (pf : pct_format) (c : cmd).
Variables (dir name text : str) (rs : list region) (l : list printed) (crt : option (list SpecMap.entry)) (im : option (list (str * xshdr))) (t : str).
Notation a := (c_args c).
Hypotheses (L : linked d dir name text rs l crt im t) (Ei : c_input c = in_dir dir name) (Nd : without_dwarf d dir a) (On : on_chip rs t)
  (Fr : a_format a <> FRaw) (Gd : given (a_archive_details a) = false) (Nx : a_archive_dependencies a = true \/ given (a_diff a) = false)
  (Sy : im = None \/ exists ys, symbols_of d dir name ys).
Notation chips := (get_memory_types chip_info).
Notation an := (analyse (load_symbols (final_args a)) ord pf (projects_of d chips a) (c_input c) (final_args a)).

Lemma no_diff_final : given (a_diff (final_args a)) = false.
Proof. cbn. unfold conflict_diff. destruct Nx as [->|Nx']; cbn [andb]; [now destruct (given (a_diff a)) eqn:G|]. now rewrite Nx', andb_false_r. Qed.
Lemma dep_ls : load_symbols a = false.
Proof. unfold load_symbols. rewrite Gd. destruct (a_format a); try reflexivity. now destruct Fr. Qed.
Lemma deps_read : exists syms, dep_symbols d (in_dir dir name) = Ok syms.
Proof.
  destruct Sy as [Hn|(ys & Hy)]; [|eexists; apply symbols_deps; [apply L|apply L|exact Hy]].
  destruct L as [D P _ _ _ Im _]. subst im. unfold dep_symbols.
  assert (Loc : forall app fn, located dir app fn -> path_join (dirname (in_dir dir name)) app = fn).
  { intros app fn Lo. pose proof (join_located dir name app D (proper_noslash _ P)) as Lo'. destruct Lo as [(Q & ->)|(Q & ->)], Lo' as [(Q' & E')|(Q' & E')]; tauto. }
  inversion Im as [U|o app fn Ed M Lo F|o app fn Ed M Lo B|]; subst.
  - rewrite (undescribed_desc name P d dir D U). cbn [bind get_elf]. eexists. reflexivity.
  - rewrite (described_desc d dir name D P o app Ed M). cbn [bind get_elf jindex]. rewrite (proj1 M). cbn [bind jstr]. rewrite (Loc _ _ Lo), F. eexists. reflexivity.
  - rewrite (described_desc d dir name D P o app Ed M). cbn [bind get_elf jindex]. rewrite (proj1 M). cbn [bind jstr]. rewrite (Loc _ _ Lo). unfold load_elf_file. rewrite B.
    destruct (d_isfile d fn); eexists; reflexivity.
Qed.
Lemma deps_world w : load_world d chips (in_dir dir name) false (dwarf_option a) = Ok w -> p_world (projects_of d chips a (in_dir dir name)) = w.
Proof.
  intros Lw. unfold projects_of. rewrite dep_ls. unfold load_project. cbn [p_world]. rewrite Lw, abspath_in by apply L. destruct deps_read as (syms & ->). reflexivity.
Qed.
Lemma deps_analyse : goes an (fun xm => exists e, x_order (fst xm) = ord /\ x_crt (fst xm) = p_crt (projects_of d chips a (in_dir dir name)) /\
  x_syms (fst xm) = match e with Some _ => Some (p_syms (projects_of d chips a (in_dir dir name))) | None => None end /\ elf_matches im e).
Proof.
  destruct On as (types & Kt & Rm). apply known_chip in Kt.
  assert (N : no_dwarf d dir (dwarf_option a)) by (apply dwarf_of; assumption).
  destruct (linked_world d dir name text rs l crt im t L chips (dwarf_option a) N) as (w & e & mf & Lw & _ & Wm & We & M & Wc & _ & _ & G).
  destruct (linked_builds d dir name text rs l crt im t L types e Rm) as (r & B).
  specialize (G (Some mf) e (or_intror eq_refl)). rewrite Kt in G. cbn [bind] in G. rewrite B in G. cbn [bind] in G.
  unfold analyse. rewrite final_load, dep_ls, Ei. cbn zeta. pose proof (deps_world w Lw) as Dw. rewrite Dw.
  eapply goes_andthen; [eapply goes_compute; [exact Wm|apply eq_refl]|]. intros mf0 <-.
  eapply goes_andthen; [eapply goes_compute; [exact We|apply eq_refl]|]. intros e0 <-.
  eapply goes_andthen; [eapply goes_compute; [rewrite final_dwarf; exact G|apply eq_refl]|]. intros mm <-.
  eapply goes_andthen; [|intros m' _; apply goes_ret; exists e; cbn; repeat split; exact M].
  unfold compare. pose proof no_diff_final as Df. destruct (a_diff (final_args a)) as [[|ch q]|]; [|discriminate Df|]; apply (goes_ret _ (fun _ => True)); exact I.
Qed.

Lemma crt_of : p_crt (projects_of d chips a (in_dir dir name)) = match map_text text with Ok pm => pm_crt pm | Err _ => None end.
Proof. unfold projects_of, load_project. cbn [p_crt]. rewrite abspath_in by apply L. unfold read_map. now rewrite (lk_text _ _ _ _ _ _ _ _ _ L). Qed.

Lemma dead_show x m : get_archives_dependencies (x_order x) (x_crt x) m (x_syms x) (final_args a) = Err SystemExit -> a_archive_dependencies a = true ->
  (a_format a = FTree \/ a_format a = FDot \/ a_archives a = false) -> dies (show x m (final_args a)).
Proof.
  intros E Ad Fo. unfold show. change (a_format (final_args a)) with (a_format a).
  assert (D : forall A (f : A -> prog unit), dies (andthen (@die A) f)). { intros A f q. exact (dies_die q). }
  assert (T : a_archives a = false -> table_of x m (final_args a) = die).
  { intros A1. unfold table_of. change (a_archives (final_args a)) with (a_archives a). change (a_archive_details (final_args a)) with (a_archive_details a).
    change (a_archive_dependencies (final_args a)) with (a_archive_dependencies a). rewrite A1, Gd, Ad. unfold get_archives_dependencies_table. now rewrite E. }
  assert (TS : a_archives a = false -> dies (table_show x m (final_args a))).
  { intros A1. unfold table_show. rewrite (T A1). change (a_archives (final_args a)) with (a_archives a). change (a_archive_details (final_args a)) with (a_archive_details a).
    change (a_archive_dependencies (final_args a)) with (a_archive_dependencies a). rewrite A1, Gd, Ad. cbn [negb andb]. eapply dies_andthen; [now apply (goes_ret tt (fun _ => True))|]. intros _ _. apply D. }
  destruct (a_format a) eqn:Ef.
  - apply TS. destruct Fo as [Fo|[Fo|Fo]]; [discriminate Fo|discriminate Fo|exact Fo].
  - apply TS. destruct Fo as [Fo|[Fo|Fo]]; [discriminate Fo|discriminate Fo|exact Fo].
  - unfold tree_show. change (a_archive_dependencies (final_args a)) with (a_archive_dependencies a). rewrite Ad, E. apply D.
  - unfold csv_show. rewrite T; [apply D|]. destruct Fo as [Fo|[Fo|Fo]]; [discriminate Fo|discriminate Fo|exact Fo].
  - unfold json_show. change (a_archives (final_args a)) with (a_archives a). change (a_archive_details (final_args a)) with (a_archive_details a).
    change (a_archive_dependencies (final_args a)) with (a_archive_dependencies a). destruct Fo as [Fo|[Fo|Fo]]; [discriminate Fo|discriminate Fo|]. rewrite Fo, Gd, Ad, E. apply D.
  - congruence.
  - unfold dot_show_prog, dot_show. change (a_archive_dependencies (final_args a)) with (a_archive_dependencies a). rewrite Ad. cbn [negb]. rewrite E. apply D.
Qed.

Lemma no_report s : asks_deps a -> crt = None \/ crt = Some [] \/ im = None -> diagnosed s (run_files d chips render encode ord pf c no_faults s).
Proof.
  intros As H. unfold run_files. eapply run_dies; [exact deps_analyse|]. intros x m (e & Eo & Ec & Es & Me). cbn [fst] in Eo, Ec, Es.
  destruct As as (Ad & _ & Fo). apply dead_show; [|exact Ad|].
  2:{ destruct Fo as [Fo|[Fo|[Fo|(Fo & _)]]]; [congruence|now left|right; now left|right; now right]. }
  rewrite Ec, Es, crt_of. unfold get_archives_dependencies.
  destruct (match map_text text with Ok pm => pm_crt pm | Err _ => None end) as [tb|] eqn:Et; [|reflexivity].
  destruct (map_text text) as [pm|] eqn:Em; [|discriminate]. unfold map_text in Em.
  assert (Hi : im = None).
  { destruct H as [H|[H|H]]; [| |exact H]; exfalso; assert (X : pm_crt pm = None) by (eapply no_table; [apply L| |exact Em]; [now left + now right]); congruence. }
  rewrite Hi in Me. destruct e; [contradiction|]. reflexivity.
Qed.

Lemma no_graph s : a_format a = FDot -> a_archive_dependencies a = false -> diagnosed s (run_files d chips render encode ord pf c no_faults s).
Proof.
  intros Fo Ad. unfold run_files. eapply run_dies; [exact deps_analyse|]. intros x m _. unfold show. change (a_format (final_args a)) with (a_format a). rewrite Fo.
  unfold dot_show_prog, dot_show. change (a_archive_dependencies (final_args a)) with (a_archive_dependencies a). rewrite Ad. cbn [negb]. intros q. exact (dies_die q).
Qed.

Lemma reports es ys s : set_iteration ord -> asks_deps a -> crt = Some es -> es <> [] -> symbols_of d dir name ys ->
  exists s', run_files d chips render encode ord pf c no_faults s = (Done tt, s').
Proof.
  intros SI (Ad & Au & Fo) Ec0 Ne Hy. unfold run_files. eapply run_finishes; [exact deps_analyse|]. intros x m (e & Eo & Ec & Es & Me). cbn [fst] in Eo, Ec, Es.
  assert (Em : exists pm, map_text text = Ok pm).
  { destruct (linked_map _ _ _ _ _ _ _ _ _ L) as (tg & Lm & _). unfold load_map, read_map in Lm. rewrite (lk_text _ _ _ _ _ _ _ _ _ L) in Lm. destruct (map_text text) as [pm|]; [now exists pm|discriminate]. }
  destruct Em as (pm & Em). rewrite crt_of, Em in Ec. unfold map_text in Em.
  assert (Hc : exists tb, pm_crt pm = Some tb /\ proper_crt tb).
  { pose proof (lk_map _ _ _ _ _ _ _ _ _ L) as Pm. rewrite Ec0 in Pm. destruct (crt_map _ _ _ _ _ Pm Em) as (_ & K). destruct (pm_crt pm) as [tb|] eqn:Et.
    - exists tb. split; [reflexivity|]. eapply map_crt_proper; eassumption.
    - exfalso. destruct es as [|e0 q]; [now apply Ne|]. discriminate K. }
  destruct Hc as (tb & Et & Pt). rewrite Et in Ec.
  assert (He : e <> None).
  { intros ->. destruct im as [hs|]; [contradiction Me|]. destruct Hy as (o & app & fn & file & Ed & M & Lo & F & B & _). pose proof (lk_image _ _ _ _ _ _ _ _ _ L) as Im.
    inversion Im as [U|o' app' fn' Ed' M' Lo' F'|o' app' fn' Ed' M' Lo' B'|]; subst.
    - eapply undescribed_not; eassumption.
    - rewrite Ed in Ed'. injection Ed' as <-. pose proof (proj1 M) as G. rewrite (proj1 M') in G. injection G as ->. destruct Lo as [(Q & ->)|(Q & ->)], Lo' as [(Q' & ->)|(Q' & ->)]; try contradiction; congruence.
    - rewrite Ed in Ed'. injection Ed' as <-. pose proof (proj1 M) as G. rewrite (proj1 M') in G. injection G as ->. destruct Lo as [(Q & ->)|(Q & ->)], Lo' as [(Q' & ->)|(Q' & ->)]; try contradiction; congruence. }
  destruct e as [v|]; [|contradiction].
  destruct (report_describes ord tb m (p_syms (projects_of d chips a (in_dir dir name))) (final_args a) SI Pt) as (r & Er & _). rewrite <- Eo, <- Es, <- Ec in Er.
  unfold show. change (a_format (final_args a)) with (a_format a).
  assert (G : forall A (q : res A) y f, q = Ok y -> (forall z, finishes (f z)) -> finishes (andthen (compute_or_die q) f)).
  { intros A q y f -> H. eapply (finishes_andthen _ _ (fun _ => True)); [eapply goes_compute; [reflexivity|exact I]|]. intros z _. apply H. }
  assert (Tb : a_archives a = false -> forall f, (forall z, finishes (f z)) -> finishes (andthen (table_of x m (final_args a)) f)).
  { intros A1 f H. unfold table_of. change (a_archives (final_args a)) with (a_archives a). change (a_archive_details (final_args a)) with (a_archive_details a).
    change (a_archive_dependencies (final_args a)) with (a_archive_dependencies a). rewrite A1, Gd, Ad. eapply G; [|exact H]. unfold get_archives_dependencies_table. rewrite Er. reflexivity. }
  assert (TS : a_archives a = false -> finishes (table_show x m (final_args a))).
  { intros A1. unfold table_show. change (a_archives (final_args a)) with (a_archives a) at 1. change (a_archive_details (final_args a)) with (a_archive_details a) at 1.
    change (a_archive_dependencies (final_args a)) with (a_archive_dependencies a) at 1. rewrite A1, Gd, Ad. cbn [negb andb]. apply finishes_two; [apply finishes_ret|]. apply Tb; [exact A1|].
    intros z. apply finishes_two; [apply finishes_print|]. destruct (is_summary _); [apply finishes_two; apply finishes_tell|apply finishes_ret]. }
  destruct (a_format a) eqn:Ef.
  - apply TS. destruct Fo as [Fo|[Fo|[Fo|Fo]]]; try discriminate Fo. apply Fo.
  - apply TS. destruct Fo as [Fo|[Fo|[Fo|Fo]]]; try discriminate Fo. apply Fo.
  - unfold tree_show. change (a_archive_dependencies (final_args a)) with (a_archive_dependencies a). rewrite Ad. eapply G; [exact Er|]. intros; apply finishes_print.
  - unfold csv_show. apply Tb; [|intros; apply finishes_print_all]. destruct Fo as [Fo|[Fo|[Fo|Fo]]]; try discriminate Fo. apply Fo.
  - unfold json_show. change (a_archives (final_args a)) with (a_archives a). change (a_archive_details (final_args a)) with (a_archive_details a).
    change (a_archive_dependencies (final_args a)) with (a_archive_dependencies a). destruct Fo as [Fo|[Fo|[Fo|(Fo & _)]]]; try discriminate Fo. rewrite Fo, Gd, Ad. eapply G; [exact Er|]. intros; apply finishes_print.
  - congruence.
  - unfold dot_show_prog. eapply G; [|intros; apply finishes_print]. unfold dot_show. change (a_archive_dependencies (final_args a)) with (a_archive_dependencies a). rewrite Ad. cbn [negb]. rewrite Er. reflexivity.
Qed.
End Any.
