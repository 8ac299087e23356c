(** * Reports on the symbols of an archive: the command *)
From Coq Require Import Ascii String List ZArith Lia Bool.
From Verif Require Import Base MemMap SpecTree SpecOps Filter Pipeline SpecPipe SpecBuild ProofRegions ProofSplit ProofBuild ProofSummary ProofSummary2 PyStr MapFile SpecMap Deps Table SpecTable ProofTable ProofTable2 Formats ElfRead Dwarf SpecElf Project SpecProject ProofProject1 ProofProject2 Chips Main SpecMain ProofMain Command SpecEnd ProofEnd SpecCommand SpecFail SpecReport SpecSyms SpecSymbols
  ProofCommand1 ProofFail1 ProofFail2 ProofFail3 ProofFail4 ProofReport2 ProofSymbols1 ProofSymbols2 ProofSymbols3 ProofSymbols4 SpecFits ProofFits1 ProofFits2.
Import ListNotations.
Open Scope list_scope.
Open Scope Z_scope.

(** ** the two memory maps *)
Definition obtained (d : disk) chips (ud : option bool) (fn : str) (m : memmap) : Prop := exists w e mf mf', load_world d chips fn true ud = Ok w /\
  w_mapfile w = Ok mf /\ w_elf w = Ok e /\ get w true ud (Some mf) e = Ok (m, mf') /\ get w true ud None None = Ok (m, mf').
Definition denied (d : disk) chips (ud : option bool) (fn : str) (x : exn) : Prop := exists w e mf, load_world d chips fn true ud = Ok w /\
  w_mapfile w = Ok mf /\ w_elf w = Ok e /\ get w true ud (Some mf) e = Err x /\ get w true ud None None = Err x.

Notation shipped := (get_memory_types chip_info).
Lemma fitting_obtained d a fn : fitting_project d a fn -> exists m, obtained d shipped (dwarf_option a) fn m.
Proof.
  intros (dir & name & text & rs & l & crt & im & t & ys & -> & L & N & S & F & types & G & R).
  destruct (symbols_world d dir name text rs l crt im t ys L S shipped (dwarf_option a) (no_dwarf_option _ _ _ N)) as (w & e & mf & Lw & Wm & We & M & Sm & Get).
  destruct (symbols_build d dir name text rs l crt im t ys L S types e M Sm R F) as (r & B).
  eexists. exists w, e, mf. eexists. split; [exact Lw|]. split; [exact Wm|]. split; [exact We|].
  split; (rewrite Get by auto); rewrite (known_chip _ _ G); cbn [bind]; rewrite B; reflexivity.
Qed.
Lemma misfitting_denied d a fn : misfitting_project d a fn -> denied d shipped (dwarf_option a) fn MemMapException.
Proof.
  intros (dir & name & text & rs & l & crt & im & t & ys & y & -> & L & N & S & I & W & Ne & F & types & G & R).
  destruct (symbols_world d dir name text rs l crt im t _ L S shipped (dwarf_option a) (no_dwarf_option _ _ _ N)) as (w & e & mf & Lw & Wm & We & M & Sm & Get).
  pose proof (symbols_refused d dir name text rs l crt im t _ L types e ys y M Sm R eq_refl I W Ne F) as B.
  exists w, e, mf. split; [exact Lw|]. split; [exact Wm|]. split; [exact We|]. split; (rewrite Get by auto); rewrite (known_chip _ _ G); cbn [bind]; rewrite B; reflexivity.
Qed.
Lemma empty_denied d a fn : empty_project d a fn -> denied d shipped (dwarf_option a) fn IndexError.
Proof.
  intros (dir & name & text & rs & l & crt & im & t & ys & -> & L & N & S & Ne & types & G & R).
  destruct (symbols_world d dir name text rs l crt im t _ L S shipped (dwarf_option a) (no_dwarf_option _ _ _ N)) as (w & e & mf & Lw & Wm & We & M & Sm & Get).
  pose proof (nothing_placed d dir name text rs l crt im t _ L types e ys M Sm R eq_refl Ne) as B.
  exists w, e, mf. split; [exact Lw|]. split; [exact Wm|]. split; [exact We|]. split; (rewrite Get by auto); rewrite (known_chip _ _ G); cbn [bind]; rewrite B; reflexivity.
Qed.
Lemma obtained_files d chips ud fn m : obtained d chips ud fn m -> get_files d chips fn true ud = Ok m.
Proof.
  intros (w & e & mf & mf' & Lw & Wm & We & G & _). pose proof (world_plain d chips true ud fn w Lw) as Wp.
  eapply (load_project_get d chips fn true ud false mf e m mf'); cbv zeta; rewrite Wp; eassumption.
Qed.

Section Run.
Variables (d : disk) (ord : set_order) (pf : pct_format) (c : cmd) (x : str).
Notation a := (c_args c).
Hypotheses (Ax : asked_symbols a x) (Au : a_unify a = false) (Ad : a_archive_dependencies a = false) (Fd : a_format a <> FDot).
Notation pr := (projects_of d shipped a).
Notation an := (analyse (load_symbols (final_args a)) ord pf pr (c_input c) (final_args a)).

Lemma ask_ls : load_symbols a = true.
Proof. destruct Ax as (_ & E & N). unfold load_symbols. rewrite E. now destruct x. Qed.
Lemma ask_deps : needs_deps a = false.
Proof. unfold needs_deps. rewrite Ad. destruct (a_format a); try reflexivity. now destruct Fd. Qed.
Lemma ask_projects fn : pr fn = load_project d shipped true (dwarf_option a) false fn.
Proof. unfold projects_of. now rewrite ask_ls, ask_deps. Qed.
Lemma ask_diff : a_diff (final_args a) = a_diff a.
Proof. unfold final_args, without_conflicts, conflict_diff. cbn. now rewrite Ad. Qed.

Lemma denied_stops e : denied d shipped (dwarf_option a) (c_input c) e -> stops an e.
Proof.
  intros (w & f & mf & Lw & Wm & We & G & _). unfold analyse. rewrite final_load, ask_ls, ask_projects, (world_plain _ _ _ _ _ _ Lw). cbn zeta.
  eapply stops_andthen; [eapply goes_compute; [exact Wm|apply eq_refl]|]. intros mf0 <-.
  eapply stops_andthen; [eapply goes_compute; [exact We|apply eq_refl]|]. intros e0 <-.
  apply stops_first. apply stops_compute. rewrite final_dwarf. exact G.
Qed.
Lemma obtained_then m : obtained d shipped (dwarf_option a) (c_input c) m ->
  (forall Q, goes (compare true pr (final_args a) (prepare a m)) Q -> goes an (fun xm => Q (snd xm))) /\
  (forall e, stops (compare true pr (final_args a) (prepare a m)) e -> stops an e).
Proof.
  intros (w & f & mf & mf' & Lw & Wm & We & G & _). unfold analyse. rewrite final_load, ask_ls, (ask_projects (c_input c)), (world_plain _ _ _ _ _ _ Lw). cbn zeta.
  change (a_unify (final_args a)) with (a_unify a). rewrite Au. split.
  - intros Q Hc.
    eapply goes_andthen; [eapply goes_compute; [exact Wm|apply eq_refl]|]. intros mf0 <-.
    eapply goes_andthen; [eapply goes_compute; [exact We|apply eq_refl]|]. intros e0 <-.
    eapply goes_andthen; [eapply goes_compute; [exact G|apply eq_refl]|]. intros mm <-.
    eapply goes_andthen; [exact Hc|]. intros m' Hq. apply goes_ret. exact Hq.
  - intros e Hc.
    eapply stops_andthen; [eapply goes_compute; [exact Wm|apply eq_refl]|]. intros mf0 <-.
    eapply stops_andthen; [eapply goes_compute; [exact We|apply eq_refl]|]. intros e0 <-.
    eapply stops_andthen; [eapply goes_compute; [exact G|apply eq_refl]|]. intros mm <-.
    apply stops_first. exact Hc.
Qed.
Lemma no_ref m : given (a_diff a) = false -> goes (compare true pr (final_args a) m) (fun m' => m' = m).
Proof. intros G. unfold compare. rewrite ask_diff. destruct (a_diff a) as [[|ch q]|]; try (now apply goes_ret). discriminate G. Qed.
Lemma ref_goes fn m r : a_diff a = Some fn -> fn <> [] -> obtained d shipped (dwarf_option a) fn r ->
  goes (compare true pr (final_args a) (prepare a m)) (fun m' => m' = diff (prepare a m) (prepare (with_flash a) r)).
Proof.
  intros E N (w & f & mf & mf' & Lw & _ & _ & _ & G). unfold compare. rewrite ask_diff, E. destruct fn as [|ch q]; [contradiction|].
  eapply goes_andthen; [eapply goes_compute|]; [|apply eq_refl|].
  - rewrite ask_projects, (world_plain _ _ _ _ _ _ Lw), final_dwarf. exact G.
  - intros mm <-. cbv zeta. change (a_use_flash_size (final_args a)) with (a_use_flash_size a). rewrite prepare_flash. eapply goes_andthen; [|intros _ _; apply goes_ret; reflexivity].
    match goal with |- goes (if ?b then _ else _) _ => destruct b end; [now apply (goes_ret tt (fun _ => True))|now apply goes_tell].
Qed.
Lemma ref_stops fn m e : a_diff a = Some fn -> fn <> [] -> denied d shipped (dwarf_option a) fn e -> stops (compare true pr (final_args a) m) e.
Proof.
  intros E N (w & f & mf & Lw & _ & _ & _ & G). unfold compare. rewrite ask_diff, E. destruct fn as [|ch q]; [contradiction|]. apply stops_first, stops_compute.
  rewrite ask_projects, (world_plain _ _ _ _ _ _ Lw), final_dwarf. exact G.
Qed.

Lemma fitting_name fn : fitting_project d a fn \/ misfitting_project d a fn -> fn <> [].
Proof.
  intros [(dir & name & text & rs & l & crt & im & t & ys & -> & L & _)|(dir & name & text & rs & l & crt & im & t & ys & y & -> & L & _)];
    destruct (lk_name _ _ _ _ _ _ _ _ _ L) as (N & _); now apply in_dir_some.
Qed.
(** the map that is shown *)
Lemma shown_goes q r : symbols_reported d c q r -> fitting_project d a (c_input c) -> fitting_reference d a ->
  goes an (fun xm => exists fo, sfinal a q r (snd xm) fo).
Proof.
  intros (Pk & Rr & _ & _) Fm Fr. destruct (fitting_obtained _ _ _ Fm) as (m & Om). apply (proj1 (obtained_then m Om) (fun M => exists fo, sfinal a q r M fo)). apply obtained_files in Om.
  destruct Pk as (dir & name & text & crt & k & ys & Ci & Bt & Nd & Fi & Sy & Cs & ->). rewrite Ci in Om. destruct k as [rs l im types]. cbn [ac_rs ac_l ac_im ac_types] in *.
  destruct (built_sledger _ _ _ _ _ _ _ _ _ ys a _ _ Bt Om (no_dwarf_option _ _ _ Nd) Fi Sy Cs) as (ln & ls & L).
  destruct r as [q'|].
  - destruct Rr as (fn & E & Rp). destruct Fr as [Fr|(fn' & E' & Fr)]; [|rewrite E in E'; injection E' as <-].
    { destruct Rp as (dir' & name' & text' & crt' & k' & ys' & En & Bt' & _). exfalso. rewrite E in Fr. destruct fn; [|discriminate Fr].
      destruct (bt_name _ _ _ _ _ _ _ _ _ Bt') as (Pn & _). symmetry in En. now apply (in_dir_some dir' name') in En. }
    destruct (fitting_obtained _ _ _ Fr) as (r & Or). pose proof (ref_goes fn m r E (fitting_name fn (or_introl Fr)) Or) as Gd. apply obtained_files in Or.
    destruct Rp as (dir' & name' & text' & crt' & k' & ys' & En & Bt' & Nd' & Fi' & Sy' & Cs' & ->). rewrite En in Or.
    destruct k' as [rs' l' im' types']. cbn [ac_rs ac_l ac_im ac_types] in *.
    destruct (built_sledger _ _ _ _ _ _ _ _ _ ys' (with_flash a) _ _ Bt' Or (no_dwarf_option _ _ _ Nd') Fi' Sy' Cs') as (ln' & ls' & R').
    intros s. destruct (Gd s) as (m' & s' & E1 & Q1 & ->). do 2 eexists. split; [exact E1|]. split; [exact Q1|]. eexists. eapply sfinal_diff; eassumption.
  - intros s. destruct (no_ref (prepare a m) Rr s) as (m' & s' & E1 & Q1 & ->). do 2 eexists. split; [exact E1|]. split; [exact Q1|]. eexists. apply (sfinal_alone _ _ _ _ _ L).
Qed.

(** ** printing it *)
Definition tabled : Prop := a_format a = FTable \/ a_format a = FText \/ a_format a = FCsv.
Section Show.
Variables (q : account) (r : option account) (M : memmap) (fo : (item -> bool) -> str -> str -> Z * Z) (e : extras).
Hypothesis F : sfinal a q r M fo.
Let W : wf_map M := sf_wf _ _ _ _ _ F.
Lemma found : (exists i, symbol_of x q r i) -> exists base, get_symbols_summary M (final_args a) = Ok base.
Proof.
  intros (i & P & Al). destruct Ax as (_ & E & _). destruct (proj2 (sf_places _ _ _ _ _ F (it_archive i) (it_object i) (it_name i))) as (T & N & Lk); [eauto|].
  destruct (get_symbols_summary M (final_args a)) as [b|x0] eqn:G; [eauto|]. exfalso.
  assert (x0 = SystemExit). { unfold get_symbols_summary in G. destruct (symbols_walk M _); [now injection G|discriminate]. } subst x0.
  apply Lk. rewrite <- (sym_val_named a x q r M fo F T N _ _ _ Al). apply (proj1 (symbols_not_found M (final_args a) x W E) G).
Qed.
Lemma not_found : ~ (exists i, symbol_of x q r i) -> get_symbols_summary M (final_args a) = Err SystemExit.
Proof.
  intros H. destruct Ax as (_ & E & _). apply (symbols_not_found M (final_args a) x W E). intros T N ar ob y. destruct (sym_val M x T N ar ob y) eqn:V; [|reflexivity]. exfalso. apply H.
  assert (V' : sym_val M x T N ar ob y <> None) by congruence. apply (sym_val_some a x q r M fo F) in V'. destruct V' as (Al & Lk).
  destruct (proj1 (sf_places _ _ _ _ _ F ar ob y)) as (i & P & Ei & _); [eauto|]. exists i. split; [exact P|]. now rewrite Ei.
Qed.
Lemma show_format : show e M (final_args a) = match a_format a with FJson2 => json_show e M (final_args a) | FCsv => csv_show e M (final_args a) | FTable | FText => table_show e M (final_args a) | _ => show e M (final_args a) end.
Proof. unfold show. change (a_format (final_args a)) with (a_format a). destruct (a_format a); reflexivity. Qed.
Lemma details_table : table_of e M (final_args a) = (run t <- compute_or_die (get_symbols_table M (final_args a)); table_result t).
Proof.
  destruct Ax as (A1 & A2 & A3). unfold table_of. change (a_archives (final_args a)) with (a_archives a). change (a_archive_details (final_args a)) with (a_archive_details a).
  now rewrite A1, A2, (given_some x A3).
Qed.
Lemma details_json : json_show e M (final_args a) = (run s <- compute_or_die (get_symbols_summary M (final_args a)); print (PEntries (get_summary_sorted s (final_args a)))).
Proof.
  destruct Ax as (A1 & A2 & A3). unfold json_show. change (a_archives (final_args a)) with (a_archives a). change (a_archive_details (final_args a)) with (a_archive_details a).
  now rewrite A1, A2, (given_some x A3).
Qed.
Lemma shown_finishes : (exists i, symbol_of x q r i) -> a_format a = FJson2 \/ tabled /\ names_column (map list_ascii_of_string ["Name"; "Total Size"]%string) (a_sort a) 1 ->
  finishes (show e M (final_args a)).
Proof.
  intros H Fo. destruct (found H) as (base & B). rewrite show_format.
  assert (Tb : names_column (map list_ascii_of_string ["Name"; "Total Size"]%string) (a_sort a) 1 -> goes (table_of e M (final_args a)) (fun _ => True)).
  { intros Nc. rewrite details_table. unfold get_symbols_table. rewrite B. cbn [bind compute_or_die].
    destruct (total_column (final_args a) (list_ascii_of_string "Symbol") (get_summary_filtered base (final_args a))) as (tb & Et); [discriminate|exact Nc|].
    eapply goes_andthen; [eapply goes_compute; [reflexivity|apply eq_refl]|]. intros t <-. rewrite Et. now apply goes_ret. }
  assert (Ts : names_column (map list_ascii_of_string ["Name"; "Total Size"]%string) (a_sort a) 1 -> finishes (table_show e M (final_args a))).
  { intros Nc. unfold table_show. change (a_archive_dependencies (final_args a)) with (a_archive_dependencies a). rewrite Ad, andb_false_r.
    eapply finishes_andthen; [apply goes_diff_info|]. intros _ _. eapply finishes_andthen; [now apply Tb|]. intros t _. apply finishes_two; [apply finishes_print|].
    destruct (is_summary (final_args a)); [|apply finishes_ret]. apply finishes_two; apply finishes_tell. }
  destruct Fo as [Fo|([Fo|[Fo|Fo]] & Nc)]; rewrite Fo; [|now apply Ts|now apply Ts|].
  - rewrite details_json, B. cbn [compute_or_die]. eapply finishes_andthen; [eapply goes_compute; [reflexivity|apply eq_refl]|]. intros b <-. apply finishes_print.
  - unfold csv_show. eapply finishes_andthen; [now apply Tb|]. intros t _. apply finishes_print_all.
Qed.
Lemma shown_dies : ~ (exists i, symbol_of x q r i) -> a_format a = FJson2 \/ tabled -> dies (show e M (final_args a)).
Proof.
  intros H Fo. pose proof (not_found H) as B. rewrite show_format.
  assert (D : forall A B (f : A -> prog B) (g : B -> prog unit), dies (andthen (andthen die f) g)). { intros A B0 f g s. exact (dies_die s). }
  assert (Tb : forall g, dies (andthen (table_of e M (final_args a)) g)).
  { intros g. rewrite details_table. unfold get_symbols_table. rewrite B. cbn [bind compute_or_die]. apply D. }
  assert (Ts : dies (table_show e M (final_args a))).
  { unfold table_show. change (a_archive_dependencies (final_args a)) with (a_archive_dependencies a). rewrite Ad, andb_false_r.
    eapply dies_andthen; [apply goes_diff_info|]. intros _ _. apply Tb. }
  destruct Fo as [Fo|[Fo|[Fo|Fo]]]; rewrite Fo; [|exact Ts|exact Ts|apply Tb].
  rewrite details_json, B. cbn [compute_or_die]. intros s. exact (dies_die s).
Qed.
End Show.

Section Command.
Variables (render : console -> list piece -> str) (encode : str -> str) (s : state).
Notation rn := (run_files d shipped render encode ord pf c no_faults s).
Lemma symbols_run_done q r : symbols_reported d c q r -> fitting_project d a (c_input c) -> fitting_reference d a -> (exists i, symbol_of x q r i) ->
  a_format a = FJson2 \/ tabled /\ names_column (map list_ascii_of_string ["Name"; "Total Size"]%string) (a_sort a) 1 -> exists s', rn = (Done tt, s').
Proof.
  intros Rp Fm Fr H Fo. eapply run_finishes; [exact (shown_goes q r Rp Fm Fr)|]. intros e M (fo & F). eapply shown_finishes; eassumption.
Qed.
Lemma symbols_run_none q r : symbols_reported d c q r -> fitting_project d a (c_input c) -> fitting_reference d a -> ~ (exists i, symbol_of x q r i) ->
  a_format a = FJson2 \/ tabled -> diagnosed s rn.
Proof.
  intros Rp Fm Fr H Fo. eapply run_dies; [exact (shown_goes q r Rp Fm Fr)|]. intros e M (fo & F). eapply shown_dies; eassumption.
Qed.
Lemma misfit_diagnosed : misfitting_project d a (c_input c) \/ fitting_project d a (c_input c) /\ (exists fn, a_diff a = Some fn /\ misfitting_project d a fn) -> diagnosed s rn.
Proof.
  intros H. apply (run_stops _ _ _ _ _ _ MemMapException); [|now left]. destruct H as [H|(Fm & fn & E & H)].
  - apply denied_stops. now apply misfitting_denied.
  - destruct (fitting_obtained _ _ _ Fm) as (m & Om). apply (proj2 (obtained_then m Om)). apply (ref_stops fn); [exact E|apply (fitting_name fn (or_intror H))|now apply misfitting_denied].
Qed.
Lemma empty_raises : empty_project d a (c_input c) -> exists s', rn = (Raised IndexError, s').
Proof.
  intros H. destruct (run_raises render encode ord pf (projects_of d shipped a) c IndexError s) as (s' & E & _); [now apply denied_stops, empty_denied|reflexivity|]. now exists s'.
Qed.
End Command.
End Run.
