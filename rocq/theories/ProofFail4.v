(** * Projects that are always reported *)
From Coq Require Import Ascii String List ZArith Lia Bool.
From Verif Require Import Base MemMap SpecTree Filter Pipeline SpecPipe PyStr MapFile SpecMap Deps Table SpecTable ProofTable ProofTable2 ProofTable3 Formats ElfRead Dwarf SpecElf ProofElf1 Project SpecProject ProofProject1 ProofProject2 Chips Main SpecMain ProofMain Command SpecEnd ProofEnd SpecCommand SpecFail ProofCommand1 ProofFail1 ProofFail2 ProofFail3.
Import ListNotations.
Open Scope list_scope.
Open Scope Z_scope.

Lemma header_two (first arg : str) rest : first <> list_ascii_of_string "Total Size" -> arg = list_ascii_of_string "Total Size" ->
  header_index (first :: list_ascii_of_string "Total Size" :: rest) arg 0 = Some 1.
Proof. intros N ->. cbn [header_index]. destruct (keqP first (list_ascii_of_string "Total Size")) as [X|_]; [contradiction|]. now rewrite keq_refl. Qed.
Lemma total_column a first (summary : dict str sentry) : first <> list_ascii_of_string "Total Size" ->
  names_column (map list_ascii_of_string ["Name"; "Total Size"]%string) (a_sort a) 1 -> exists tb, entries_table a first summary = TOk tb.
Proof.
  intros Nf N. assert (Z : exists z, sort_column (summary_headers a first summary) (a_sort a) = TOk z /\ (z = 1 \/ z = -1)).
  { unfold sort_column. destruct N as [(z & E & H & _)|(E & _ & H & _)].
    - rewrite E. exists z. assert (z = 1 \/ z = -1) by (cbn [List.length map] in H; lia). split; [|assumption]. now destruct (Z.eqb_spec z 0); [lia|].
    - rewrite E. cbn [nth_error map] in H. injection H as H. unfold summary_headers. rewrite header_two by (first [exact Nf|now rewrite <- H]). exists 1. split; [reflexivity|now left]. }
  destruct Z as (z & E & H). unfold entries_table, get_table_sorted. rewrite E.
  assert (F : forallb (fun r => match row_key a z r with Some _ => true | None => false end) (map (entry_row a) summary) = true).
  { apply forallb_forall. intros r I. apply in_map_iff in I. destruct I as ([n e] & <- & _). unfold row_key, entry_row, entry_columns. cbn [tr_columns snd].
    assert (Y : forall (c0 : column) q, py_nth (c0 :: q) (-1) <> None).
    { intros c0 q En. unfold py_nth in En. change (0 <=? -1) with false in En. cbv iota in En.
      destruct (Z.leb_spec 0 (Z.of_nat (List.length (c0 :: q)) + -1)); [apply nth_error_None in En|]; cbn [List.length] in *; lia. }
    destruct H as [-> | ->]; [reflexivity|]. change (key_index (-1)) with (-1). set (q := flat_map _ _). set (c0 := mk_column _ _ _).
    specialize (Y c0 q). destruct (py_nth (c0 :: q) (-1)); [reflexivity|now destruct Y]. }
  rewrite F. eexists. reflexivity.
Qed.

Definition dies (m : prog unit) : Prop := forall s, diagnosed s (m no_faults s).
Lemma dies_die : dies die.
Proof. intros s. cbn. repeat split. exists []. split; [reflexivity|intros []]. Qed.
Lemma dies_andthen {A} (m : prog A) f P : goes m P -> (forall a, P a -> dies (f a)) -> dies (andthen m f).
Proof.
  intros M F s. destruct (M s) as (a & s1 & E & (Q1 & Q2 & Q3 & l & Q4 & Q5) & Pa). specialize (F a Pa s1). unfold andthen. rewrite E.
  destruct F as (F1 & F2 & F3 & F4 & l' & F5 & F6). repeat split; try congruence. exists (l ++ l'). split; [rewrite F5, Q4; now rewrite !app_assoc|].
  intros X. apply in_app_or in X. tauto.
Qed.

Section Show.
Variables (x : extras) (m : memmap) (a : args).
Hypotheses (Nd : given (a_archive_details a) = false) (Na : a_archive_dependencies a = false).
Lemma table_goes : sortable a -> a_format a <> FJson2 -> a_format a <> FTree -> goes (table_of x m a) (fun _ => True).
Proof.
  intros [S|[S|S]] F1 F2; try contradiction. unfold table_of. rewrite Nd, Na.
  destruct (a_archives a) eqn:A.
  - assert (T : exists tb, get_archives_table m a = TOk tb).
    { apply total_column; [discriminate|]. destruct S as [((X & _) & _)|(_ & S)]; [rewrite A in X; discriminate|exact S]. }
    destruct T as (tb & ->). now apply goes_ret.
  - destruct (a_files a) eqn:F.
    + assert (T : exists tb, get_object_files_table m a = TOk tb).
      { apply total_column; [discriminate|]. destruct S as [((_ & _ & _ & X) & _)|(_ & S)]; [rewrite F in X; discriminate|exact S]. }
      destruct T as (tb & ->). now apply goes_ret.
    + destruct S as [(_ & S)|(S & _)]; [|destruct S; now repeat split]. apply summary_table_accepts with (pf := x_pct x) (m := m) in S. destruct S as (tb & ->). now apply goes_ret.
Qed.
Lemma goes_diff_info : goes (show_diff_info m a) (fun _ => True).
Proof. unfold show_diff_info. destruct (given (a_diff a)); [now apply goes_tell|now apply goes_ret]. Qed.
Lemma show_goes : a_format a <> FRaw -> a_format a <> FDot -> sortable a -> finishes (show x m a).
Proof.
  intros F1 F2 S.
  assert (T : a_format a <> FJson2 -> a_format a <> FTree -> finishes (table_show x m a)).
  { intros F3 F4. unfold table_show. rewrite Na, andb_false_r. eapply finishes_andthen; [apply goes_diff_info|]. intros _ _.
    eapply finishes_andthen; [now apply table_goes|]. intros t _. apply finishes_two; [apply finishes_print|].
    destruct (is_summary a); [|apply finishes_ret]. apply finishes_two; apply finishes_tell. }
  unfold show. destruct (a_format a) eqn:E; try (apply T; discriminate); try contradiction.
  - unfold tree_show. rewrite Na. apply finishes_print.
  - unfold csv_show. eapply finishes_andthen; [apply table_goes; [assumption|rewrite E; discriminate|rewrite E; discriminate]|]. intros t _. apply finishes_print_all.
  - unfold json_show. rewrite Nd, Na. destruct (a_archives a); [apply finishes_print|]. destruct (a_files a); apply finishes_print.
Qed.
Lemma show_dies : a_format a = FTable \/ a_format a = FText \/ a_format a = FCsv -> of_types a -> (forall i, ~ names_column usage_headers (a_sort a) i) -> dies (show x m a).
Proof.
  intros F O S. assert (T : table_of x m a = die).
  { unfold table_of. destruct O as (-> & -> & -> & ->). destruct (get_summary_table (x_pct x) m a) eqn:E; [|reflexivity].
    exfalso. destruct (proj1 (summary_table_accepts (x_pct x) m a) (ex_intro _ _ E)) as (i & N). exact (S i N). }
  assert (D : forall f, dies (andthen (@die table) f)). { intros f s. exact (dies_die s). }
  assert (TS : dies (table_show x m a)).
  { unfold table_show. rewrite Na, andb_false_r, T. eapply dies_andthen; [apply goes_diff_info|]. intros _ _. apply D. }
  unfold show. destruct F as [->|[->| ->]]; [exact TS|exact TS|]. unfold csv_show. rewrite T. apply D.
Qed.
End Show.

(** ** the command *)
Lemma run_dies render encode ord pf projects c s P :
  goes (analyse (load_symbols (final_args (c_args c))) ord pf projects (c_input c) (final_args (c_args c))) P -> (forall x m, P (x, m) -> dies (show x m (final_args (c_args c)))) ->
  diagnosed s (run_cmd render encode ord pf projects c no_faults s).
Proof.
  intros G S. assert (R : dies (report load_symbols ord pf projects c)).
  { unfold report. eapply dies_andthen; [apply goes_console|]. intros _ _. eapply dies_andthen; [apply goes_normalise|]. intros b ->.
    eapply dies_andthen; [exact G|]. intros [x m] Px. exact (S x m Px). }
  specialize (R s). unfold run_cmd, run_with, handle, andthen at 1. destruct (report load_symbols ord pf projects c no_faults s) as [r s1]. destruct R as (R1 & R). cbn [fst snd] in R1, R.
  subst r. cbn [on_exception]. split; [reflexivity|exact R].
Qed.

Section All.
Variables (d : disk) (chips : str -> res (list chip_type)) (render : console -> list piece -> str) (encode : str -> str) (ord : set_order) (pf : pct_format) (c : cmd).
Variables (dir name text : str) (rs : list region) (l : list printed) (crt : option (list SpecMap.entry)) (im : option (list (str * xshdr))) (t : str).
Hypotheses (L : linked d dir name text rs l crt im t) (Ei : c_input c = in_dir dir name) (Nd : without_dwarf d dir (c_args c)) (Pl : plain_report (c_args c)).
Notation rn := (run_files d chips render encode ord pf c).

Lemma target_diagnosed s : known_target chips t = Err MemMapException -> diagnosed s (rn no_faults s).
Proof.
  intros H. apply (run_stops _ _ _ _ _ _ MemMapException); [|now left]. eapply (main_fails d chips ord pf c Pl); eauto.
Qed.

Section Known.
Variable types : list chip_type.
Hypotheses (K : known_target chips t = Ok types) (Rm : regions_mapped rs types).

Lemma reference_diagnosed s dir' name' : directory dir' -> proper name' -> a_diff (c_args c) = Some (in_dir dir' name') ->
  unreadable_map d (in_dir dir' name') \/
  (exists text' rs' l' crt' im' t', linked d dir' name' text' rs' l' crt' im' t' /\ without_dwarf d dir' (c_args c) /\ known_target chips t' = Err MemMapException) ->
  diagnosed s (rn no_faults s).
Proof.
  intros D P E H. apply (run_stops _ _ _ _ _ _ MemMapException); [|now left].
  destruct (main_then d chips ord pf c Pl dir name text rs l crt im t L Ei Nd types K Rm) as (m & x & _ & S). apply S.
  destruct H as [U|(text' & rs' & l' & crt' & im' & t' & L' & Nd' & H)].
  - eapply unreadable_reference; eauto.
  - eapply reference_fails; eauto.
Qed.
Definition reference_fine : Prop := given (a_diff (c_args c)) = false \/
  exists dir' name' text' rs' l' crt' im' t' types', a_diff (c_args c) = Some (in_dir dir' name') /\ linked d dir' name' text' rs' l' crt' im' t' /\ without_dwarf d dir' (c_args c) /\
    known_target chips t' = Ok types' /\ regions_mapped rs' types'.
Lemma main_goes : reference_fine ->
  goes (analyse (load_symbols (final_args (c_args c))) ord pf (projects_of d chips (c_args c)) (c_input c) (final_args (c_args c))) (fun _ => True).
Proof.
  intros R. destruct (main_then d chips ord pf c Pl dir name text rs l crt im t L Ei Nd types K Rm) as (m & x & G & _). apply G.
  destruct R as [R|(dir' & name' & text' & rs' & l' & crt' & im' & t' & types' & E & L' & Nd' & Kt' & Rm')].
  - intros s. destruct (no_reference d chips c Pl (prepare (final_args (c_args c)) m) R s) as (a & s' & E & Q & _). eauto.
  - eapply reference_goes; eauto.
Qed.
Lemma always_reported s : reference_fine -> sortable (c_args c) -> exists s', rn no_faults s = (Done tt, s').
Proof.
  intros R S. eapply run_finishes; [apply main_goes; exact R|]. intros x m _. destruct Pl as (P1 & P2 & P3 & P4). now apply show_goes.
Qed.
Lemma sort_diagnosed s : reference_fine -> a_format (c_args c) = FTable \/ a_format (c_args c) = FText \/ a_format (c_args c) = FCsv -> of_types (c_args c) ->
  (forall i, ~ names_column usage_headers (a_sort (c_args c)) i) -> diagnosed s (rn no_faults s).
Proof.
  intros R F O S. eapply run_dies; [apply main_goes; exact R|]. intros x m _. destruct Pl as (P1 & P2 & P3 & P4). now apply show_dies.
Qed.
End Known.
End All.

(** ** the shipped chips *)
Lemma empty_chip : get_memory_types chip_info [] = Err MemMapException.
Proof. vm_compute. reflexivity. Qed.
Lemma known_chip t types : get_memory_types chip_info t = Ok types -> known_target (get_memory_types chip_info) t = Ok types.
Proof. unfold known_target. destruct t; [now rewrite empty_chip|auto]. Qed.
Lemma unknown_chip_fails t : unknown_chip t -> known_target (get_memory_types chip_info) t = Err MemMapException.
Proof. unfold known_target, unknown_chip, get_memory_types. destruct t as [|ch q]; [reflexivity|]. intros ->. reflexivity. Qed.
Lemma comparable_fine d c : comparable d (c_args c) -> reference_fine d (get_memory_types chip_info) c.
Proof.
  intros [H|(dir & name & text & rs & l & crt & im & t & E & L & N & types & G & R)]; [now left|]. right.
  exists dir, name, text, rs, l, crt, im, t, types. split; [exact E|]. split; [exact L|]. split; [exact N|]. split; [now apply known_chip|exact R].
Qed.

Section Shipped.
Variables (d : disk) (render : console -> list piece -> str) (encode : str -> str) (ord : set_order) (pf : pct_format) (c : cmd) (s : state).
Variables (dir name text : str) (rs : list region) (l : list printed) (crt : option (list SpecMap.entry)) (im : option (list (str * xshdr))) (t : str).
Hypotheses (L : linked d dir name text rs l crt im t) (Ei : c_input c = in_dir dir name) (Pl : plain_report (c_args c)) (Nd : without_dwarf d dir (c_args c)).
Notation rn := (run_files d (get_memory_types chip_info) render encode ord pf c no_faults s).

Lemma chip_diagnosed : unknown_chip t -> diagnosed s rn.
Proof. intros U. eapply target_diagnosed; eauto using unknown_chip_fails. Qed.
Lemma bad_reference_diagnosed : on_chip rs t -> bad_reference d (c_args c) -> diagnosed s rn.
Proof.
  intros (types & G & R) (dir' & name' & D' & P' & E' & H). eapply reference_diagnosed; eauto using known_chip.
  destruct H as [(U & _)|(text' & rs' & l' & crt' & im' & t' & L' & Nd' & U)]; [now left|]. right. do 6 eexists. split; [exact L'|]. split; [exact Nd'|now apply unknown_chip_fails].
Qed.
Lemma reported : on_chip rs t -> comparable d (c_args c) -> sortable (c_args c) -> exists s', rn = (Done tt, s').
Proof. intros (types & G & R) C S. eapply always_reported; eauto using known_chip, comparable_fine. Qed.
Lemma column_diagnosed : on_chip rs t -> comparable d (c_args c) -> a_format (c_args c) = FTable \/ a_format (c_args c) = FText \/ a_format (c_args c) = FCsv -> of_types (c_args c) ->
  (forall i, ~ names_column usage_headers (a_sort (c_args c)) i) -> diagnosed s rn.
Proof. intros (types & G & R) C F O S. eapply sort_diagnosed; eauto using known_chip, comparable_fine. Qed.
End Shipped.

(** ** a file that is no ELF file *)
Lemma andthen_ext {A B} (m m' : prog A) (f f' : A -> prog B) o s : m o s = m' o s -> (forall a s1, f a o s1 = f' a o s1) -> andthen m f o s = andthen m' f' o s.
Proof. intros E F. unfold andthen. rewrite E. destruct (m' o s) as [[a|e|] s1]; [apply F|reflexivity|reflexivity]. Qed.
Lemma compare_ext ls p q a m o s : (forall i, p i = q i) -> compare ls p a m o s = compare ls q a m o s.
Proof. intros H. unfold compare. destruct (a_diff a) as [[|ch n]|]; try reflexivity. now rewrite H. Qed.
Lemma run_ext render encode ord pf p q c o s : (forall i, p i = q i) -> run_cmd render encode ord pf p c o s = run_cmd render encode ord pf q c o s.
Proof.
  intros H. unfold run_cmd, run_with, handle.
  assert (E : (run _ <- report load_symbols ord pf p c; finish render encode c) o s = (run _ <- report load_symbols ord pf q c; finish render encode c) o s).
  { apply andthen_ext; [|reflexivity]. unfold report. apply andthen_ext; [reflexivity|]. intros _ s1. apply andthen_ext; [reflexivity|]. intros a s2. cbn zeta.
    apply andthen_ext; [|reflexivity]. unfold analyse. rewrite H. apply andthen_ext; [reflexivity|]. intros mf s3. apply andthen_ext; [reflexivity|]. intros e s4.
    apply andthen_ext; [reflexivity|]. intros [m mf'] s5. apply andthen_ext; [now apply compare_ext|reflexivity]. }
  now rewrite E.
Qed.
Lemma bad_elf_same d chips fn file a i : d_bytes d fn = Some file -> elf_init file = Err Elf_Exception ->
  projects_of d chips a i = projects_of (without_file d fn) chips a i.
Proof.
  intros B E.
  assert (G : forall m pd, get_elf d m pd = get_elf (without_file d fn) m pd).
  { intros m pd. unfold get_elf. destruct pd as [j|]; [|reflexivity]. destruct (jindex j "app_elf") as [v|]; [|reflexivity]. cbn [bind]. destruct (jstr v) as [app|]; [|reflexivity]. cbn [bind].
    unfold without_file at 1. cbn [d_isfile]. set (g := path_join (dirname m) app). destruct (keqP g fn) as [X|X]; [|reflexivity].
    rewrite X. unfold load_elf_file. rewrite B, E. now destruct (d_isfile d fn). }
  unfold projects_of, load_project, load_world, dep_symbols. change (get_proj_desc (without_file d fn)) with (get_proj_desc d). change (lto_flag (without_file d fn)) with (lto_flag d).
  change (load_map (without_file d fn)) with (load_map d). change (read_map (without_file d fn)) with (read_map d). change (d_cwd (without_file d fn)) with (d_cwd d).
  set (m := abspath (d_cwd d) i). destruct (get_proj_desc d m) as [pd|]; [|reflexivity]. cbn [bind]. now rewrite <- G.
Qed.
Lemma bad_elf_ignored d chips fn file render encode ord pf c o s : d_bytes d fn = Some file -> elf_init file = Err Elf_Exception ->
  run_files d chips render encode ord pf c o s = run_files (without_file d fn) chips render encode ord pf c o s.
Proof. intros B E. apply run_ext. intros i. now apply (bad_elf_same d chips fn file). Qed.
Lemma no_magic file : ~ (exists r, file = [127; 69; 76; 70] ++ r) -> elf_init file = Err Elf_Exception.
Proof.
  intros N. unfold elf_init, read. set (x := slice file 0 16). destruct (blen x =? 16); [|reflexivity]. cbn [bind].
  destruct (take 4 x =?= ELFMAG) eqn:E; [|reflexivity]. exfalso. apply N. apply keq_eq in E.
  assert (X : take 4 x = firstn 4 file).
  { unfold x, slice. rewrite !take_firstn, drop_skipn. change (Z.to_nat 4) with 4%nat. rewrite firstn_firstn. reflexivity. }
  rewrite X in E. exists (skipn 4 file). rewrite <- (firstn_skipn 4 file) at 1. f_equal. exact E.
Qed.
