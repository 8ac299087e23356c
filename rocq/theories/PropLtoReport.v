(** * Property C145: the reports of a project with link time optimisation *)
From Coq Require Import Ascii String List ZArith Lia Bool Sorted.
From Verif Require Import Base MemMap SpecTree SpecOps Filter SpecFilter Pipeline SpecPipe SpecBuild SpecBytes SpecShape PyStr MapFile SpecMap FixMap
  ElfRead SpecElf FixElf Dwarf SpecDwarf SpecDebug Project SpecProject FixProject ProofProject2 SpecPath SpecOwner SpecEnd Chips SpecChips ProofChips Deps Table SpecTable Formats Main SpecMain FixMain Command SpecCommand SpecFail SpecReport
  SpecLto SpecLto2 FixLto SpecLtoReport PropProject PropEnd PropCommand PropFail PropReport PropLto ProofBytes ProofLtoReport1 ProofLtoReport3 ProofLtoReport4.
Import ListNotations.
Open Scope list_scope.
Open Scope Z_scope.

(** C145: the report on archives or object files as JSON, of a project and a reference that
    may each be optimised at link time.  The rows are those of the project taken apart: what
    the linker map calls (exe) is given to the components whose symbols lie there, symbol by
    symbol, and only the bytes between the symbols stay with (exe). *)
Theorem c145_json : forall d c s r o files fs st render encode ord pf,
  sourced d c s r -> asked files (c_args c) -> tells_sources files s r -> a_format (c_args c) = FJson2 ->
  run_files d (get_memory_types chip_info) render encode ord pf c o (start fs) = (Done tt, st) ->
  exists q q' rows, apart_both s r q q' /\ s_printed st = [PEntries rows] /\ entries_right files q q' (c_args c) rows /\ entries_sorted (c_args c) rows.
Proof. exact source_json. Qed.
Print Assumptions c145_json.

(** the same as a table, as text or as CSV *)
Theorem c145_table : forall d c s r o files ps fs st render encode ord pf,
  sourced d c s r -> asked files (c_args c) -> tells_sources files s r -> asked_filter (c_args c) ps ->
  a_format (c_args c) = FTable \/ a_format (c_args c) = FText \/ a_format (c_args c) = FCsv ->
  run_files d (get_memory_types chip_info) render encode ord pf c o (start fs) = (Done tt, st) ->
  exists q q' tb is, apart_both s r q q' /\ prints (c_args c) st tb /\ table_items files q q' (c_args c) ps is /\
    let first := list_ascii_of_string (if files then "Object File" else "Archive File") in
    (is = [] -> tb_headers tb = [first; list_ascii_of_string "Total Size"] /\ tb_rows tb = []) /\
    (is <> [] -> exists groups titles i col, columns_right q q' (c_args c) groups /\ tb_headers tb = first :: titles /\ Forall2 (column_title (c_args c)) (columns groups) titles /\
       Forall2 (table_row files q q' (c_args c) (columns groups)) is (tb_rows tb) /\
       names_column (tb_headers tb) (a_sort (c_args c)) (S i) /\ nth_error (columns groups) i = Some col /\
       StronglySorted (fun x y => forall v w, measured q q' (own_bytes (row_own files x) col) v -> measured q q' (own_bytes (row_own files y) col) w ->
         in_order (a_sort_reverse (c_args c)) (pick (a_sort_diff (c_args c)) v) (pick (a_sort_diff (c_args c)) w)) is).
Proof. exact source_table. Qed.
Print Assumptions c145_table.

(** every symbol of a component that starts in the optimised code is one of the pieces *)
Theorem c145_symbols : forall comps own syms o o', symbols_ok comps syms -> owners comps own syms -> section_apart own syms o o' ->
  forall i y x ob, In i (pr_items o) -> it_archive i = "(exe)" -> In y syms -> starts_in (item_section i) y = true -> own y = Some (x, ob) ->
  exists j, In j (pr_items o') /\ it_addr j = us_addr y /\ it_size j = us_size y /\ it_archive j = x /\ it_object j = ob.
Proof. intros comps own syms o o' A B C i y x ob. exact (apart_symbol comps own syms o o' i y x ob A B C). Qed.
Print Assumptions c145_symbols.

(** the summary does not see the optimisation: it is that of the map files *)
Theorem c145_summary : forall d c s r o fs st render encode ord pf,
  sourced d c s r -> of_types (c_args c) -> a_use_dwarf (c_args c) <> Some true -> a_format (c_args c) = FTable \/ a_format (c_args c) = FText \/ a_format (c_args c) = FCsv ->
  run_files d (get_memory_types chip_info) render encode ord pf c o (start fs) = (Done tt, st) ->
  let k := so_account s in let r' := reference_account r in
  exists tb i groups rows, prints (c_args c) st tb /\ tb_headers tb = usage_headers /\ tb_rows tb = concat rows /\ Forall2 (pgroup_rows (c_args c)) groups rows /\
    NoDup (map pg_type groups) /\
    (forall T, In T (map pg_type groups) <-> present k r' (lists_type (c_args c) T) /\ exists v, measured k r' (used_bytes T) v /\ differs (c_args c) v) /\
    Forall (pgroup_right k r' (c_args c)) groups /\
    names_column usage_headers (a_sort (c_args c)) i /\
    (i <> 2%nat -> StronglySorted (fun x y => in_order (a_sort_reverse (c_args c)) (pick (a_sort_diff (c_args c)) (pg_value i x)) (pick (a_sort_diff (c_args c)) (pg_value i y))) groups) /\
    (i = 1%nat -> Forall (fun g => StronglySorted (fun x y => in_order (a_sort_reverse (c_args c)) (pick (a_sort_diff (c_args c)) (snd x)) (pick (a_sort_diff (c_args c)) (snd y))) (pg_sections g)) groups) /\
    (a_format (c_args c) <> FCsv -> exists v, measured k r' (fun q => image_bytes (ac_im q) (ac_l q)) v /\ In (ImageInfo (fst v) (snd v)) (s_notes st)).
Proof. exact source_summary. Qed.
Print Assumptions c145_summary.

(** ** example: the project of PropLto, and an older build of it that was not optimised *)
Local Notation tx := (fun s => list_ascii_of_string s%string).
Definition ot_disk : disk :=
  {| d_cwd := tx "/tmp";
     d_text := fun fn => if fn =?= in_dir dir2 (tx "app.map") then Some rx_text else d_text FixLto.ox_disk fn;
     d_json := fun fn => match d_json FixLto.ox_disk fn with Some j => Some j | None => d_json disk2 fn end;
     d_isfile := fun fn => d_isfile FixLto.ox_disk fn || d_isfile disk2 fn;
     d_bytes := fun fn => match d_bytes FixLto.ox_disk fn with Some j => Some j | None => d_bytes disk2 fn end |}.
Lemma ot_described : described_elf ot_disk dir1 (tx "app.map") ox_file ox_comps.
Proof.
  destruct ox_described as (o & app & fn & A & B & C & D & E & F).
  assert (Eo : o = ox_object) by (vm_compute in A; injection A as <-; reflexivity). subst o.
  assert (Ea : app = tx "app.elf") by (destruct B as (B & _); vm_compute in B; injection B as <-; reflexivity). subst app.
  exists ox_object, (tx "app.elf"), fn. split; [vm_compute; reflexivity|]. split; [exact B|]. split; [exact C|].
  destruct C as [((r & X) & _)|(_ & ->)]; [discriminate X|]. split; [vm_compute; reflexivity|]. split; [vm_compute; reflexivity|exact F].
Qed.
Lemma ot_built1 : built ot_disk dir1 (tx "app.map") px_text fx_regions fx_sections (Some fx_entries) (Some ox_headers) types_esp32.
Proof.
  destruct px_built as [D P T M R _ _ _ _]. destruct ox_debugged as (Nh & _). split.
  - exact D.
  - exact P.
  - vm_compute. reflexivity.
  - exact M.
  - exact R.
  - destruct ot_described as (o & app & fn & A1 & B & C & D1 & E & F). exact (image_file _ _ _ _ _ _ _ _ A1 B C D1 E Nh).
  - destruct ot_described as (o & app & fn & A1 & B & _). exists (tx "esp32"). split; [|exact types_esp32_ok].
    assert (Eo : o = ox_object) by (vm_compute in A1; injection A1 as <-; reflexivity). subst o.
    apply (target_described _ _ _ _ _ _ _ A1 B); [reflexivity|discriminate].
  - apply Forall_forall. intros o I C. rewrite (ox_counted o I C). split; [exact px_mapped|]. split; [exact px_unbroken|exact px_items].
  - intros l1 o l2 o' l3 E Co Co'. exfalso.
    assert (H : NoDup fx_sections) by (repeat (constructor; [intros X; repeat (destruct X as [X|X]; [discriminate X|]); exact X|]); constructor).
    assert (I : In o fx_sections) by (rewrite E; apply in_or_app; right; now left).
    assert (I' : In o' fx_sections) by (rewrite E; apply in_or_app; right; right; apply in_or_app; right; now left).
    rewrite (ox_counted o I Co), (ox_counted o' I' Co') in E. rewrite E in H.
    apply NoDup_remove_2 in H. apply H. apply in_or_app. right. apply in_or_app. right. now left.
Qed.
Lemma ot_built2 : built ot_disk dir2 (tx "app.map") rx_text fx_regions [rx_section] None (Some px_headers) types_esp32.
Proof.
  destruct rx_built2 as [D P T M R I _ S N]. split; try assumption.
  - inversion I as [| | |o app fn file l E1 E2 E3 E4 E5 E6]; subst.
    apply (image_file _ _ _ px_object (tx "app.elf") (in_dir dir2 (tx "app.elf")) px_elf); [vm_compute; reflexivity|exact px_describes| |vm_compute; reflexivity|vm_compute; reflexivity|].
    + right. split; [|reflexivity]. intros (r & X). discriminate X.
    + replace px_elf with file; [exact E6|]. vm_compute in E1. injection E1 as <-. destruct E2 as (Ea & _). vm_compute in Ea. injection Ea as <-.
      destruct E3 as [(X & _)|(_ & ->)]; [exfalso; destruct X as (r & X); discriminate X|]. vm_compute in E5. injection E5 as <-. vm_compute. reflexivity.
  - exists (tx "esp32"). split; [|exact types_esp32_ok].
    apply (target_described _ _ _ _ px_object (tx "app.elf")); [vm_compute; reflexivity|exact px_describes|reflexivity|discriminate].
Qed.
Lemma ot_filled : filled (Some ox_headers) types_esp32 fx_sections.
Proof.
  apply Forall_forall. intros o I C T a (B1 & B2) G. rewrite (ox_counted o I C) in *. cbn in B1, B2.
  exists fx_item1, 1074267136. split; [left; reflexivity|]. split; [cbn; lia|].
  destruct G as [(N & X)|(N & t & F & Et)]; [left; now split|]. right. split; [exact N|].
  exists t. split; [|exact Et]. rewrite (first_covering_unique _ _ _ _ F (px_first a ltac:(lia))). apply px_first. lia.
Qed.
Definition ot_new : source := Source (Account fx_regions fx_sections (Some ox_headers) types_esp32) (Some (ox_comps, ox_syms)).
Definition ot_old : source := Source (Account fx_regions [rx_section] (Some px_headers) types_esp32) None.
Definition ot_args (f : format) (archives files : bool) (filter : option (list str)) : args :=
  Args f archives false false false None files (Some (in_dir dir2 (tx "app.map"))) false true false false false false None None (tx "1") filter false true.
Lemma ot_sourced f archives files filter : sourced ot_disk (px_cmd (ot_args f archives files filter)) ot_new (Some ot_old).
Proof.
  split; [|split; [|split; reflexivity]].
  - exists dir1, (tx "app.map"), px_text, (Some fx_entries). split; [reflexivity|]. split; [exact ot_built1|]. split; [right; exact ot_filled|]. split; [|split; [exact ox_symbols_ok|split]].
    + right. split; [reflexivity|]. eexists. split; [vm_compute; reflexivity|reflexivity].
    + exists ox_file, ox_headers. split; [reflexivity|]. split; [exact ot_described|exact ox_debugged].
    + apply Forall_forall. intros o I C. rewrite (ox_counted o I C). apply Forall_forall. exact ox_followed.
  - exists (in_dir dir2 (tx "app.map")). split; [reflexivity|]. exists dir2, (tx "app.map"), rx_text, None. split; [reflexivity|]. split; [exact ot_built2|]. split; [right; exact rx_filled|].
    right. split; [reflexivity|]. right. exists []. split; [vm_compute; reflexivity|exact Logic.I].
Qed.
Lemma ot_tells files : tells_sources files ot_new (Some ot_old).
Proof.
  intros _. split; (split; [intros i (o & Io & _ & Ii & _); cbn in Io; repeat (destruct Io as [<-|Io]; [cbn in Ii; repeat (destruct Ii as [<-|Ii]; [t_not_in|]); contradiction|]); contradiction|]).
  - intros comps syms y E. injection E as <- <-. intros [<-|[<-|[<-|[]]]]; t_not_in.
  - intros comps syms y E. discriminate E.
Qed.
Definition ot_run (a : args) := run_files ot_disk (get_memory_types chip_info) mx_render mx_encode mx_order mx_pct (px_cmd a) no_faults (start []).
Example c145_json_example : exists s rows s' rows',
  sourced ot_disk (px_cmd (ot_args FJson2 true false None)) ot_new (Some ot_old) /\ asked false (ot_args FJson2 true false None) /\ tells_sources false ot_new (Some ot_old) /\
  ot_run (ot_args FJson2 true false None) = (Done tt, s) /\ s_printed s = [PEntries rows] /\
  rx_brief rows = [ (tx "esp-idf/log/liblog.a", (tx "liblog.a", 4, 4)); (tx "(exe)", (tx "(exe)", 4, 4)) ] /\
  sourced ot_disk (px_cmd (ot_args FJson2 false true None)) ot_new (Some ot_old) /\ asked true (ot_args FJson2 false true None) /\ tells_sources true ot_new (Some ot_old) /\
  ot_run (ot_args FJson2 false true None) = (Done tt, s') /\ s_printed s' = [PEntries rows'] /\
  rx_brief rows' = [ (tx "esp-idf/main/libmain.a:app main.c.obj", (tx "app main.c.obj", 8, -8)); (tx "esp-idf/main/libmain.a:app.c", (tx "app.c", 8, 8));
    (tx "esp-idf/log/liblog.a:log.c", (tx "log.c", 4, 4)); (tx "(exe):/path with space/crt0.o", (tx "crt0.o", 4, 4)) ].
Proof.
  do 4 eexists. split; [apply ot_sourced|]. split; [reflexivity|]. split; [apply ot_tells|]. split; [vm_compute; reflexivity|]. split; [reflexivity|]. split; [vm_compute; reflexivity|].
  split; [apply ot_sourced|]. split; [repeat split|]. split; [apply ot_tells|]. split; [vm_compute; reflexivity|]. split; [reflexivity|]. vm_compute. reflexivity.
Qed.
Example c145_table_example : exists s tb s' tb',
  sourced ot_disk (px_cmd (ot_args FTable true false (Some (map show_pattern rx_pattern)))) ot_new (Some ot_old) /\ asked false (ot_args FTable true false (Some (map show_pattern rx_pattern))) /\
  tells_sources false ot_new (Some ot_old) /\ asked_filter (ot_args FTable true false (Some (map show_pattern rx_pattern))) (Some rx_pattern) /\
  ot_run (ot_args FTable true false (Some (map show_pattern rx_pattern))) = (Done tt, s) /\ s_printed s = [PTable tb] /\
  tb_headers tb = map tx ["Archive File"; "Total Size"; "IRAM"; ".text"]%string /\ tb_rows tb = [ map tx ["liblog.a"; "4     +4"; "4     +4"; "4     +4"] ]%string /\
  of_types (ot_args FTable false false None) /\ a_use_dwarf (ot_args FTable false false None) <> Some true /\
  ot_run (ot_args FTable false false None) = (Done tt, s') /\ s_printed s' = [PTable tb'] /\
  map (fun r => firstn 2 r ++ skipn 3 r) (tb_rows tb') = [map tx ["IRAM"; "32    +16"; "130016    -16"; "130048      0"]; map tx ["   .text"; "32    +16"; ""; ""]]%string.
Proof.
  do 4 eexists. split; [apply ot_sourced|]. split; [reflexivity|]. split; [apply ot_tells|]. split; [split; [reflexivity|]; constructor; [|constructor]; do 3 (constructor; [cbn; repeat split; discriminate|]); constructor; [exact Logic.I|constructor]|]. split; [vm_compute; reflexivity|]. split; [reflexivity|]. split; [vm_compute; reflexivity|]. split; [vm_compute; reflexivity|].
  split; [repeat split|]. split; [discriminate|]. split; [vm_compute; reflexivity|]. split; [reflexivity|]. vm_compute. reflexivity.
Qed.
