(** * Property C124: the reports with --unify, of a project alone or compared with a reference *)
From Coq Require Import Ascii String List ZArith Lia Bool Sorted.
From Verif Require Import Base MemMap SpecTree SpecOps Filter SpecFilter Pipeline SpecPipe SpecBuild SpecBytes SpecShape PyStr MapFile SpecMap FixMap
  ElfRead SpecElf FixElf Project SpecProject FixProject ProofProject2 SpecEnd Chips SpecChips ProofChips Deps Table SpecTable Formats Main SpecMain FixMain Command SpecCommand SpecFail SpecReport SpecMerge
  PropProject PropEnd PropCommand PropFail PropReport ProofBytes ProofMerge4 ProofMerge5.
Import ListNotations.
Open Scope list_scope.
Open Scope Z_scope.

(** C124: output sections whose abbreviated names are the same are one section, and archives
    with the same base name are one archive; each number is that of all of them together.
    The summary as a table, as text or as CSV: *)
Theorem c124_summary_table : forall d c k r o files s render encode ord pf,
  merged d c k r -> of_types (c_args c) -> a_format (c_args c) = FTable \/ a_format (c_args c) = FText \/ a_format (c_args c) = FCsv ->
  run_files d (get_memory_types chip_info) render encode ord pf c o (start files) = (Done tt, s) ->
  exists tb i groups rows, prints (c_args c) s tb /\ tb_headers tb = usage_headers /\ tb_rows tb = concat rows /\ Forall2 (mgroup_rows (c_args c)) groups rows /\
    NoDup (map pg_type groups) /\
    (forall T, In T (map pg_type groups) <-> present k r (lists_type (c_args c) T) /\ exists v, measured k r (used_bytes T) v /\ differs (c_args c) v) /\
    Forall (mgroup_right k r (c_args c)) groups /\
    names_column usage_headers (a_sort (c_args c)) i /\
    (i <> 2%nat -> StronglySorted (fun x y => in_order (a_sort_reverse (c_args c)) (pick (a_sort_diff (c_args c)) (pg_value i x)) (pick (a_sort_diff (c_args c)) (pg_value i y))) groups) /\
    (i = 1%nat -> Forall (fun g => StronglySorted (fun x y => in_order (a_sort_reverse (c_args c)) (pick (a_sort_diff (c_args c)) (snd x)) (pick (a_sort_diff (c_args c)) (snd y))) (pg_sections g)) groups) /\
    (a_format (c_args c) <> FCsv -> exists v, measured k r (fun q => image_bytes (ac_im q) (ac_l q)) v /\ In (ImageInfo (fst v) (snd v)) (s_notes s)).
Proof. exact merged_usage. Qed.
Print Assumptions c124_summary_table.

(** the report on archives as JSON *)
Theorem c124_archives_json : forall d c k r o fs s render encode ord pf,
  merged d c k r -> asked false (c_args c) -> (given (a_archive_details (c_args c)) = true -> a_use_dwarf (c_args c) <> Some true) -> a_format (c_args c) = FJson2 ->
  run_files d (get_memory_types chip_info) render encode ord pf c o (start fs) = (Done tt, s) ->
  exists rows, s_printed s = [PEntries rows] /\ mentries_right k r (c_args c) rows /\ entries_sorted (c_args c) rows.
Proof. exact merged_json. Qed.
Print Assumptions c124_archives_json.

(** the report on archives as a table, as text or as CSV, with --filter *)
Theorem c124_archives_table : forall d c k r o ps fs s render encode ord pf,
  merged d c k r -> asked false (c_args c) -> (given (a_archive_details (c_args c)) = true -> a_use_dwarf (c_args c) <> Some true) -> asked_filter (c_args c) ps ->
  a_format (c_args c) = FTable \/ a_format (c_args c) = FText \/ a_format (c_args c) = FCsv ->
  run_files d (get_memory_types chip_info) render encode ord pf c o (start fs) = (Done tt, s) ->
  exists tb xs, prints (c_args c) s tb /\ mtable_names k r (c_args c) ps xs /\
    (xs = [] -> tb_headers tb = [list_ascii_of_string "Archive File"; list_ascii_of_string "Total Size"] /\ tb_rows tb = []) /\
    (xs <> [] -> exists groups titles i col, mcolumns_right k r (c_args c) groups /\ tb_headers tb = list_ascii_of_string "Archive File" :: titles /\ Forall2 mcolumn_title (columns groups) titles /\
       Forall2 (mtable_row k r (c_args c) (columns groups)) xs (tb_rows tb) /\
       names_column (tb_headers tb) (a_sort (c_args c)) (S i) /\ nth_error (columns groups) i = Some col /\
       StronglySorted (fun x y => forall v w, measured k r (base_bytes x col) v -> measured k r (base_bytes y col) w ->
         in_order (a_sort_reverse (c_args c)) (pick (a_sort_diff (c_args c)) v) (pick (a_sort_diff (c_args c)) w)) xs).
Proof. exact merged_table_report. Qed.
Print Assumptions c124_archives_table.

(** ** example: two archives named libx.a in two sections named .text, and an older build *)
Local Notation tx := (fun s => list_ascii_of_string s%string).
Definition vx_item1 : item := Item (fx ".text.a") 1074267136 16 (fx "esp-idf/a/libx.a") (fx "a.o") [].
Definition vx_item2 : item := Item (fx ".text.b") 1074267152 16 (fx "esp-idf/b/libx.a") (fx "b.o") [].
Definition vx_section1 : printed := Printed (fx ".iram0.text") 1074267136 16 [vx_item1].
Definition vx_section2 : printed := Printed (fx ".iram1.text") 1074267152 16 [vx_item2].
Definition vx_line1 : str := fx " .text.a        0x40080400       0x10 esp-idf/a/libx.a(a.o)".
Definition vx_line2 : str := fx " .text.b        0x40080410       0x10 esp-idf/b/libx.a(b.o)".
Definition vx_lines : list str := fx_table ++ fx_head :: [fx ".iram0.text     0x40080400       0x10"; vx_line1; fx ""; fx ".iram1.text     0x40080410       0x10"; vx_line2; fx ""].
Definition vx_text : str := flat_map (fun l => l ++ ["010"%char]) vx_lines.
Lemma vx_map_ok : printed_map fx_regions [vx_section1; vx_section2] None (splitlines vx_text).
Proof.
  replace (splitlines vx_text) with vx_lines by (vm_compute; reflexivity). apply pm_crt_absent; [exact fx_table_ok|t_prefix|].
  change (script_lines [vx_section1; vx_section2] ([] ++ ([fx ".iram0.text     0x40080400       0x10"] ++ [] ++ List.concat [[vx_line1]] ++ [fx ""]) ++ ([] ++ ([fx ".iram1.text     0x40080410       0x10"] ++ [] ++ List.concat [[vx_line2]] ++ [fx ""]) ++ []))).
  apply script_cons; [constructor| |apply script_cons; [constructor| |constructor; constructor]].
  - apply section_lines_intro; [|constructor| |t_blank].
    + apply (sh_one vx_section1 (fx "     ") (fx "0x40080400") (fx "       ") (fx "0x10") []); [split; [t_word|t_prefix]|t_num|t_num|t_gap|t_gap|t_blank].
    + constructor; [|constructor]. apply (item_lines_intro vx_item1 [vx_line1] []); [|reflexivity|constructor].
      apply head_one with (g := fx "        ") (r := fx "0x40080400       0x10 esp-idf/a/libx.a(a.o)"); [split; [t_word|left; t_prefix]|t_gap| |t_line].
      apply (fx_rest _ "0x40080400" "       " "0x10" " " "esp-idf/a/libx.a(a.o)"); [t_num|t_gap|t_num|t_gap|cbl|discriminate| |cbl].
      apply (loc_member (fx "esp-idf/a/libx.a") (fx "a.o")). t_not_in.
  - apply section_lines_intro; [|constructor| |t_blank].
    + apply (sh_one vx_section2 (fx "     ") (fx "0x40080410") (fx "       ") (fx "0x10") []); [split; [t_word|t_prefix]|t_num|t_num|t_gap|t_gap|t_blank].
    + constructor; [|constructor]. apply (item_lines_intro vx_item2 [vx_line2] []); [|reflexivity|constructor].
      apply head_one with (g := fx "        ") (r := fx "0x40080410       0x10 esp-idf/b/libx.a(b.o)"); [split; [t_word|left; t_prefix]|t_gap| |t_line].
      apply (fx_rest _ "0x40080410" "       " "0x10" " " "esp-idf/b/libx.a(b.o)"); [t_num|t_gap|t_num|t_gap|cbl|discriminate| |cbl].
      apply (loc_member (fx "esp-idf/b/libx.a") (fx "b.o")). t_not_in.
Qed.
(** the ELF files are gone *)
Definition vx_disk : disk :=
  {| d_cwd := d_cwd disk1; d_text := fun fn => if fn =?= in_dir dir1 (tx "app.map") then Some vx_text else if fn =?= in_dir dir2 (tx "app.map") then Some rx_text else None;
     d_json := d_json rx_disk; d_isfile := fun fn => false; d_bytes := fun fn => None |}.
Lemma vx_image dir : description vx_disk dir = Some (JObj px_object) -> image_of vx_disk dir (tx "app.map") None.
Proof.
  intros D. apply (image_missing _ _ _ px_object (tx "app.elf") (in_dir dir (tx "app.elf")) D px_describes); [|reflexivity]. right. split; [|reflexivity]. intros (r & R). discriminate R.
Qed.
Lemma vx_fits o : 1074267136 <= pr_addr o -> pr_addr o + pr_size o <= 1074267168 ->
  section_mapped fx_regions types_esp32 (printed_section o) /\ unbroken fx_regions types_esp32 (printed_section o).
Proof.
  intros L1 L2. split.
  - right. intros a (A & B). cbn in A, B. exists (Region (fx "iram0_0_seg") 1074267136 130048 (fx "xr")). split; [left; reflexivity|].
    split; [discriminate|]. cbn [r_origin r_length]. split; [lia|]. intros a' Ha'. apply px_iram. lia.
  - intros a b T (A1 & A2) (B1 & B2) L _ _. cbn in A1, A2, B1, B2. split.
    + intros r [<-|[<-|[]]] N H; cbn [r_origin r_length r_name] in *; lia.
    + intros t lo' hi It W H. apply windows_of_ok in W.
      destruct It as [<-|[<-|[<-|[<-|[<-|[<-|[<-|[]]]]]]]]; cbn in W; repeat (destruct W as [W|W]; [injection W as <- <-; lia|]); contradiction.
Qed.
Lemma vx_built1 : built vx_disk dir1 (tx "app.map") vx_text fx_regions [vx_section1; vx_section2] None None types_esp32.
Proof.
  destruct px_built as [D P _ _ _ _ _ _ _]. split.
  - exact D.
  - exact P.
  - vm_compute. reflexivity.
  - exact vx_map_ok.
  - constructor; [|constructor; [|constructor]]; (split; [constructor; [intros a n []|constructor]|split; [constructor|exact Logic.I]]).
  - apply vx_image. vm_compute. reflexivity.
  - exists (tx "esp32"). split; [|exact types_esp32_ok].
    apply (target_described _ _ _ _ px_object (tx "app.elf")); [vm_compute; reflexivity|exact px_describes|reflexivity|discriminate].
  - constructor; [|constructor; [|constructor]]; intros _.
    + destruct (vx_fits vx_section1) as (F1 & F2); [cbn; lia|cbn; lia|]. split; [exact F1|]. split; [exact F2|]. constructor; [cbn; lia|constructor].
    + destruct (vx_fits vx_section2) as (F1 & F2); [cbn; lia|cbn; lia|]. split; [exact F1|]. split; [exact F2|]. constructor; [cbn; lia|constructor].
  - intros l1 o l2 o' l3 E _ _. destruct l1 as [|x l1]; [|destruct l1 as [|y l1]; [|destruct l1; discriminate E]].
    + injection E as <- E. destruct l2 as [|y l2]; [injection E as <- _; discriminate|]. injection E as _ E. destruct l2; discriminate E.
    + injection E as _ _ E. destruct l2; discriminate E.
Qed.
Lemma vx_built2 : built vx_disk dir2 (tx "app.map") rx_text fx_regions [rx_section] None None types_esp32.
Proof.
  destruct rx_built2 as [D P _ Mp Rg _ _ _ N]. split.
  - exact D.
  - exact P.
  - vm_compute. reflexivity.
  - exact Mp.
  - exact Rg.
  - apply vx_image. vm_compute. reflexivity.
  - exists (tx "esp32"). split; [|exact types_esp32_ok].
    apply (target_described _ _ _ _ px_object (tx "app.elf")); [vm_compute; reflexivity|exact px_describes|reflexivity|discriminate].
  - constructor; [|constructor]. intros _. destruct (vx_fits rx_section) as (F1 & F2); [cbn; lia|cbn; lia|]. split; [exact F1|]. split; [exact F2|]. constructor; [cbn; lia|constructor].
  - intros l1 o l2 o' l3 E. destruct l1 as [|x l1]; [|destruct l1; discriminate E]. injection E as _ E. destruct l2; discriminate E.
Qed.
Lemma vx_filled l : (forall o, In o l -> exists i, pr_items o = [i] /\ it_addr i = pr_addr o /\ it_size i = pr_size o) -> filled None types_esp32 l.
Proof.
  intros H. apply Forall_forall. intros o Io C T a (B1 & B2) G. destruct (H o Io) as (i & E & E1 & E2). cbn in B1, B2. exists i, a. rewrite E. split; [now left|]. split; [lia|exact G].
Qed.
Definition vx_new : account := Account fx_regions [vx_section1; vx_section2] None types_esp32.
Definition vx_old : account := Account fx_regions [rx_section] None types_esp32.
Definition vx_args (f : format) (archives : bool) (filter : option (list str)) : args :=
  Args f archives false false false None false (Some (in_dir dir2 (tx "app.map"))) true false true false false false (Some false) None (tx "1") filter true true.
Lemma vx_merged f archives filter : merged vx_disk (px_cmd (vx_args f archives filter)) vx_new (Some vx_old).
Proof.
  split; [|split; [|split; reflexivity]].
  - exists dir1, (tx "app.map"), vx_text, None. split; [reflexivity|]. split; [exact vx_built1|]. split; [left; reflexivity|]. right. apply vx_filled.
    intros o [<-|[<-|[]]]; eexists; repeat split.
  - exists (in_dir dir2 (tx "app.map")). split; [reflexivity|]. exists dir2, (tx "app.map"), rx_text, None. split; [reflexivity|]. split; [exact vx_built2|]. split; [left; reflexivity|]. right. apply vx_filled.
    intros o [<-|[]]; eexists; repeat split.
Qed.
Definition vx_run (a : args) := run_files vx_disk (get_memory_types chip_info) mx_render mx_encode mx_order mx_pct (px_cmd a) no_faults (start []).
(** one row for both sections, one entry for both archives, also with --no-abbrev *)
Example c124_summary_example : exists s tb,
  merged vx_disk (px_cmd (vx_args FTable false None)) vx_new (Some vx_old) /\ of_types (vx_args FTable false None) /\
  vx_run (vx_args FTable false None) = (Done tt, s) /\ s_printed s = [PTable tb] /\
  tb_rows tb = [ map tx ["IRAM"; "32    +16"; "%"; "130016    -16"; "130048      0"]; map tx ["   .text"; "32    +16"; "%"; ""; ""] ]%string.
Proof.
  do 2 eexists. split; [apply vx_merged|]. split; [repeat split|]. split; [vm_compute; reflexivity|]. split; [reflexivity|]. vm_compute. reflexivity.
Qed.
Example c124_json_example : exists s rows,
  merged vx_disk (px_cmd (vx_args FJson2 true None)) vx_new (Some vx_old) /\ asked false (vx_args FJson2 true None) /\
  vx_run (vx_args FJson2 true None) = (Done tt, s) /\ s_printed s = [PEntries rows] /\
  rx_brief rows = [ (tx "libx.a", (tx "libx.a", 32, 32)); (tx "libmain.a", (tx "libmain.a", 0, -16)) ].
Proof.
  do 2 eexists. split; [apply vx_merged|]. split; [reflexivity|]. split; [vm_compute; reflexivity|]. split; [reflexivity|]. vm_compute. reflexivity.
Qed.
Example c124_table_example : exists s tb,
  asked_filter (vx_args FTable true (Some (map show_pattern rx_pattern))) (Some rx_pattern) /\
  vx_run (vx_args FTable true (Some (map show_pattern rx_pattern))) = (Done tt, s) /\ s_printed s = [PTable tb] /\
  tb_headers tb = map tx ["Archive File"; "Total Size"; "IRAM"; ".text"]%string /\
  tb_rows tb = [ map tx ["libx.a"; "32    +32"; "32    +32"; "32    +32"]; map tx ["libmain.a"; "0    -16"; "0    -16"; "0    -16"] ]%string.
Proof.
  do 2 eexists. split; [split; [reflexivity|]; constructor; [|constructor]; do 3 (constructor; [cbn; repeat split; discriminate|]); constructor; [exact Logic.I|constructor]|].
  split; [vm_compute; reflexivity|]. split; [reflexivity|]. split; vm_compute; reflexivity.
Qed.
