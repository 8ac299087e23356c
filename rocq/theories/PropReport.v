(** * Properties C95 to C97: the reports of a project, alone or compared with a reference *)
From Coq Require Import Ascii String List ZArith Lia Bool Sorted.
From Verif Require Import Base MemMap SpecTree SpecOps Filter SpecFilter Pipeline SpecPipe SpecBuild SpecBytes SpecShape PyStr MapFile SpecMap FixMap
  ElfRead SpecElf FixElf Project SpecProject FixProject ProofProject2 SpecEnd Chips SpecChips ProofChips Deps Table SpecTable Formats Main SpecMain FixMain Command SpecCommand SpecFail SpecReport
  PropProject PropEnd PropCommand PropFail ProofBytes ProofReport4 ProofReport5 ProofReport6.
Import ListNotations.
Open Scope list_scope.
Open Scope Z_scope.

(** C95: the summary as a table, as text or as CSV.  The rows are those of the memory types
    listed for the project or for the reference, unless nothing changed; each is followed by
    the rows of its sections.  Every number is the one that the link map, the headers of the
    ELF file and the description of the chip give, and every difference is that to the
    reference.  The rows are in the order that is asked for.  The notes below the table tell
    the size of the image. *)
Theorem c95_summary_table : forall d c k r o files s render encode ord pf,
  reported d c k r -> of_types (c_args c) -> a_format (c_args c) = FTable \/ a_format (c_args c) = FText \/ a_format (c_args c) = FCsv ->
  run_files d (get_memory_types chip_info) render encode ord pf c o (start files) = (Done tt, s) ->
  exists tb i groups rows, prints (c_args c) s tb /\ tb_headers tb = usage_headers /\ tb_rows tb = concat rows /\ Forall2 (pgroup_rows (c_args c)) groups rows /\
    NoDup (map pg_type groups) /\
    (forall T, In T (map pg_type groups) <-> present k r (lists_type (c_args c) T) /\ exists v, measured k r (used_bytes T) v /\ differs (c_args c) v) /\
    Forall (pgroup_right k r (c_args c)) groups /\
    names_column usage_headers (a_sort (c_args c)) i /\
    (i <> 2%nat -> StronglySorted (fun x y => in_order (a_sort_reverse (c_args c)) (pick (a_sort_diff (c_args c)) (pg_value i x)) (pick (a_sort_diff (c_args c)) (pg_value i y))) groups) /\
    (i = 1%nat -> Forall (fun g => StronglySorted (fun x y => in_order (a_sort_reverse (c_args c)) (pick (a_sort_diff (c_args c)) (snd x)) (pick (a_sort_diff (c_args c)) (snd y))) (pg_sections g)) groups) /\
    (a_format (c_args c) <> FCsv -> exists v, measured k r (fun q => image_bytes (ac_im q) (ac_l q)) v /\ In (ImageInfo (fst v) (snd v)) (s_notes s)).
Proof. exact usage_report. Qed.
Print Assumptions c95_summary_table.

(** C96: the report on archives or object files as JSON *)
Theorem c96_entries_json : forall d c k r o files fs s render encode ord pf,
  reported d c k r -> asked files (c_args c) -> (given (a_archive_details (c_args c)) = true -> a_use_dwarf (c_args c) <> Some true) ->
  tells_files files k r -> a_format (c_args c) = FJson2 ->
  run_files d (get_memory_types chip_info) render encode ord pf c o (start fs) = (Done tt, s) ->
  exists rows, s_printed s = [PEntries rows] /\ entries_right files k r (c_args c) rows /\ entries_sorted (c_args c) rows.
Proof. exact entries_json. Qed.
Print Assumptions c96_entries_json.

(** C97: the report on archives or object files as a table, as text or as CSV, with --filter *)
Theorem c97_entries_table : forall d c k r o files ps fs s render encode ord pf,
  reported d c k r -> asked files (c_args c) -> (given (a_archive_details (c_args c)) = true -> a_use_dwarf (c_args c) <> Some true) ->
  tells_files files k r -> asked_filter (c_args c) ps ->
  a_format (c_args c) = FTable \/ a_format (c_args c) = FText \/ a_format (c_args c) = FCsv ->
  run_files d (get_memory_types chip_info) render encode ord pf c o (start fs) = (Done tt, s) ->
  exists tb is, prints (c_args c) s tb /\ table_items files k r (c_args c) ps is /\
    let first := list_ascii_of_string (if files then "Object File" else "Archive File") in
    (is = [] -> tb_headers tb = [first; list_ascii_of_string "Total Size"] /\ tb_rows tb = []) /\
    (is <> [] -> exists groups titles i col, columns_right k r (c_args c) groups /\ tb_headers tb = first :: titles /\ Forall2 (column_title (c_args c)) (columns groups) titles /\
       Forall2 (table_row files k r (c_args c) (columns groups)) is (tb_rows tb) /\
       names_column (tb_headers tb) (a_sort (c_args c)) (S i) /\ nth_error (columns groups) i = Some col /\
       StronglySorted (fun x y => forall v w, measured k r (own_bytes (row_own files x) col) v -> measured k r (own_bytes (row_own files y) col) w ->
         in_order (a_sort_reverse (c_args c)) (pick (a_sort_diff (c_args c)) v) (pick (a_sort_diff (c_args c)) w)) is).
Proof. exact entries_table_report. Qed.
Print Assumptions c97_entries_table.

(** ** example: a project and an older build of it, in another directory *)
Definition rx_item : item := Item (fx ".text.a") 1074267136 16 (fx "esp-idf/main/libmain.a") (fx "app main.c.obj") [].
Definition rx_section : printed := Printed (fx ".iram0.text") 1074267136 16 [rx_item].
Definition rx_lines : list str := fx_table ++ fx_head :: map fx [".iram0.text     0x40080400       0x10"; " .text.a        0x40080400       0x10 esp-idf/main/libmain.a(app main.c.obj)"; ""]%string.
Definition rx_text : str := flat_map (fun l => l ++ ["010"%char]) rx_lines.
Lemma rx_map_ok : printed_map fx_regions [rx_section] None (splitlines rx_text).
Proof.
  replace (splitlines rx_text) with rx_lines by (vm_compute; reflexivity). apply pm_crt_absent; [exact fx_table_ok|t_prefix|].
  change (script_lines [rx_section] ([] ++ ([fx ".iram0.text     0x40080400       0x10"] ++ [] ++ List.concat [[fx " .text.a        0x40080400       0x10 esp-idf/main/libmain.a(app main.c.obj)"]] ++ [fx ""]) ++ [])).
  apply script_cons; [constructor| |constructor; constructor].
  apply section_lines_intro; [|constructor| |t_blank].
  - apply (sh_one rx_section (fx "     ") (fx "0x40080400") (fx "       ") (fx "0x10") []); [split; [t_word|t_prefix]|t_num|t_num|t_gap|t_gap|t_blank].
  - constructor; [|constructor]. apply (item_lines_intro rx_item [fx " .text.a        0x40080400       0x10 esp-idf/main/libmain.a(app main.c.obj)"] []); [|reflexivity|constructor].
    apply head_one with (g := fx "        ") (r := fx "0x40080400       0x10 esp-idf/main/libmain.a(app main.c.obj)"); [split; [t_word|left; t_prefix]|t_gap| |t_line].
    apply (fx_rest _ "0x40080400" "       " "0x10" " " "esp-idf/main/libmain.a(app main.c.obj)"); [t_num|t_gap|t_num|t_gap|cbl|discriminate| |cbl].
    apply (loc_member (fx "esp-idf/main/libmain.a") (fx "app main.c.obj")). t_not_in.
Qed.
Definition rx_disk : disk :=
  {| d_cwd := d_cwd disk1;
     d_text := fun fn => if fn =?= in_dir dir2 (tx "app.map") then Some rx_text else d_text disk1 fn;
     d_json := fun fn => match d_json disk1 fn with Some j => Some j | None => d_json disk2 fn end;
     d_isfile := fun fn => d_isfile disk1 fn || d_isfile disk2 fn;
     d_bytes := fun fn => match d_bytes disk1 fn with Some j => Some j | None => d_bytes disk2 fn end |}.
Lemma rx_image dir : description rx_disk dir = Some (JObj px_object) -> d_isfile rx_disk (in_dir dir (tx "app.elf")) = true -> d_bytes rx_disk (in_dir dir (tx "app.elf")) = Some px_elf ->
  image_of rx_disk dir (tx "app.map") (Some px_headers).
Proof.
  intros D1 D2 D3. pose proof px_file_image as I. inversion I as [| | |o app fn file l E1 E2 E3 E4 E5 E6]; subst.
  apply (image_file _ _ _ px_object (tx "app.elf") (in_dir dir (tx "app.elf")) px_elf _ D1 px_describes); [|exact D2|exact D3|].
  - right. split; [|reflexivity]. intros (r & R). discriminate R.
  - replace px_elf with file; [exact E6|]. vm_compute in E1. injection E1 as <-. destruct E2 as (Ea & _). vm_compute in Ea. injection Ea as <-.
    destruct E3 as [(X & _)|(_ & ->)]; [exfalso; destruct X as (r & R); discriminate R|]. vm_compute in E5. injection E5 as <-. vm_compute. reflexivity.
Qed.
Lemma rx_built1 : built rx_disk dir1 (tx "app.map") px_text fx_regions fx_sections (Some fx_entries) (Some px_headers) types_esp32.
Proof.
  destruct px_built as [D P T M R _ _ S N]. split; try assumption.
  - apply rx_image; vm_compute; reflexivity.
  - exists (tx "esp32"). split; [|exact types_esp32_ok].
    apply (target_described _ _ _ _ px_object (tx "app.elf")); [vm_compute; reflexivity|exact px_describes|reflexivity|discriminate].
Qed.
Lemma rx_built2 : built rx_disk dir2 (tx "app.map") rx_text fx_regions [rx_section] None (Some px_headers) types_esp32.
Proof.
  split.
  - exact dir2_ok.
  - apply proper_ok. reflexivity.
  - vm_compute. reflexivity.
  - exact rx_map_ok.
  - constructor; [|constructor]. split; [|split].
    + constructor; [intros a n []|constructor].
    + constructor.
    + exact I.
  - apply rx_image; vm_compute; reflexivity.
  - exists (tx "esp32"). split; [|exact types_esp32_ok].
    apply (target_described _ _ _ _ px_object (tx "app.elf")); [vm_compute; reflexivity|exact px_describes|reflexivity|discriminate].
  - constructor; [|constructor]. intros _. split; [|split].
    + right. intros a (A & B). cbn in A, B. exists (Region (fx "iram0_0_seg") 1074267136 130048 (fx "xr")). split; [left; reflexivity|].
      split; [discriminate|]. cbn [r_origin r_length]. split; [lia|]. intros a' Ha'. apply px_iram. lia.
    + intros a b T (A1 & A2) (B1 & B2) L _ _. cbn in A1, A2, B1, B2. split.
      * intros r [<-|[<-|[]]] N H; cbn [r_origin r_length r_name] in *; [lia|]. lia.
      * intros t lo hi It W H. apply windows_of_ok in W.
        destruct It as [<-|[<-|[<-|[<-|[<-|[<-|[<-|[]]]]]]]]; cbn in W; repeat (destruct W as [W|W]; [injection W as <- <-; lia|]); contradiction.
    + constructor; [cbn; lia|constructor].
  - intros l1 o l2 o' l3 E. destruct l1 as [|x l1]; [|destruct l1; discriminate E]. injection E as _ E. destruct l2; discriminate E.
Qed.
Lemma rx_filled : filled (Some px_headers) types_esp32 [rx_section].
Proof.
  constructor; [|constructor]. intros C T a (B1 & B2) G. cbn in B1, B2.
  exists rx_item, 1074267136. split; [left; reflexivity|]. split; [cbn; lia|].
  destruct G as [(N & X)|(N & t & F & Et)]; [left; now split|]. right. split; [exact N|].
  exists t. split; [|exact Et]. rewrite (first_covering_unique _ _ _ _ F (px_first a ltac:(lia))). apply px_first. lia.
Qed.
Definition rx_new : account := Account fx_regions fx_sections (Some px_headers) types_esp32.
Definition rx_old : account := Account fx_regions [rx_section] (Some px_headers) types_esp32.
Definition rx_args (f : format) (archives files : bool) (filter : option (list str)) : args :=
  Args f archives false false false None files (Some (in_dir dir2 (tx "app.map"))) false true false false false false (Some false) None (tx "1") filter true true.
Lemma rx_reported f archives files filter : reported rx_disk (px_cmd (rx_args f archives files filter)) rx_new (Some rx_old).
Proof.
  split; [|split; [|split; reflexivity]].
  - exists dir1, (tx "app.map"), px_text, (Some fx_entries). split; [reflexivity|]. split; [exact rx_built1|]. split; [left; reflexivity|]. right. exact px_filled.
  - exists (in_dir dir2 (tx "app.map")). split; [reflexivity|]. exists dir2, (tx "app.map"), rx_text, None. split; [reflexivity|]. split; [exact rx_built2|]. split; [left; reflexivity|]. right. exact rx_filled.
Qed.
Lemma rx_tells files : tells_files files rx_new (Some rx_old).
Proof.
  intros _ i [(o & Io & _ & Ii & _)|(o & Io & _ & Ii & _)]; cbn in Io; repeat (destruct Io as [<-|Io]; [cbn in Ii; repeat (destruct Ii as [<-|Ii]; [t_not_in|]); contradiction|]); contradiction.
Qed.
Definition rx_run (a : args) := run_files rx_disk (get_memory_types chip_info) mx_render mx_encode mx_order mx_pct (px_cmd a) no_faults (start []).
(** IRAM has 16 bytes more than before *)
Example c95_example : exists s tb,
  reported rx_disk (px_cmd (rx_args FTable false false None)) rx_new (Some rx_old) /\ of_types (rx_args FTable false false None) /\
  rx_run (rx_args FTable false false None) = (Done tt, s) /\ s_printed s = [PTable tb] /\
  tb_rows tb = [ map tx ["IRAM"; "32    +16"; "%"; "130016    -16"; "130048      0"]; map tx ["   .text"; "32    +16"; "%"; ""; ""] ]%string.
Proof.
  do 2 eexists. split; [apply rx_reported|]. split; [repeat split|]. split; [vm_compute; reflexivity|]. split; [reflexivity|]. vm_compute. reflexivity.
Qed.
(** libmain.a has 8 bytes less than before, the 16 bytes of (exe) are new; sorted by the
    difference *)
Definition rx_brief (d : dict str sentry) := map (fun kv => (fst kv, (se_abbrev (snd kv), se_size (snd kv), se_diff (snd kv)))) d.
Example c96_example : exists s rows s' rows',
  reported rx_disk (px_cmd (rx_args FJson2 true false None)) rx_new (Some rx_old) /\ asked false (rx_args FJson2 true false None) /\ tells_files false rx_new (Some rx_old) /\
  rx_run (rx_args FJson2 true false None) = (Done tt, s) /\ s_printed s = [PEntries rows] /\
  rx_brief rows = [ (tx "(exe)", (tx "(exe)", 16, 16)); (tx "esp-idf/main/libmain.a", (tx "libmain.a", 8, -8)) ] /\
  reported rx_disk (px_cmd (rx_args FJson2 false true None)) rx_new (Some rx_old) /\ asked true (rx_args FJson2 false true None) /\ tells_files true rx_new (Some rx_old) /\
  rx_run (rx_args FJson2 false true None) = (Done tt, s') /\ s_printed s' = [PEntries rows'] /\
  rx_brief rows' = [ (tx "(exe):/path with space/crt0.o", (tx "crt0.o", 16, 16)); (tx "esp-idf/main/libmain.a:app main.c.obj", (tx "app main.c.obj", 8, -8)) ].
Proof.
  do 4 eexists. split; [apply rx_reported|]. split; [reflexivity|]. split; [apply rx_tells|]. split; [vm_compute; reflexivity|]. split; [reflexivity|]. split; [vm_compute; reflexivity|].
  split; [apply rx_reported|]. split; [repeat split|]. split; [apply rx_tells|]. split; [vm_compute; reflexivity|]. split; [reflexivity|]. vm_compute. reflexivity.
Qed.
(** the archives whose names begin with "lib" *)
Definition rx_pattern : list (list SpecFilter.piece) := [[SpecFilter.Char "l"%char; SpecFilter.Char "i"%char; SpecFilter.Char "b"%char; AnyText]].
Example c97_example : exists s tb s' tb',
  asked_filter (rx_args FTable true false (Some (map show_pattern rx_pattern))) (Some rx_pattern) /\ map show_pattern rx_pattern = [tx "lib*"] /\
  rx_run (rx_args FTable true false (Some (map show_pattern rx_pattern))) = (Done tt, s) /\ s_printed s = [PTable tb] /\
  tb_headers tb = map tx ["Archive File"; "Total Size"; "IRAM"; ".text"]%string /\
  tb_rows tb = [ map tx ["libmain.a"; "8     -8"; "8     -8"; "8     -8"] ]%string /\
  asked_filter (rx_args FTable false true None) None /\
  rx_run (rx_args FTable false true None) = (Done tt, s') /\ s_printed s' = [PTable tb'] /\
  tb_headers tb' = map tx ["Object File"; "Total Size"; "IRAM"; ".text"]%string /\
  tb_rows tb' = [ map tx ["crt0.o"; "16    +16"; "16    +16"; "16    +16"]; map tx ["app main.c.obj"; "8     -8"; "8     -8"; "8     -8"] ]%string.
Proof.
  do 4 eexists. split; [split; [reflexivity|]; constructor; [|constructor]; do 3 (constructor; [cbn; repeat split; discriminate|]); constructor; [exact I|constructor]|]. split; [reflexivity|]. split; [vm_compute; reflexivity|]. split; [reflexivity|]. split; [vm_compute; reflexivity|]. split; [vm_compute; reflexivity|].
  split; [reflexivity|]. split; [vm_compute; reflexivity|]. split; [reflexivity|]. split; vm_compute; reflexivity.
Qed.

(** ** the difference of the total size *)
(** a memory that the reference does not use is taken as one that it does not have: both
    projects are for the same chip with the same memory regions, and still all of the memory
    is reported as added *)
Definition ox_sections : list printed := [Printed (fx ".dram0.data") 1070071808 32 [gx_item1]].
Definition ox_lines : list str := fx_table ++ fx_head :: fx ".dram0.data     0x3fc80000       0x20" :: List.concat [gx_lines1] ++ [fx ""].
Definition ox_text : str := flat_map (fun l => l ++ ["010"%char]) ox_lines.
Definition ox_disk : disk := Disk (d_cwd rx_disk) (fun fn => if fn =?= in_dir dir2 (tx "app.map") then Some ox_text else d_text disk1 fn) (d_json rx_disk) (d_isfile rx_disk) (d_bytes rx_disk).
Definition ox_old : account := Account fx_regions ox_sections (Some px_headers) types_esp32.
Definition ox_args : args := rx_args FTable false false None.
Lemma ox_image dir : image_of rx_disk dir (tx "app.map") (Some px_headers) -> image_of ox_disk dir (tx "app.map") (Some px_headers).
Proof. intros I. inversion I as [| | |o app fn file l E1 E2 E3 E4 E5 E6]; subst. eapply (image_file ox_disk); eassumption. Qed.
Lemma ox_uncounted o : In o ox_sections -> ~ counted (Some px_headers) o.
Proof.
  intros [<-|[]] (_ & _ & C & _). destruct C as (hs & h & E & I & _).
  - exists (tx ".iram0.text"), px_headers. eexists. split; [reflexivity|]. split; [right; left; reflexivity|]. split; discriminate.
  - injection E as <-. destruct I as [I|[I|[I|[]]]]; injection I as I _; discriminate I.
Qed.
Lemma ox_built : built ox_disk dir2 (tx "app.map") ox_text fx_regions ox_sections None (Some px_headers) types_esp32.
Proof.
  split.
  - exact dir2_ok.
  - apply proper_ok. reflexivity.
  - vm_compute. reflexivity.
  - replace (splitlines ox_text) with ox_lines by (vm_compute; reflexivity). apply pm_crt_absent; [exact fx_table_ok|t_prefix|].
    apply (gx_script_of [gx_item1] [gx_lines1]). constructor; [exact gx_item1_ok|constructor].
  - constructor; [|constructor]. split; [|split].
    + constructor; [intros a n []|constructor].
    + constructor.
    + exact I.
  - apply ox_image. apply (bt_image _ _ _ _ _ _ _ _ _ rx_built2).
  - exists (tx "esp32"). split; [|exact types_esp32_ok].
    apply (target_described _ _ _ _ px_object (tx "app.elf")); [vm_compute; reflexivity|exact px_describes|reflexivity|discriminate].
  - apply Forall_forall. intros o I C. exfalso. now apply (ox_uncounted o).
  - intros l1 o l2 o' l3 E. destruct l1 as [|x l1]; [|destruct l1; discriminate E]. injection E as _ E. destruct l2; discriminate E.
Qed.
Lemma ox_reported : reported ox_disk (px_cmd ox_args) rx_new (Some ox_old).
Proof.
  split; [|split; [|split; reflexivity]].
  - exists dir1, (tx "app.map"), px_text, (Some fx_entries). split; [reflexivity|]. split; [|split; [left; reflexivity|right; exact px_filled]].
    destruct rx_built1 as [D P T M R Im Ty S N]. split; [exact D|exact P|vm_compute; reflexivity|exact M|exact R|now apply ox_image| |exact S|exact N].
    exists (tx "esp32"). split; [|exact types_esp32_ok].
    apply (target_described _ _ _ _ px_object (tx "app.elf")); [vm_compute; reflexivity|exact px_describes|reflexivity|discriminate].
  - exists (in_dir dir2 (tx "app.map")). split; [reflexivity|]. exists dir2, (tx "app.map"), ox_text, None. split; [reflexivity|]. split; [exact ox_built|]. split; [left; reflexivity|]. right.
    apply Forall_forall. intros o I C. exfalso. now apply (ox_uncounted o).
Qed.
Theorem c95_total_refuted : exists d c k k' s tb,
  reported d c k (Some k') /\ of_types (c_args c) /\ ac_rs k = ac_rs k' /\ ac_types k = ac_types k' /\
  run_files d (get_memory_types chip_info) mx_render mx_encode mx_order mx_pct c no_faults (start []) = (Done tt, s) /\ s_printed s = [PTable tb] /\
  exists rest, tb_rows tb = map tx ["IRAM"; "32    +32"; "%"; "130016 +130016"; "130048 +130048"]%string :: rest.
Proof.
  exists ox_disk, (px_cmd ox_args), rx_new, ox_old. do 2 eexists. split; [exact ox_reported|]. split; [repeat split|]. split; [reflexivity|]. split; [reflexivity|].
  split; [vm_compute; reflexivity|]. split; [reflexivity|]. eexists. vm_compute. reflexivity.
Qed.
Print Assumptions c95_total_refuted.
