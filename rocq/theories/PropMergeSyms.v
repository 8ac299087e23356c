(** * Property C147: the report on the symbols of an archive with --unify *)
From Coq Require Import Ascii String List ZArith Lia Bool Sorted.
From Verif Require Import Base MemMap SpecTree SpecOps Filter SpecFilter Pipeline SpecPipe SpecBuild SpecBytes SpecShape SpecSyms PyStr MapFile SpecMap FixMap
  ElfRead SpecElf FixElf Project SpecProject FixProject ProofProject2 SpecEnd Chips SpecChips ProofChips Deps Table SpecTable Formats Main SpecMain FixMain Command SpecCommand SpecFail SpecReport SpecSymbols SpecMerge SpecMergeFiles SpecMergeSyms
  PropProject PropEnd PropCommand PropFail PropReport ProofBytes ProofTypes ProofBytes3 ProofBuild ProofEnd ProofCommand3 PropMerge PropMergeFiles ProofMergeSyms4.
Import ListNotations.
Open Scope list_scope.
Open Scope Z_scope.

(** C147: symbols with the same name, in archives with the same base name, are one symbol,
    whatever object files they are in: each number is that of all of them together. Numbers
    for a section are right only for a name whose symbols are in object files with one base
    name ([one_file] in [nentry_right] and [ntable_row]); otherwise see [c147_refuted].
    As JSON: *)
Theorem c147_json_partial : forall d c x q r o fs s render encode ord pf,
  symbols_merged d c q r -> asked_symbols (c_args c) x -> a_format (c_args c) = FJson2 ->
  run_files d (get_memory_types chip_info) render encode ord pf c o (start fs) = (Done tt, s) ->
  (exists i, symbol_of x q r i) /\ exists rows, s_printed s = [PEntries rows] /\ nentries_right x q r (c_args c) rows /\ entries_sorted (c_args c) rows.
Proof. exact merged_symbols_json. Qed.
Print Assumptions c147_json_partial.

(** as a table, as text or as CSV, with --filter *)
Theorem c147_table_partial : forall d c x q r o ps fs s render encode ord pf,
  symbols_merged d c q r -> asked_symbols (c_args c) x -> asked_filter (c_args c) ps ->
  a_format (c_args c) = FTable \/ a_format (c_args c) = FText \/ a_format (c_args c) = FCsv ->
  run_files d (get_memory_types chip_info) render encode ord pf c o (start fs) = (Done tt, s) ->
  exists tb ys, prints (c_args c) s tb /\ (exists i, symbol_of x q r i) /\ ntable_names x q r (c_args c) ps ys /\
    (ys = [] -> tb_headers tb = [list_ascii_of_string "Symbol"; list_ascii_of_string "Total Size"] /\ tb_rows tb = []) /\
    (ys <> [] -> exists groups titles i col, mcolumns_right q r (c_args c) groups /\ tb_headers tb = list_ascii_of_string "Symbol" :: titles /\ Forall2 mcolumn_title (columns groups) titles /\
       Forall2 (ntable_row x q r (c_args c) (columns groups)) ys (tb_rows tb) /\
       names_column (tb_headers tb) (a_sort (c_args c)) (S i) /\ nth_error (columns groups) i = Some col /\
       ((of_section col -> forall y, In y ys -> one_file q r x y) ->
        StronglySorted (fun y z => forall v w, measured q r (named_bytes x y col) v -> measured q r (named_bytes x z col) w ->
         in_order (a_sort_reverse (c_args c)) (pick (a_sort_diff (c_args c)) v) (pick (a_sort_diff (c_args c)) w)) ys)).
Proof. exact merged_symbols_report. Qed.
Print Assumptions c147_table_partial.

(** ** example: input sections .text.a of two object files a.o, and .text.c of c.o and d.o, in
    two archives named libx.a; there is no ELF file, and so they are listed as symbols *)
Local Notation tx := (fun s => list_ascii_of_string s%string).
Definition un_item1 : item := Item (fx ".text.a") 1074267136 8 (fx "esp-idf/a/libx.a") (fx "a.o") [].
Definition un_item2 : item := Item (fx ".text.c") 1074267144 8 (fx "esp-idf/a/libx.a") (fx "c.o") [].
Definition un_item3 : item := Item (fx ".text.a") 1074267152 8 (fx "esp-idf/b/libx.a") (fx "a.o") [].
Definition un_item4 : item := Item (fx ".text.c") 1074267160 8 (fx "esp-idf/b/libx.a") (fx "d.o") [].
Definition un_section1 : printed := Printed (fx ".iram0.text") 1074267136 16 [un_item1; un_item2].
Definition un_section2 : printed := Printed (fx ".iram1.text") 1074267152 16 [un_item3; un_item4].
Definition un_line1 : str := fx " .text.a        0x40080400        0x8 esp-idf/a/libx.a(a.o)".
Definition un_line2 : str := fx " .text.c        0x40080408        0x8 esp-idf/a/libx.a(c.o)".
Definition un_line3 : str := fx " .text.a        0x40080410        0x8 esp-idf/b/libx.a(a.o)".
Definition un_line4 : str := fx " .text.c        0x40080418        0x8 esp-idf/b/libx.a(d.o)".
Definition un_lines : list str := fx_table ++ fx_head :: [fx ".iram0.text     0x40080400       0x10"; un_line1; un_line2; fx ""; fx ".iram1.text     0x40080410       0x10"; un_line3; un_line4; fx ""].
Definition un_text : str := flat_map (fun l => l ++ ["010"%char]) un_lines.
Lemma un_map_ok : printed_map fx_regions [un_section1; un_section2] None (splitlines un_text).
Proof.
  replace (splitlines un_text) with un_lines by (vm_compute; reflexivity). apply pm_crt_absent; [exact fx_table_ok|t_prefix|].
  change (script_lines [un_section1; un_section2] ([] ++ ([fx ".iram0.text     0x40080400       0x10"] ++ [] ++ List.concat [[un_line1]; [un_line2]] ++ [fx ""]) ++ ([] ++ ([fx ".iram1.text     0x40080410       0x10"] ++ [] ++ List.concat [[un_line3]; [un_line4]] ++ [fx ""]) ++ []))).
  apply script_cons; [constructor| |apply script_cons; [constructor| |constructor; constructor]].
  - apply section_lines_intro; [|constructor| |t_blank].
    + apply (sh_one un_section1 (fx "     ") (fx "0x40080400") (fx "       ") (fx "0x10") []); [split; [t_word|t_prefix]|t_num|t_num|t_gap|t_gap|t_blank].
    + constructor; [|constructor; [|constructor]].
      * apply (item_lines_intro un_item1 [un_line1] []); [|reflexivity|constructor].
        apply head_one with (g := fx "        ") (r := fx "0x40080400        0x8 esp-idf/a/libx.a(a.o)"); [split; [t_word|left; t_prefix]|t_gap| |t_line].
        apply (fx_rest _ "0x40080400" "        " "0x8" " " "esp-idf/a/libx.a(a.o)"); [t_num|t_gap|t_num|t_gap|cbl|discriminate| |cbl].
        apply (loc_member (fx "esp-idf/a/libx.a") (fx "a.o")). t_not_in.
      * apply (item_lines_intro un_item2 [un_line2] []); [|reflexivity|constructor].
        apply head_one with (g := fx "        ") (r := fx "0x40080408        0x8 esp-idf/a/libx.a(c.o)"); [split; [t_word|left; t_prefix]|t_gap| |t_line].
        apply (fx_rest _ "0x40080408" "        " "0x8" " " "esp-idf/a/libx.a(c.o)"); [t_num|t_gap|t_num|t_gap|cbl|discriminate| |cbl].
        apply (loc_member (fx "esp-idf/a/libx.a") (fx "c.o")). t_not_in.
  - apply section_lines_intro; [|constructor| |t_blank].
    + apply (sh_one un_section2 (fx "     ") (fx "0x40080410") (fx "       ") (fx "0x10") []); [split; [t_word|t_prefix]|t_num|t_num|t_gap|t_gap|t_blank].
    + constructor; [|constructor; [|constructor]].
      * apply (item_lines_intro un_item3 [un_line3] []); [|reflexivity|constructor].
        apply head_one with (g := fx "        ") (r := fx "0x40080410        0x8 esp-idf/b/libx.a(a.o)"); [split; [t_word|left; t_prefix]|t_gap| |t_line].
        apply (fx_rest _ "0x40080410" "        " "0x8" " " "esp-idf/b/libx.a(a.o)"); [t_num|t_gap|t_num|t_gap|cbl|discriminate| |cbl].
        apply (loc_member (fx "esp-idf/b/libx.a") (fx "a.o")). t_not_in.
      * apply (item_lines_intro un_item4 [un_line4] []); [|reflexivity|constructor].
        apply head_one with (g := fx "        ") (r := fx "0x40080418        0x8 esp-idf/b/libx.a(d.o)"); [split; [t_word|left; t_prefix]|t_gap| |t_line].
        apply (fx_rest _ "0x40080418" "        " "0x8" " " "esp-idf/b/libx.a(d.o)"); [t_num|t_gap|t_num|t_gap|cbl|discriminate| |cbl].
        apply (loc_member (fx "esp-idf/b/libx.a") (fx "d.o")). t_not_in.
Qed.
(** the ELF files are gone; the reference is the project of C124 *)
Definition un_disk : disk :=
  {| d_cwd := d_cwd disk1; d_text := fun fn => if fn =?= in_dir dir1 (tx "app.map") then Some un_text else if fn =?= in_dir dir2 (tx "app.map") then Some rx_text else None;
     d_json := d_json rx_disk; d_isfile := fun fn => false; d_bytes := fun fn => None |}.
Lemma un_image dir : description un_disk dir = Some (JObj px_object) -> image_of un_disk dir (tx "app.map") None.
Proof.
  intros D. apply (image_missing _ _ _ px_object (tx "app.elf") (in_dir dir (tx "app.elf")) D px_describes); [|reflexivity]. right. split; [|reflexivity]. intros (r & R). discriminate R.
Qed.
Lemma un_built1 : built un_disk dir1 (tx "app.map") un_text fx_regions [un_section1; un_section2] None None types_esp32.
Proof.
  destruct px_built as [D P _ _ _ _ _ _ _]. split.
  - exact D.
  - exact P.
  - vm_compute. reflexivity.
  - exact un_map_ok.
  - constructor; [|constructor; [|constructor]]; (split; [constructor; [intros a n []|constructor; [intros a n []|constructor]]|split; [constructor; [split; [cbn; lia|reflexivity]|constructor]|split; [discriminate|exact Logic.I]]]).
  - apply un_image. vm_compute. reflexivity.
  - exists (tx "esp32"). split; [|exact types_esp32_ok].
    apply (target_described _ _ _ _ px_object (tx "app.elf")); [vm_compute; reflexivity|exact px_describes|reflexivity|discriminate].
  - constructor; [|constructor; [|constructor]]; intros _.
    + destruct (vx_fits un_section1) as (F1 & F2); [cbn; lia|cbn; lia|]. split; [exact F1|]. split; [exact F2|]. constructor; [cbn; lia|constructor; [cbn; lia|constructor]].
    + destruct (vx_fits un_section2) as (F1 & F2); [cbn; lia|cbn; lia|]. split; [exact F1|]. split; [exact F2|]. constructor; [cbn; lia|constructor; [cbn; lia|constructor]].
  - intros l1 o l2 o' l3 E _ _. destruct l1 as [|x l1]; [|destruct l1 as [|y l1]; [|destruct l1; discriminate E]].
    + injection E as <- E. destruct l2 as [|y l2]; [injection E as <- _; discriminate|]. injection E as _ E. destruct l2; discriminate E.
    + injection E as _ _ E. destruct l2; discriminate E.
Qed.
Lemma un_built2 : built un_disk dir2 (tx "app.map") rx_text fx_regions [rx_section] None None types_esp32.
Proof.
  destruct rx_built2 as [D P _ Mp Rg _ _ _ N]. split.
  - exact D.
  - exact P.
  - vm_compute. reflexivity.
  - exact Mp.
  - exact Rg.
  - apply un_image. vm_compute. reflexivity.
  - exists (tx "esp32"). split; [|exact types_esp32_ok].
    apply (target_described _ _ _ _ px_object (tx "app.elf")); [vm_compute; reflexivity|exact px_describes|reflexivity|discriminate].
  - constructor; [|constructor]. intros _. destruct (vx_fits rx_section) as (F1 & F2); [cbn; lia|cbn; lia|]. split; [exact F1|]. split; [exact F2|]. constructor; [cbn; lia|constructor].
  - intros l1 o l2 o' l3 E. destruct l1 as [|x l1]; [|destruct l1; discriminate E]. injection E as _ E. destruct l2; discriminate E.
Qed.

Definition un_new : account := Account fx_regions [un_section1; un_section2] None types_esp32.
Definition un_old : account := symbol_account None vx_old.
Definition un_args (f : format) (diff : option str) (filter : option (list str)) : args :=
  Args f false false false false (Some (tx "libx.a")) false diff true false true false false false (Some false) None (tx "1") filter false true.
Definition un_ref : option str := Some (in_dir dir2 (tx "app.map")).
Definition un_counts (o : printed) : bool := keep_section (get_elf_sections_headers None) (printed_section o).
Lemma un_counted o : un_counts o = true <-> counted None o.
Proof. unfold un_counts. rewrite keep_spec. apply (kept_counted None None o Logic.I). Qed.
Lemma un_clear : clear_symbols un_new None.
Proof.
  split.
  - exists un_counts. split; [exact un_counted|]. replace (flat_map _ _) with [un_item1; un_item2; un_item3; un_item4] by (vm_compute; reflexivity).
    constructor; [constructor; [left; cbn; lia|constructor; [left; cbn; lia|constructor; [left; cbn; lia|constructor]]]|].
    constructor; [constructor; [left; cbn; lia|constructor; [left; cbn; lia|constructor]]|]. constructor; [constructor; [left; cbn; lia|constructor]|]. repeat constructor.
  - repeat (constructor; [intros _; cbn [by_symbols pr_items]; vm_compute; repeat (constructor; [intros X; repeat (destruct X as [X|X]; [discriminate X|]); exact X|]); constructor|]). constructor.
Qed.
Lemma un_clear_old : clear_symbols vx_old None.
Proof.
  split.
  - exists un_counts. split; [exact un_counted|]. replace (flat_map _ _) with [rx_item] by (vm_compute; reflexivity). repeat constructor.
  - repeat (constructor; [intros _; cbn [by_symbols pr_items]; vm_compute; repeat (constructor; [intros X; repeat (destruct X as [X|X]; [discriminate X|]); exact X|]); constructor|]). constructor.
Qed.
Lemma un_project f diff filter : symbols_project un_disk (un_args f diff filter) (c_input (px_cmd (un_args f diff filter))) un_new.
Proof.
  exists dir1, (tx "app.map"), un_text, None, un_new, None. split; [reflexivity|]. split; [exact un_built1|]. split; [left; reflexivity|]. split; [right|split; [constructor|split; [exact un_clear|vm_compute; reflexivity]]].
  apply Forall_forall. intros o [<-|[<-|[]]] C T a (B1 & B2) G; cbn in B1, B2.
  - destruct (Z.ltb_spec a 1074267144); [exists un_item1, a|exists un_item2, a]; (split; [cbn; tauto|]; split; [cbn; lia|exact G]).
  - destruct (Z.ltb_spec a 1074267160); [exists un_item3, a|exists un_item4, a]; (split; [cbn; tauto|]; split; [cbn; lia|exact G]).
Qed.
Lemma un_merged f filter : symbols_merged un_disk (px_cmd (un_args f un_ref filter)) un_new (Some un_old).
Proof.
  split; [apply un_project|]. split; [|split; reflexivity]. exists (in_dir dir2 (tx "app.map")). split; [reflexivity|]. exists dir2, (tx "app.map"), rx_text, None, vx_old, None. split; [reflexivity|]. split; [exact un_built2|]. split; [left; reflexivity|].
  split; [right; apply vx_filled; intros o [<-|[]]; eexists; repeat split|]. split; [constructor|]. split; [exact un_clear_old|reflexivity].
Qed.
Lemma un_alone f filter : symbols_merged un_disk (px_cmd (un_args f None filter)) un_new None.
Proof. split; [apply un_project|]. split; [reflexivity|split; reflexivity]. Qed.
Definition un_run (a : args) := run_files un_disk (get_memory_types chip_info) mx_render mx_encode mx_order mx_pct (px_cmd a) no_faults (start []).
(** the symbols .text.a are in object files named a.o *)
Lemma un_one_file : one_file un_new None (tx "libx.a") (tx ".text.a").
Proof.
  exists (tx "a.o"). intros i [P|[]] (_ & Ni). destruct P as (o & Io & _ & Ii & _).
  destruct Io as [<-|[<-|[]]]; destruct Ii as [<-|[<-|[]]]; try (split; [t_not_in|now left]); discriminate Ni.
Qed.
Example c147_json_example : exists s rows s' rows',
  symbols_merged un_disk (px_cmd (un_args FJson2 None None)) un_new None /\ asked_symbols (un_args FJson2 None None) (tx "libx.a") /\ one_file un_new None (tx "libx.a") (tx ".text.a") /\
  un_run (un_args FJson2 None None) = (Done tt, s) /\ s_printed s = [PEntries rows] /\
  rx_brief rows = [ (tx ".text.a", (tx ".text.a", 16, 0)); (tx ".text.c", (tx ".text.c", 16, 0)) ] /\
  map (fun kv => uf_sections (snd kv)) rows = [ [(tx "IRAM", tx ".text", 16, 0)]; [(tx "IRAM", tx ".text", 8, 0)] ] /\
  symbols_merged un_disk (px_cmd (un_args FJson2 un_ref None)) un_new (Some un_old) /\
  un_run (un_args FJson2 un_ref None) = (Done tt, s') /\ s_printed s' = [PEntries rows'] /\
  rx_brief rows' = [ (tx ".text.a", (tx ".text.a", 16, 16)); (tx ".text.c", (tx ".text.c", 16, 16)) ].
Proof.
  do 4 eexists. split; [apply un_alone|]. split; [split; [reflexivity|split; [reflexivity|discriminate]]|]. split; [exact un_one_file|]. split; [vm_compute; reflexivity|]. split; [reflexivity|]. split; [vm_compute; reflexivity|]. split; [vm_compute; reflexivity|].
  split; [apply un_merged|]. split; [vm_compute; reflexivity|]. split; [reflexivity|]. vm_compute. reflexivity.
Qed.
Definition un_pattern : list (list SpecFilter.piece) := [[AnyText; SpecFilter.Char "a"%char]].
Example c147_table_example : exists s tb,
  asked_filter (un_args FTable un_ref (Some (map show_pattern un_pattern))) (Some un_pattern) /\ map show_pattern un_pattern = [tx "*a"] /\
  un_run (un_args FTable un_ref (Some (map show_pattern un_pattern))) = (Done tt, s) /\ s_printed s = [PTable tb] /\
  tb_headers tb = map tx ["Symbol"; "Total Size"; "IRAM"; ".text"]%string /\
  tb_rows tb = [ map tx [".text.a"; "16    +16"; "16    +16"; "16    +16"] ]%string.
Proof.
  do 2 eexists. split; [split; [reflexivity|]; constructor; [|constructor]; constructor; [exact Logic.I|constructor; [cbn; repeat split; discriminate|constructor]]|].
  split; [reflexivity|]. split; [vm_compute; reflexivity|]. split; [reflexivity|]. split; vm_compute; reflexivity.
Qed.

(** ** the numbers of a section, for a name that is in several object files *)
Lemma un_true_bytes n : named_bytes (tx "libx.a") (tx ".text.c") (ColSect (tx "IRAM") (tx ".text")) un_new n -> n = 16.
Proof.
  intros (own & Ho & keep & b & Hk & Hb & ->).
  assert (K : forall o, un_counts o = true -> label [pr_name o] (tx ".text") -> keep o = true) by (intros o C L; apply Hk; split; [now apply un_counted|exact L]).
  assert (L : forall x, label [x ++ tx ".text"] (tx ".text")).
  { intros x. exists (tx "text"). split; [split; [t_not_in|right; now exists x]|reflexivity]. }
  assert (B : forall o i, existsb (fun p => startswith (list_ascii_of_string p) (pr_name o)) EXT_RAM_SECTION_NAMES = false -> 1074267136 <= it_addr i -> it_addr i + it_size i <= 1074267168 -> 0 <= it_size i -> bytes_with (b o) (it_addr i) (it_size i) = it_size i).
  { intros o i X A1 A2 A3. apply (bytes_const _ true); [exact A3|]. intros x H. apply Hb. right. split; [intros (_ & Y); apply ext_name_spec in Y; congruence|]. exists (ChipType "IRAM" 1074200576 0 327680). split; [apply px_first; lia|reflexivity]. }
  assert (K1 : keep un_section1 = true) by (apply K; [vm_compute; reflexivity|apply (L (tx ".iram0"))]).
  assert (K2 : keep un_section2 = true) by (apply K; [vm_compute; reflexivity|apply (L (tx ".iram1"))]).
  assert (No : forall i, it_name i <> tx ".text.c" -> own i = false) by (intros i N; destruct (own i) eqn:O; [|reflexivity]; apply Ho in O; destruct O as (_ & O); contradiction).
  assert (A : forall p, after_last "/"%char (p ++ "/"%char :: tx "libx.a") (tx "libx.a")) by (intros p; split; [t_not_in|right; now exists p]).
  assert (O1 : own un_item1 = false) by (apply No; discriminate).
  assert (O2 : own un_item2 = true) by (apply Ho; split; [apply (A (tx "esp-idf/a"))|reflexivity]).
  assert (O3 : own un_item3 = false) by (apply No; discriminate).
  assert (O4 : own un_item4 = true) by (apply Ho; split; [apply (A (tx "esp-idf/b"))|reflexivity]).
  cbn [un_new ac_l filter]. rewrite K1, K2. unfold zsumf at 1. cbn [map zsum fold_right un_section1 un_section2 pr_items filter]. rewrite O1, O2, O3, O4. unfold zsumf. cbn [map zsum fold_right].
  rewrite (B _ un_item2), (B _ un_item4); try (vm_compute; congruence).
Qed.
(** the number for the section is that of the last of the object files: 8 bytes, of 16 *)
Theorem c147_refuted : exists d c q s rows e st z,
  symbols_merged d c q None /\ asked_symbols (c_args c) (tx "libx.a") /\ a_format (c_args c) = FJson2 /\
  run_files d (get_memory_types chip_info) mx_render mx_encode mx_order mx_pct c no_faults (start []) = (Done tt, s) /\ s_printed s = [PEntries rows] /\
  In (tx ".text.c", e) rows /\ In (tx "IRAM", st) (se_types e) /\ In (tx ".text", z) (st_sections st) /\
  ~ measured q None (named_bytes (tx "libx.a") (tx ".text.c") (ColSect (tx "IRAM") (tx ".text"))) (ss_size z, ss_diff z).
Proof.
  exists un_disk, (px_cmd (un_args FJson2 None None)), un_new. do 5 eexists. split; [apply un_alone|]. split; [split; [reflexivity|split; [reflexivity|discriminate]]|]. split; [reflexivity|]. split; [vm_compute; reflexivity|]. split; [reflexivity|].
  split; [right; left; reflexivity|]. split; [left; reflexivity|]. split; [left; reflexivity|]. intros (H & _). cbn [fst ss_size] in H. apply un_true_bytes in H. discriminate H.
Qed.
Print Assumptions c147_refuted.
