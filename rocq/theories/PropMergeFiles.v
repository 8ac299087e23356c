(** * Property C144: the report on object files with --unify *)
From Coq Require Import Ascii String List ZArith Lia Bool Sorted.
From Verif Require Import Base MemMap SpecTree SpecOps Filter SpecFilter Pipeline SpecPipe SpecBuild SpecBytes SpecShape PyStr MapFile SpecMap FixMap
  ElfRead SpecElf FixElf Project SpecProject FixProject ProofProject2 SpecEnd Chips SpecChips ProofChips Deps Table SpecTable Formats Main SpecMain FixMain Command SpecCommand SpecFail SpecReport SpecMerge SpecMergeFiles
  PropProject PropEnd PropCommand PropFail PropReport ProofBytes ProofTypes ProofBytes3 ProofBuild ProofEnd ProofCommand3 PropMerge ProofMergeFiles4.
Import ListNotations.
Open Scope list_scope.
Open Scope Z_scope.

(** C144: object files with the same base name are one object file, whatever archives they are
    in: each number is that of all of them together. Numbers for a section are right only for
    a name whose object files are in archives with one base name ([one_archive] in
    [fentry_right] and [ftable_row]); otherwise see [c144_refuted].
    As JSON: *)
Theorem c144_json_partial : forall d c k r o fs s render encode ord pf,
  merged d c k r -> asked true (c_args c) -> a_format (c_args c) = FJson2 ->
  run_files d (get_memory_types chip_info) render encode ord pf c o (start fs) = (Done tt, s) ->
  exists rows, s_printed s = [PEntries rows] /\ fentries_right k r (c_args c) rows /\ entries_sorted (c_args c) rows.
Proof. exact merged_files_json. Qed.
Print Assumptions c144_json_partial.

(** as a table, as text or as CSV, with --filter *)
Theorem c144_table_partial : forall d c k r o ps fs s render encode ord pf,
  merged d c k r -> asked true (c_args c) -> asked_filter (c_args c) ps ->
  a_format (c_args c) = FTable \/ a_format (c_args c) = FText \/ a_format (c_args c) = FCsv ->
  run_files d (get_memory_types chip_info) render encode ord pf c o (start fs) = (Done tt, s) ->
  exists tb ys, prints (c_args c) s tb /\ ftable_names k r (c_args c) ps ys /\
    (ys = [] -> tb_headers tb = [list_ascii_of_string "Object File"; list_ascii_of_string "Total Size"] /\ tb_rows tb = []) /\
    (ys <> [] -> exists groups titles i col, mcolumns_right k r (c_args c) groups /\ tb_headers tb = list_ascii_of_string "Object File" :: titles /\ Forall2 mcolumn_title (columns groups) titles /\
       Forall2 (ftable_row k r (c_args c) (columns groups)) ys (tb_rows tb) /\
       names_column (tb_headers tb) (a_sort (c_args c)) (S i) /\ nth_error (columns groups) i = Some col /\
       ((of_section col -> forall y, In y ys -> one_archive k r y) ->
        StronglySorted (fun x y => forall v w, measured k r (file_bytes x col) v -> measured k r (file_bytes y col) w ->
         in_order (a_sort_reverse (c_args c)) (pick (a_sort_diff (c_args c)) v) (pick (a_sort_diff (c_args c)) w)) ys)).
Proof. exact merged_files_report. Qed.
Print Assumptions c144_table_partial.

(** ** example: object files a.o of two archives named libx.a, and c.o of liby.a and libz.a *)
Local Notation tx := (fun s => list_ascii_of_string s%string).
Definition uf_item1 : item := Item (fx ".text.a") 1074267136 8 (fx "esp-idf/a/libx.a") (fx "a.o") [].
Definition uf_item2 : item := Item (fx ".text.c") 1074267144 8 (fx "liby.a") (fx "c.o") [].
Definition uf_item3 : item := Item (fx ".text.a") 1074267152 8 (fx "esp-idf/b/libx.a") (fx "a.o") [].
Definition uf_item4 : item := Item (fx ".text.c") 1074267160 8 (fx "libz.a") (fx "c.o") [].
Definition uf_section1 : printed := Printed (fx ".iram0.text") 1074267136 16 [uf_item1; uf_item2].
Definition uf_section2 : printed := Printed (fx ".iram1.text") 1074267152 16 [uf_item3; uf_item4].
Definition uf_line1 : str := fx " .text.a        0x40080400        0x8 esp-idf/a/libx.a(a.o)".
Definition uf_line2 : str := fx " .text.c        0x40080408        0x8 liby.a(c.o)".
Definition uf_line3 : str := fx " .text.a        0x40080410        0x8 esp-idf/b/libx.a(a.o)".
Definition uf_line4 : str := fx " .text.c        0x40080418        0x8 libz.a(c.o)".
Definition uf_lines : list str := fx_table ++ fx_head :: [fx ".iram0.text     0x40080400       0x10"; uf_line1; uf_line2; fx ""; fx ".iram1.text     0x40080410       0x10"; uf_line3; uf_line4; fx ""].
Definition uf_text : str := flat_map (fun l => l ++ ["010"%char]) uf_lines.
Lemma uf_map_ok : printed_map fx_regions [uf_section1; uf_section2] None (splitlines uf_text).
Proof.
  replace (splitlines uf_text) with uf_lines by (vm_compute; reflexivity). apply pm_crt_absent; [exact fx_table_ok|t_prefix|].
  change (script_lines [uf_section1; uf_section2] ([] ++ ([fx ".iram0.text     0x40080400       0x10"] ++ [] ++ List.concat [[uf_line1]; [uf_line2]] ++ [fx ""]) ++ ([] ++ ([fx ".iram1.text     0x40080410       0x10"] ++ [] ++ List.concat [[uf_line3]; [uf_line4]] ++ [fx ""]) ++ []))).
  apply script_cons; [constructor| |apply script_cons; [constructor| |constructor; constructor]].
  - apply section_lines_intro; [|constructor| |t_blank].
    + apply (sh_one uf_section1 (fx "     ") (fx "0x40080400") (fx "       ") (fx "0x10") []); [split; [t_word|t_prefix]|t_num|t_num|t_gap|t_gap|t_blank].
    + constructor; [|constructor; [|constructor]].
      * apply (item_lines_intro uf_item1 [uf_line1] []); [|reflexivity|constructor].
        apply head_one with (g := fx "        ") (r := fx "0x40080400        0x8 esp-idf/a/libx.a(a.o)"); [split; [t_word|left; t_prefix]|t_gap| |t_line].
        apply (fx_rest _ "0x40080400" "        " "0x8" " " "esp-idf/a/libx.a(a.o)"); [t_num|t_gap|t_num|t_gap|cbl|discriminate| |cbl].
        apply (loc_member (fx "esp-idf/a/libx.a") (fx "a.o")). t_not_in.
      * apply (item_lines_intro uf_item2 [uf_line2] []); [|reflexivity|constructor].
        apply head_one with (g := fx "        ") (r := fx "0x40080408        0x8 liby.a(c.o)"); [split; [t_word|left; t_prefix]|t_gap| |t_line].
        apply (fx_rest _ "0x40080408" "        " "0x8" " " "liby.a(c.o)"); [t_num|t_gap|t_num|t_gap|cbl|discriminate| |cbl].
        apply (loc_member (fx "liby.a") (fx "c.o")). t_not_in.
  - apply section_lines_intro; [|constructor| |t_blank].
    + apply (sh_one uf_section2 (fx "     ") (fx "0x40080410") (fx "       ") (fx "0x10") []); [split; [t_word|t_prefix]|t_num|t_num|t_gap|t_gap|t_blank].
    + constructor; [|constructor; [|constructor]].
      * apply (item_lines_intro uf_item3 [uf_line3] []); [|reflexivity|constructor].
        apply head_one with (g := fx "        ") (r := fx "0x40080410        0x8 esp-idf/b/libx.a(a.o)"); [split; [t_word|left; t_prefix]|t_gap| |t_line].
        apply (fx_rest _ "0x40080410" "        " "0x8" " " "esp-idf/b/libx.a(a.o)"); [t_num|t_gap|t_num|t_gap|cbl|discriminate| |cbl].
        apply (loc_member (fx "esp-idf/b/libx.a") (fx "a.o")). t_not_in.
      * apply (item_lines_intro uf_item4 [uf_line4] []); [|reflexivity|constructor].
        apply head_one with (g := fx "        ") (r := fx "0x40080418        0x8 libz.a(c.o)"); [split; [t_word|left; t_prefix]|t_gap| |t_line].
        apply (fx_rest _ "0x40080418" "        " "0x8" " " "libz.a(c.o)"); [t_num|t_gap|t_num|t_gap|cbl|discriminate| |cbl].
        apply (loc_member (fx "libz.a") (fx "c.o")). t_not_in.
Qed.
(** the ELF files are gone; the reference is the project of C124 *)
Definition uf_disk : disk :=
  {| d_cwd := d_cwd disk1; d_text := fun fn => if fn =?= in_dir dir1 (tx "app.map") then Some uf_text else if fn =?= in_dir dir2 (tx "app.map") then Some rx_text else None;
     d_json := d_json rx_disk; d_isfile := fun fn => false; d_bytes := fun fn => None |}.
Lemma uf_image dir : description uf_disk dir = Some (JObj px_object) -> image_of uf_disk dir (tx "app.map") None.
Proof.
  intros D. apply (image_missing _ _ _ px_object (tx "app.elf") (in_dir dir (tx "app.elf")) D px_describes); [|reflexivity]. right. split; [|reflexivity]. intros (r & R). discriminate R.
Qed.
Lemma uf_built1 : built uf_disk dir1 (tx "app.map") uf_text fx_regions [uf_section1; uf_section2] None None types_esp32.
Proof.
  destruct px_built as [D P _ _ _ _ _ _ _]. split.
  - exact D.
  - exact P.
  - vm_compute. reflexivity.
  - exact uf_map_ok.
  - constructor; [|constructor; [|constructor]]; (split; [constructor; [intros a n []|constructor; [intros a n []|constructor]]|split; [constructor; [split; [cbn; lia|reflexivity]|constructor]|split; [discriminate|exact Logic.I]]]).
  - apply uf_image. vm_compute. reflexivity.
  - exists (tx "esp32"). split; [|exact types_esp32_ok].
    apply (target_described _ _ _ _ px_object (tx "app.elf")); [vm_compute; reflexivity|exact px_describes|reflexivity|discriminate].
  - constructor; [|constructor; [|constructor]]; intros _.
    + destruct (vx_fits uf_section1) as (F1 & F2); [cbn; lia|cbn; lia|]. split; [exact F1|]. split; [exact F2|]. constructor; [cbn; lia|constructor; [cbn; lia|constructor]].
    + destruct (vx_fits uf_section2) as (F1 & F2); [cbn; lia|cbn; lia|]. split; [exact F1|]. split; [exact F2|]. constructor; [cbn; lia|constructor; [cbn; lia|constructor]].
  - intros l1 o l2 o' l3 E _ _. destruct l1 as [|x l1]; [|destruct l1 as [|y l1]; [|destruct l1; discriminate E]].
    + injection E as <- E. destruct l2 as [|y l2]; [injection E as <- _; discriminate|]. injection E as _ E. destruct l2; discriminate E.
    + injection E as _ _ E. destruct l2; discriminate E.
Qed.
Lemma uf_built2 : built uf_disk dir2 (tx "app.map") rx_text fx_regions [rx_section] None None types_esp32.
Proof.
  destruct rx_built2 as [D P _ Mp Rg _ _ _ N]. split.
  - exact D.
  - exact P.
  - vm_compute. reflexivity.
  - exact Mp.
  - exact Rg.
  - apply uf_image. vm_compute. reflexivity.
  - exists (tx "esp32"). split; [|exact types_esp32_ok].
    apply (target_described _ _ _ _ px_object (tx "app.elf")); [vm_compute; reflexivity|exact px_describes|reflexivity|discriminate].
  - constructor; [|constructor]. intros _. destruct (vx_fits rx_section) as (F1 & F2); [cbn; lia|cbn; lia|]. split; [exact F1|]. split; [exact F2|]. constructor; [cbn; lia|constructor].
  - intros l1 o l2 o' l3 E. destruct l1 as [|x l1]; [|destruct l1; discriminate E]. injection E as _ E. destruct l2; discriminate E.
Qed.
Definition uf_new : account := Account fx_regions [uf_section1; uf_section2] None types_esp32.
Definition uf_args (f : format) (diff : option str) (filter : option (list str)) : args :=
  Args f false false false false None true diff true false true false false false (Some false) None (tx "1") filter false true.
Definition uf_ref : option str := Some (in_dir dir2 (tx "app.map")).
Lemma uf_project f diff filter : project_at uf_disk (uf_args f diff filter) (c_input (px_cmd (uf_args f diff filter))) uf_new.
Proof.
  exists dir1, (tx "app.map"), uf_text, None. split; [reflexivity|]. split; [exact uf_built1|]. split; [left; reflexivity|]. right.
  apply Forall_forall. intros o [<-|[<-|[]]] C T a (B1 & B2) G; cbn in B1, B2.
  - destruct (Z.ltb_spec a 1074267144); [exists uf_item1, a|exists uf_item2, a]; (split; [cbn; tauto|]; split; [cbn; lia|exact G]).
  - destruct (Z.ltb_spec a 1074267160); [exists uf_item3, a|exists uf_item4, a]; (split; [cbn; tauto|]; split; [cbn; lia|exact G]).
Qed.
Lemma uf_merged f filter : merged uf_disk (px_cmd (uf_args f uf_ref filter)) uf_new (Some vx_old).
Proof.
  split; [apply uf_project|]. split; [|split; reflexivity]. exists (in_dir dir2 (tx "app.map")). split; [reflexivity|]. exists dir2, (tx "app.map"), rx_text, None. split; [reflexivity|]. split; [exact uf_built2|]. split; [left; reflexivity|]. right.
  apply vx_filled. intros o [<-|[]]; eexists; repeat split.
Qed.
Lemma uf_alone f filter : merged uf_disk (px_cmd (uf_args f None filter)) uf_new None.
Proof. split; [apply uf_project|]. split; [reflexivity|split; reflexivity]. Qed.
Definition uf_run (a : args) := run_files uf_disk (get_memory_types chip_info) mx_render mx_encode mx_order mx_pct (px_cmd a) no_faults (start []).
(** the object files a.o are in archives named libx.a *)
Lemma uf_one_archive : one_archive uf_new None (tx "a.o").
Proof.
  exists (tx "libx.a"). intros i [P|[]] Fi. destruct P as (o & Io & _ & Ii & _).
  assert (A : forall p, after_last "/"%char (p ++ "/"%char :: tx "libx.a") (tx "libx.a")) by (intros p; split; [t_not_in|right; now exists p]).
  destruct Io as [<-|[<-|[]]]; destruct Ii as [<-|[<-|[]]].
  - apply (A (tx "esp-idf/a")).
  - exfalso. assert (X : after_last "/"%char (tx "c.o") (tx "c.o")) by (split; [t_not_in|now left]). apply (after_last_unique _ _ _ _ X) in Fi. discriminate Fi.
  - apply (A (tx "esp-idf/b")).
  - exfalso. assert (X : after_last "/"%char (tx "c.o") (tx "c.o")) by (split; [t_not_in|now left]). apply (after_last_unique _ _ _ _ X) in Fi. discriminate Fi.
Qed.
Definition uf_sections (e : sentry) := flat_map (fun T => map (fun B => (fst T, fst B, ss_size (snd B), ss_diff (snd B))) (st_sections (snd T))) (se_types e).
Example c144_json_example : exists s rows s' rows',
  merged uf_disk (px_cmd (uf_args FJson2 None None)) uf_new None /\ asked true (uf_args FJson2 None None) /\ one_archive uf_new None (tx "a.o") /\
  uf_run (uf_args FJson2 None None) = (Done tt, s) /\ s_printed s = [PEntries rows] /\
  rx_brief rows = [ (tx "a.o", (tx "a.o", 16, 0)); (tx "c.o", (tx "c.o", 16, 0)) ] /\
  map (fun kv => uf_sections (snd kv)) rows = [ [(tx "IRAM", tx ".text", 16, 0)]; [(tx "IRAM", tx ".text", 8, 0)] ] /\
  merged uf_disk (px_cmd (uf_args FJson2 uf_ref None)) uf_new (Some vx_old) /\
  uf_run (uf_args FJson2 uf_ref None) = (Done tt, s') /\ s_printed s' = [PEntries rows'] /\
  rx_brief rows' = [ (tx "a.o", (tx "a.o", 16, 16)); (tx "c.o", (tx "c.o", 16, 16)); (tx "app main.c.obj", (tx "app main.c.obj", 0, -16)) ].
Proof.
  do 4 eexists. split; [apply uf_alone|]. split; [repeat split|]. split; [exact uf_one_archive|]. split; [vm_compute; reflexivity|]. split; [reflexivity|]. split; [vm_compute; reflexivity|]. split; [vm_compute; reflexivity|].
  split; [apply uf_merged|]. split; [vm_compute; reflexivity|]. split; [reflexivity|]. vm_compute. reflexivity.
Qed.
Definition uf_pattern : list (list SpecFilter.piece) := [[SpecFilter.Char "a"%char; SpecFilter.Char "."%char; SpecFilter.Char "o"%char]].
Example c144_table_example : exists s tb,
  asked_filter (uf_args FTable uf_ref (Some (map show_pattern uf_pattern))) (Some uf_pattern) /\ map show_pattern uf_pattern = [tx "a.o"] /\
  uf_run (uf_args FTable uf_ref (Some (map show_pattern uf_pattern))) = (Done tt, s) /\ s_printed s = [PTable tb] /\
  tb_headers tb = map tx ["Object File"; "Total Size"; "IRAM"; ".text"]%string /\
  tb_rows tb = [ map tx ["a.o"; "16    +16"; "16    +16"; "16    +16"] ]%string.
Proof.
  do 2 eexists. split; [split; [reflexivity|]; constructor; [|constructor]; do 3 (constructor; [cbn; repeat split; discriminate|]); constructor|].
  split; [reflexivity|]. split; [vm_compute; reflexivity|]. split; [reflexivity|]. split; vm_compute; reflexivity.
Qed.

(** ** the numbers of a section, for a name that is in several archives *)
Lemma uf_true_bytes n : file_bytes (tx "c.o") (ColSect (tx "IRAM") (tx ".text")) uf_new n -> n = 16.
Proof.
  intros (own & Ho & keep & b & Hk & Hb & ->).
  assert (Own : forall i y, it_object i = y -> ~ In "/"%char y -> own i = (y =?= tx "c.o")).
  { intros i y E N. assert (X : file_name i y) by (split; [exact N|left; exact E]). destruct (y =?= tx "c.o") eqn:Q.
    - apply keq_eq in Q. apply Ho. now rewrite <- Q.
    - destruct (own i) eqn:O; [|reflexivity]. apply Ho in O. apply (after_last_unique _ _ _ _ X) in O. rewrite O, keq_refl in Q. discriminate Q. }
  assert (K : forall o, keep_section (get_elf_sections_headers None) (printed_section o) = true -> label [pr_name o] (tx ".text") -> keep o = true).
  { intros o C L. apply Hk. split; [|exact L]. apply (kept_counted None None o Logic.I). now apply keep_spec. }
  assert (L : forall x, label [x ++ tx ".text"] (tx ".text")).
  { intros x. exists (tx "text"). split; [split; [t_not_in|right; now exists x]|reflexivity]. }
  assert (B : forall o i, existsb (fun p => startswith (list_ascii_of_string p) (pr_name o)) EXT_RAM_SECTION_NAMES = false -> 1074267136 <= it_addr i -> it_addr i + it_size i <= 1074267168 -> 0 <= it_size i -> bytes_with (b o) (it_addr i) (it_size i) = it_size i).
  { intros o i X A1 A2 A3. apply (bytes_const _ true); [exact A3|]. intros x H. apply Hb. right. split; [intros (_ & Y); apply ext_name_spec in Y; congruence|]. exists (ChipType "IRAM" 1074200576 0 327680). split; [apply px_first; lia|reflexivity]. }
  assert (K1 : keep uf_section1 = true) by (apply K; [vm_compute; reflexivity|apply (L (tx ".iram0"))]).
  assert (K2 : keep uf_section2 = true) by (apply K; [vm_compute; reflexivity|apply (L (tx ".iram1"))]).
  assert (O1 : own uf_item1 = false) by (rewrite (Own _ (tx "a.o")); [reflexivity|reflexivity|t_not_in]).
  assert (O2 : own uf_item2 = true) by (rewrite (Own _ (tx "c.o")); [reflexivity|reflexivity|t_not_in]).
  assert (O3 : own uf_item3 = false) by (rewrite (Own _ (tx "a.o")); [reflexivity|reflexivity|t_not_in]).
  assert (O4 : own uf_item4 = true) by (rewrite (Own _ (tx "c.o")); [reflexivity|reflexivity|t_not_in]).
  cbn [uf_new ac_l filter]. rewrite K1, K2. unfold zsumf at 1. cbn [map zsum fold_right uf_section1 uf_section2 pr_items filter]. rewrite O1, O2, O3, O4. unfold zsumf. cbn [map zsum fold_right].
  rewrite (B _ uf_item2), (B _ uf_item4); try (vm_compute; congruence).
Qed.
(** the number for the section is that of the last of the archives: 8 bytes, of 16 *)
Theorem c144_refuted : exists d c k s rows e st q,
  merged d c k None /\ asked true (c_args c) /\ a_format (c_args c) = FJson2 /\
  run_files d (get_memory_types chip_info) mx_render mx_encode mx_order mx_pct c no_faults (start []) = (Done tt, s) /\ s_printed s = [PEntries rows] /\
  In (tx "c.o", e) rows /\ In (tx "IRAM", st) (se_types e) /\ In (tx ".text", q) (st_sections st) /\
  ~ measured k None (file_bytes (tx "c.o") (ColSect (tx "IRAM") (tx ".text"))) (ss_size q, ss_diff q).
Proof.
  exists uf_disk, (px_cmd (uf_args FJson2 None None)), uf_new. do 5 eexists. split; [apply uf_alone|]. split; [repeat split|]. split; [reflexivity|]. split; [vm_compute; reflexivity|]. split; [reflexivity|].
  split; [right; left; reflexivity|]. split; [left; reflexivity|]. split; [left; reflexivity|]. intros (H & _). cbn [fst ss_size] in H. apply uf_true_bytes in H. discriminate H.
Qed.
Print Assumptions c144_refuted.
