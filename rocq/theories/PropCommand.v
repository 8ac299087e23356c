(** * The command on the files of a project (C90) *)
From Coq Require Import Ascii String List ZArith Lia Bool Sorted.
From Verif Require Import Base MemMap SpecTree Filter Pipeline SpecPipe SpecBuild SpecBytes ProofBytes SpecShape PyStr MapFile SpecMap Deps Table SpecTable Formats ElfRead SpecElf Project SpecProject ProofProject1 ProofProject2 SpecEnd ProofEnd Chips SpecChips ProofChips Main SpecMain Command SpecCommand ProofCommand1 ProofCommand2 ProofCommand3 ProofCommand4 ProofCommand5 ProofCommand6 FixMap FixElf FixProject PropProject PropEnd FixMain.
Import ListNotations.
Open Scope list_scope.
Open Scope Z_scope.

(** ** C90: the JSON summary the command prints for a built project has one entry for each
    memory type of the chip (those in use, or all with --show-unused).  Each gives the number
    of bytes of the printed output sections that belong to the type, the size of the parts of the
    memory regions in it and the sections with bytes in it; the image size is that of
    the sections that are loaded from the ELF file. *)
Theorem c90_json_summary : forall d dir name text rs l crt im types c o files s render encode ord pf,
  built d dir name text rs l crt im types ->
  c_input c = in_dir dir name -> alone (c_args c) -> of_types (c_args c) -> a_format (c_args c) = FJson2 -> no_lto d dir (c_args c) ->
  (a_show_unused (c_args c) = true \/ filled im types l) ->
  run_files d (get_memory_types chip_info) render encode ord pf c o (start files) = (Done tt, s) ->
  exists js groups, s_printed s = [PJson js] /\ Forall2 (region_parts types) (filter listed_region rs) groups /\
    NoDup (map j_name (js_layout js)) /\
    (forall T, In T (map j_name (js_layout js)) <-> listed_type im types l (c_args c) T) /\
    Forall (type_report im types l (concat groups) (c_args c)) (js_layout js) /\
    image_bytes im l (js_total_size js).
Proof. intros d dir name text rs l crt im types c o files s render encode ord pf B. exact (json_report _ _ _ _ _ _ _ _ _ B c o files s render encode ord pf). Qed.
Print Assumptions c90_json_summary.

(** ** C91: with --archives the rows are the archives of the input sections that are placed,
    each with the number of bytes of its input sections: in all, in each memory type and in each
    output section of it *)
Theorem c91_json_archives : forall d dir name text rs l crt im types c o files s render encode ord pf,
  built d dir name text rs l crt im types ->
  c_input c = in_dir dir name -> alone (c_args c) -> a_archives (c_args c) = true -> a_format (c_args c) = FJson2 -> no_dwarf d dir (a_use_dwarf (c_args c)) ->
  run_files d (get_memory_types chip_info) render encode ord pf c o (start files) = (Done tt, s) ->
  exists rows, s_printed s = [PEntries rows] /\ archive_rows im types l rows /\ (a_sort_diff (c_args c) = false -> rows_sorted (c_args c) rows).
Proof. intros d dir name text rs l crt im types c o files s render encode ord pf B. exact (json_archives _ _ _ _ _ _ _ _ _ B c o files s render encode ord pf). Qed.
Print Assumptions c91_json_archives.

(** and with --files the object files *)
Theorem c91_json_files : forall d dir name text rs l crt im types c o files s render encode ord pf,
  built d dir name text rs l crt im types ->
  c_input c = in_dir dir name -> alone (c_args c) ->
  a_archives (c_args c) = false -> given (a_archive_details (c_args c)) = false -> a_archive_dependencies (c_args c) = false -> a_files (c_args c) = true ->
  a_format (c_args c) = FJson2 -> no_dwarf d dir (a_use_dwarf (c_args c)) -> joined_names im l ->
  run_files d (get_memory_types chip_info) render encode ord pf c o (start files) = (Done tt, s) ->
  exists rows, s_printed s = [PEntries rows] /\ object_rows im types l rows /\ (a_sort_diff (c_args c) = false -> rows_sorted (c_args c) rows).
Proof. intros d dir name text rs l crt im types c o files s render encode ord pf B. exact (json_files _ _ _ _ _ _ _ _ _ B c o files s render encode ord pf). Qed.
Print Assumptions c91_json_files.

(** ** C92: the table printed by default.  For each memory type that is listed, one row with
    its name, its used bytes, what remains and its size, then one row for each of its
    sections; all numbers are those of the bytes the linker placed.  The memory types are in order of
    the column that --sort names (the percent column excepted, see C55), sections too if it is the first *)
Theorem c92_table_summary : forall d dir name text rs l crt im types c o files s render encode ord pf,
  built d dir name text rs l crt im types ->
  c_input c = in_dir dir name -> alone (c_args c) -> of_types (c_args c) -> a_format (c_args c) = FTable -> no_lto d dir (c_args c) ->
  (a_show_unused (c_args c) = true \/ filled im types l) ->
  run_files d (get_memory_types chip_info) render encode ord pf c o (start files) = (Done tt, s) ->
  exists tb regions i groups rows, s_printed s = [PTable tb] /\ tb_headers tb = usage_headers /\
    Forall2 (region_parts types) (filter listed_region rs) regions /\
    tb_rows tb = concat rows /\ Forall2 (group_rows (c_args c)) groups rows /\
    NoDup (map tg_type groups) /\ (forall T, In T (map tg_type groups) <-> listed_type im types l (c_args c) T) /\
    Forall (group_right im types l (concat regions) (c_args c)) groups /\
    names_column usage_headers (a_sort (c_args c)) i /\
    (a_sort_diff (c_args c) = false -> i <> 2%nat ->
      StronglySorted (fun x y => in_order (a_sort_reverse (c_args c)) (tg_value i x) (tg_value i y)) groups) /\
    (a_sort_diff (c_args c) = false -> i = 1%nat ->
      Forall (fun g => StronglySorted (fun x y => in_order (a_sort_reverse (c_args c)) (snd x) (snd y)) (tg_sections g)) groups).
Proof. intros d dir name text rs l crt im types c o files s render encode ord pf B. exact (table_report _ _ _ _ _ _ _ _ _ B c o files s render encode ord pf). Qed.
Print Assumptions c92_table_summary.

(** ** example *)
Lemma px_built : built disk1 dir1 (tx "app.map") px_text fx_regions fx_sections (Some fx_entries) (Some px_headers) types_esp32.
Proof.
  split.
  - exact dir1_ok.
  - apply proper_ok. reflexivity.
  - vm_compute. reflexivity.
  - rewrite px_lines. exact fx_map_ok.
  - exact fx_regular.
  - exact px_file_image.
  - exists (tx "esp32"). split; [|exact types_esp32_ok].
    apply (target_described _ _ _ _ px_object (tx "app.elf")); [vm_compute; reflexivity|exact px_describes|reflexivity|discriminate].
  - apply Forall_forall. intros o I C. rewrite (px_counted o I C). split; [exact px_mapped|]. split; [exact px_unbroken|exact px_items].
  - intros l1 o l2 o' l3 E Co Co'. exfalso.
    assert (H : NoDup fx_sections) by (repeat (constructor; [intros X; repeat (destruct X as [X|X]; [discriminate X|]); exact X|]); constructor).
    assert (I : In o fx_sections) by (rewrite E; apply in_or_app; right; now left).
    assert (I' : In o' fx_sections) by (rewrite E; apply in_or_app; right; right; apply in_or_app; right; now left).
    rewrite (px_counted o I Co), (px_counted o' I' Co') in E. rewrite E in H.
    apply NoDup_remove_2 in H. apply H. apply in_or_app. right. apply in_or_app. right. now left.
Qed.
Lemma px_first a : 0x40080400 <= a < 0x400a0000 -> first_covering types_esp32 a (ChipType "IRAM" 1074200576 0 327680).
Proof.
  intros H. exists [ChipType "DRAM" 1073405952 0 335872], (tl (tl types_esp32)). split; [reflexivity|]. split.
  - exists 1074200576, 1074528256. split; [left; split; reflexivity|lia].
  - intros u [<-|[]] (lo & hi & W & B). apply windows_of_ok in W. cbn in W. destruct W as [W|[]]. injection W as <- <-. lia.
Qed.
Lemma px_filled : filled (Some px_headers) types_esp32 fx_sections.
Proof.
  apply Forall_forall. intros o I C T a (B1 & B2) G. rewrite (px_counted o I C) in *. cbn in B1, B2.
  exists fx_item1, 1074267136. split; [left; reflexivity|]. split; [cbn; lia|].
  destruct G as [(N & X)|(N & t & F & Et)]; [left; now split|]. right. split; [exact N|].
  exists t. split; [|exact Et]. rewrite (first_covering_unique _ _ _ _ F (px_first a ltac:(lia))). apply px_first. lia.
Qed.

Definition px_args : args := mx_args FJson2 None None false false false false None.
Definition px_cmd (a : args) : cmd := Cmd a (in_dir dir1 (tx "app.map")) false false None.
Definition px_run (a : args) := run_files disk1 (get_memory_types chip_info) mx_render mx_encode mx_order mx_pct (px_cmd a).
Example c90_example : exists s js j,
  built disk1 dir1 (tx "app.map") px_text fx_regions fx_sections (Some fx_entries) (Some px_headers) types_esp32 /\
  alone px_args /\ of_types px_args /\ no_lto disk1 dir1 px_args /\ filled (Some px_headers) types_esp32 fx_sections /\
  px_run px_args no_faults (start []) = (Done tt, s) /\ s_printed s = [PJson js] /\ js_layout js = [j] /\
  j_name j = tx "IRAM" /\ j_used j = 32 /\ j_total j = 130048 /\ j_free j = 130016 /\ j_parts j = [(tx ".text", 32)] /\ js_total_size js = 0.
Proof.
  do 3 eexists. split; [exact px_built|]. split; [split; reflexivity|]. split; [repeat split|].
  split; [intros _; right; split; [reflexivity|]; right; exists []; split; [vm_compute; reflexivity|reflexivity]|]. split; [exact px_filled|].
  split; [vm_compute; reflexivity|]. split; [reflexivity|]. split; [reflexivity|]. repeat split; vm_compute; reflexivity.
Qed.

Definition px_rows (archives files : bool) : args :=
  let a := px_args in Args (a_format a) archives false false false None files None (a_no_abbrev a) (a_abbrev a) false false false false (Some false) None (a_sort a) None false true.
Lemma px_joined : joined_names (Some px_headers) fx_sections.
Proof.
  intros i (o & Io & Co & Ii & _) I. rewrite (px_counted o Io Co) in Ii. destruct Ii as [<-|[<-|[]]]; cbn in I; repeat (destruct I as [I|I]; [discriminate I|]); exact I.
Qed.
Definition brief (d : dict str sentry) := map (fun kv => (fst kv, se_abbrev (snd kv), se_size (snd kv))) d.
Example c91_example : exists s1 rows1 s2 rows2,
  built disk1 dir1 (tx "app.map") px_text fx_regions fx_sections (Some fx_entries) (Some px_headers) types_esp32 /\
  alone (px_rows true false) /\ no_dwarf disk1 dir1 (a_use_dwarf (px_rows true false)) /\ joined_names (Some px_headers) fx_sections /\
  px_run (px_rows true false) no_faults (start []) = (Done tt, s1) /\ s_printed s1 = [PEntries rows1] /\
  brief rows1 = [(tx "(exe)", tx "(exe)", 16); (tx "esp-idf/main/libmain.a", tx "libmain.a", 8)] /\
  px_run (px_rows false true) no_faults (start []) = (Done tt, s2) /\ s_printed s2 = [PEntries rows2] /\
  brief rows2 = [(tx "(exe):/path with space/crt0.o", tx "crt0.o", 16); (tx "esp-idf/main/libmain.a:app main.c.obj", tx "app main.c.obj", 8)].
Proof.
  do 4 eexists. split; [exact px_built|]. split; [split; reflexivity|]. split; [left; reflexivity|]. split; [exact px_joined|].
  split; [vm_compute; reflexivity|]. split; [reflexivity|]. split; [vm_compute; reflexivity|].
  split; [vm_compute; reflexivity|]. split; [reflexivity|]. vm_compute; reflexivity.
Qed.

Definition px_table : args := mx_args FTable None None false false false false None.
Example c92_example : exists s tb,
  built disk1 dir1 (tx "app.map") px_text fx_regions fx_sections (Some fx_entries) (Some px_headers) types_esp32 /\
  alone px_table /\ of_types px_table /\ no_lto disk1 dir1 px_table /\ filled (Some px_headers) types_esp32 fx_sections /\
  px_run px_table no_faults (start []) = (Done tt, s) /\ s_printed s = [PTable tb] /\
  map (fun r => firstn 2 r ++ skipn 3 r) (tb_rows tb) = [map tx ["IRAM"; "32"; "130016"; "130048"]; map tx ["   .text"; "32"; ""; ""]]%string.
Proof.
  do 2 eexists. split; [exact px_built|]. split; [split; reflexivity|]. split; [repeat split|].
  split; [intros _; right; split; [reflexivity|]; right; exists []; split; [vm_compute; reflexivity|reflexivity]|]. split; [exact px_filled|].
  split; [vm_compute; reflexivity|]. split; [reflexivity|]. vm_compute; reflexivity.
Qed.
