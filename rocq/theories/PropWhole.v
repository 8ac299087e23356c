(** * Properties C121 to C123: the raw report and the tree of a project, alone or compared with a
    reference *)
From Coq Require Import Ascii String List ZArith Lia Bool Sorted.
From Verif Require Import Base MemMap SpecTree SpecOps Filter SpecFilter Pipeline SpecPipe SpecBuild SpecBytes SpecShape PyStr MapFile SpecMap FixMap
  ElfRead SpecElf FixElf Project SpecProject FixProject ProofProject2 SpecEnd Chips SpecChips ProofChips Deps Table SpecTable Formats Main SpecMain FixMain Command SpecCommand SpecFail SpecReport SpecSymbols SpecWhole
  PropProject PropEnd PropCommand PropFail ProofBytes PropReport PropSymbols ProofTypes ProofCommand4 ProofWhole2 ProofWhole3.
Import ListNotations.
Open Scope list_scope.
Open Scope Z_scope.

(** C121: the raw report is the memory map.  Its memory types and their sections are those of the
    project or of the reference.  Below a section are the archives, and below these the object
    files, of its input sections, among them all that have bytes in this memory type.  Below the
    object files are the symbols, among them all that have bytes.  Every number is the one that
    the link map, the ELF file and the description of the chip give, and every difference is that
    to the reference. *)
Theorem c121_raw : forall d c k r o files s render encode ord pf,
  reported d c k r -> a_use_dwarf (c_args c) <> Some true -> a_format (c_args c) = FRaw ->
  run_files d (get_memory_types chip_info) render encode ord pf c o (start files) = (Done tt, s) ->
  exists m, s_printed s = [PRaw m] /\ raw_right k r (c_args c) m /\
    forall q rq, symbols_reported d c q rq -> raw_symbols_right q rq m.
Proof. exact raw_report. Qed.
Print Assumptions c121_raw.

(** C122: the tree.  Without --archive-details it is memory types, sections, archives and, unless
    --archives is given, object files, each with its bytes; with a reference those that differ. *)
Theorem c122_tree : forall d c k r o files s render encode ord pf,
  reported d c k r -> a_format (c_args c) = FTree -> given (a_archive_details (c_args c)) = false ->
  run_files d (get_memory_types chip_info) render encode ord pf c o (start files) = (Done tt, s) ->
  exists types lines, s_printed s = [PTree ((0%nat, list_ascii_of_string "Memory Types") :: concat lines)] /\
    Forall2 (type_lines (c_args c)) types lines /\ tree_right k r (c_args c) types.
Proof. exact tree_report. Qed.
Print Assumptions c122_tree.

(** C123: the archives and object files below a section of a memory type are those with bytes
    there.  This is true when all of the section is in this memory type. *)
Theorem c123_raw_partial : forall d c k r o files s render encode ord pf m T N,
  reported d c k r -> a_use_dwarf (c_args c) <> Some true -> a_format (c_args c) = FRaw ->
  run_files d (get_memory_types chip_info) render encode ord pf c o (start files) = (Done tt, s) -> s_printed s = [PRaw m] -> both k r (all_in T N) ->
  (forall x, look m T [N; x] <> None <-> present k r (has_bytes (of_archive x) T N)) /\
  (forall x ob, look m T [N; x; ob] <> None <-> present k r (has_bytes (of_object x ob) T N)).
Proof. exact raw_filled. Qed.
Print Assumptions c123_raw_partial.
Theorem c123_tree_partial : forall d c k r o files s render encode ord pf,
  reported d c k r -> a_format (c_args c) = FTree -> given (a_archive_details (c_args c)) = false ->
  run_files d (get_memory_types chip_info) render encode ord pf c o (start files) = (Done tt, s) ->
  exists types lines, s_printed s = [PTree ((0%nat, list_ascii_of_string "Memory Types") :: concat lines)] /\
    Forall2 (type_lines (c_args c)) types lines /\
    forall t n x, In t types -> In n (tt_sections t) -> In x (ts_archives n) -> both k r (all_in (tt_name t) (ts_name n)) ->
      present k r (has_bytes (of_archive (ta_name x)) (tt_name t) (ts_name n)) /\
      forall ob, In ob (ta_objects x) -> present k r (has_bytes (of_object (ta_name x) (to_name ob)) (tt_name t) (ts_name n)).
Proof. exact tree_filled. Qed.
Print Assumptions c123_tree_partial.

(** ** examples *)
Lemma sx_whole f filter : reported sx_disk (px_cmd (sx_args f filter)) sx_account_new (Some sx_account_old).
Proof.
  split; [|split; [|split; reflexivity]].
  - exists dir1, (tx "app.map"), px_text, (Some fx_entries). split; [reflexivity|]. split; [exact sx_built1|]. split; [left; reflexivity|]. right. exact sx_filled1.
  - exists (in_dir dir2 (tx "app.map")). split; [reflexivity|]. exists dir2, (tx "app.map"), rx_text, None. split; [reflexivity|]. split; [exact sx_built2|]. split; [left; reflexivity|]. right. exact sx_filled2.
Qed.
Definition wx_brief (m : memmap) (T : string) (p : list string) := option_map value_of (look m (tx T) (map tx p)).
Example c121_example : exists s m,
  reported sx_disk (px_cmd (sx_args FRaw None)) sx_account_new (Some sx_account_old) /\ symbols_reported sx_disk (px_cmd (sx_args FRaw None)) sx_new (Some sx_old) /\
  sx_run (sx_args FRaw None) = (Done tt, s) /\ s_printed s = [PRaw m] /\
  map fst (m_types m) = [tx "IRAM"] /\
  wx_brief m "IRAM" [".iram0.text"] = Some (32, 16) /\
  wx_brief m "IRAM" [".iram0.text"; "(exe)"] = Some (16, 16) /\
  wx_brief m "IRAM" [".iram0.text"; "esp-idf/main/libmain.a"; "app main.c.obj"] = Some (8, -8) /\
  wx_brief m "IRAM" [".iram0.text"; "esp-idf/main/libmain.a"; "app main.c.obj"; "app_main()"] = Some (5, -7).
Proof.
  do 2 eexists. split; [apply sx_whole|]. split; [apply sx_reported|]. split; [vm_compute; reflexivity|]. split; [reflexivity|]. vm_compute. repeat split.
Qed.
Example c122_example : exists s s',
  reported rx_disk (px_cmd (rx_args FTree false false None)) rx_new (Some rx_old) /\
  rx_run (rx_args FTree false false None) = (Done tt, s) /\
  s_printed s = [PTree (map (fun x => (fst x, tx (snd x))) [(0%nat, "Memory Types"); (1%nat, "IRAM 32    +16 / 130048      0"); (2%nat, ".text 32    +16");
    (3%nat, "(exe) 16    +16"); (4%nat, "crt0.o 16    +16"); (3%nat, "libmain.a 8     -8"); (4%nat, "app main.c.obj 8     -8")]%string)] /\
  reported rx_disk (px_cmd (rx_args FTree true false None)) rx_new (Some rx_old) /\
  rx_run (rx_args FTree true false None) = (Done tt, s') /\
  s_printed s' = [PTree (map (fun x => (fst x, tx (snd x))) [(0%nat, "Memory Types"); (1%nat, "IRAM 32    +16 / 130048      0"); (2%nat, ".text 32    +16");
    (3%nat, "(exe) 16    +16"); (3%nat, "libmain.a 8     -8")]%string)].
Proof.
  do 2 eexists. split; [apply rx_reported|]. split; [vm_compute; reflexivity|]. split; [vm_compute; reflexivity|]. split; [apply rx_reported|]. split; vm_compute; reflexivity.
Qed.
Lemma rx_all_in : both rx_new (Some rx_old) (all_in (tx "IRAM") (tx ".iram0.text")).
Proof.
  assert (G : forall a, 0x40080400 <= a < 0x400a0000 -> byte_goes types_esp32 (tx ".iram0.text") a (tx "IRAM")).
  { intros a H. right. split.
    - intros (_ & X). apply ext_name_spec in X. vm_compute in X. discriminate X.
    - exists (ChipType "IRAM" 1074200576 0 327680). split; [now apply px_first|reflexivity]. }
  split.
  - intros o Io Co En a H. apply G. cbn in Io. destruct Io as [<-|[<-|[]]]; [cbn in H; lia|discriminate En].
  - intros o Io Co En a H. apply G. cbn in Io. destruct Io as [<-|[]]. cbn in H. lia.
Qed.
Example c123_example : exists s s' m,
  reported rx_disk (px_cmd (rx_args FRaw false false None)) rx_new (Some rx_old) /\ both rx_new (Some rx_old) (all_in (tx "IRAM") (tx ".iram0.text")) /\
  rx_run (rx_args FRaw false false None) = (Done tt, s) /\ s_printed s = [PRaw m] /\ look m (tx "IRAM") (map tx [".iram0.text"; "(exe)"]%string) <> None /\
  rx_run (rx_args FTree false false None) = (Done tt, s').
Proof.
  do 3 eexists. split; [apply rx_reported|]. split; [exact rx_all_in|]. split; [vm_compute; reflexivity|]. split; [reflexivity|]. split; [vm_compute; discriminate|]. vm_compute. reflexivity.
Qed.

(** ** an output section over the border of two memory types, with an input section that starts
    at the border *)
Definition wx_table : list str := map fx [
  ""; "Memory Configuration"; ""; "Name             Origin             Length             Attributes";
  "iram0_0_seg      0x40080400         0x00041c00         xr"; "*default*        0x00000000         0xffffffff"; ""]%string.
Definition wx_regions : list region := [Region (fx "iram0_0_seg") 1074267136 269312 (fx "xr"); Region (fx "*default*") 0 4294967295 []].
Definition wx_item1 : item := Item (fx ".text.a") 1074528240 16 (fx "liba.a") (fx "a.o") [].
Definition wx_item2 : item := Item (fx ".text.b") 1074528256 16 (fx "libb.a") (fx "b.o") [].
Definition wx_section : printed := Printed (fx ".iram0.text") 1074528240 32 [wx_item1; wx_item2].
Definition wx_line1 : str := fx " .text.a        0x400bfff0       0x10 liba.a(a.o)".
Definition wx_line2 : str := fx " .text.b        0x400c0000       0x10 libb.a(b.o)".
Definition wx_lines : list str := wx_table ++ fx_head :: [fx ".iram0.text     0x400bfff0       0x20"; wx_line1; wx_line2; fx ""].
Definition wx_text : str := flat_map (fun l => l ++ ["010"%char]) wx_lines.
Lemma wx_table_ok : region_table wx_regions wx_table.
Proof.
  change wx_regions with (List.concat [[Region (fx "iram0_0_seg") 1074267136 269312 (fx "xr")]; [Region (fx "*default*") 0 4294967295 []]; []]).
  apply (region_table_intro [fx ""] (fx "Memory Configuration") [fx ""] (fx "Name             Origin             Length             Attributes")).
  - repeat constructor; t_not_prefix.
  - t_prefix.
  - repeat constructor; t_not_prefix.
  - t_prefix.
  - constructor; [|constructor; [|constructor; [|constructor]]].
    + apply rl_attrs with (so := fx "0x40080400") (sl := fx "0x00041c00"); [t_num|t_num|t_words].
    + apply rl_noattrs with (so := fx "0x00000000") (sl := fx "0xffffffff"); [t_num|t_num|t_words].
    + apply rl_blank. t_blank.
Qed.
Lemma wx_map_ok : printed_map wx_regions [wx_section] None (splitlines wx_text).
Proof.
  replace (splitlines wx_text) with wx_lines by (vm_compute; reflexivity). apply pm_crt_absent; [exact wx_table_ok|t_prefix|].
  change (script_lines [wx_section] ([] ++ ([fx ".iram0.text     0x400bfff0       0x20"] ++ [] ++ List.concat [[wx_line1]; [wx_line2]] ++ [fx ""]) ++ [])).
  apply script_cons; [constructor| |constructor; constructor].
  apply section_lines_intro; [|constructor| |t_blank].
  - apply (sh_one wx_section (fx "     ") (fx "0x400bfff0") (fx "       ") (fx "0x20") []); [split; [t_word|t_prefix]|t_num|t_num|t_gap|t_gap|t_blank].
  - constructor; [|constructor; [|constructor]].
    + apply (item_lines_intro wx_item1 [wx_line1] []); [|reflexivity|constructor].
      apply head_one with (g := fx "        ") (r := fx "0x400bfff0       0x10 liba.a(a.o)"); [split; [t_word|left; t_prefix]|t_gap| |t_line].
      apply (fx_rest _ "0x400bfff0" "       " "0x10" " " "liba.a(a.o)"); [t_num|t_gap|t_num|t_gap|cbl|discriminate| |cbl].
      apply (loc_member (fx "liba.a") (fx "a.o")). t_not_in.
    + apply (item_lines_intro wx_item2 [wx_line2] []); [|reflexivity|constructor].
      apply head_one with (g := fx "        ") (r := fx "0x400c0000       0x10 libb.a(b.o)"); [split; [t_word|left; t_prefix]|t_gap| |t_line].
      apply (fx_rest _ "0x400c0000" "       " "0x10" " " "libb.a(b.o)"); [t_num|t_gap|t_num|t_gap|cbl|discriminate| |cbl].
      apply (loc_member (fx "libb.a") (fx "b.o")). t_not_in.
Qed.
Definition wx_disk : disk :=
  {| d_cwd := d_cwd disk1; d_text := fun fn => if fn =?= in_dir dir1 (tx "app.map") then Some wx_text else None;
     d_json := d_json disk1; d_isfile := d_isfile disk1; d_bytes := d_bytes disk1 |}.
Lemma wx_covered a : 0x40080400 <= a < 0x400c2000 -> exists t, In t types_esp32 /\ covers t a.
Proof.
  intros H. destruct (Z_lt_dec a 0x400c0000).
  - exists (ChipType "IRAM" 1074200576 0 327680). split; [right; left; reflexivity|]. exists 1074200576, 1074528256. split; [left; split; reflexivity|lia].
  - exists (ChipType "RTC FAST" 1073217536 1074528256 8192). split; [do 5 right; left; reflexivity|]. exists 1074528256, 1074536448. split; [right; repeat split; discriminate|lia].
Qed.
Lemma wx_iram a : 0x40080400 <= a < 0x400c0000 -> first_covering types_esp32 a (ChipType "IRAM" 1074200576 0 327680).
Proof.
  intros H. exists [ChipType "DRAM" 1073405952 0 335872], (tl (tl types_esp32)). split; [reflexivity|]. split.
  - exists 1074200576, 1074528256. split; [left; split; reflexivity|lia].
  - intros u [<-|[]] (lo & hi & W & B). apply windows_of_ok in W. cbn in W. destruct W as [W|[]]. injection W as <- <-. lia.
Qed.
Lemma wx_rtc a : 0x400c0000 <= a < 0x400c2000 -> first_covering types_esp32 a (ChipType "RTC FAST" 1073217536 1074528256 8192).
Proof.
  intros H. exists (firstn 5 types_esp32), (skipn 6 types_esp32). split; [reflexivity|]. split.
  - exists 1074528256, 1074536448. split; [right; repeat split; discriminate|lia].
  - intros u I (lo & hi & W & B). apply windows_of_ok in W. destruct I as [<-|[<-|[<-|[<-|[<-|[]]]]]]; cbn in W; repeat (destruct W as [W|W]; [injection W as <- <-; lia|]); contradiction.
Qed.
Lemma wx_named : ~ by_name types_esp32 (tx ".iram0.text").
Proof. intros (_ & X). apply ext_name_spec in X. vm_compute in X. discriminate X. Qed.
Lemma wx_goes a T : 1074528240 <= a < 1074528272 -> byte_goes types_esp32 (tx ".iram0.text") a T <-> T = if a <? 1074528256 then tx "IRAM" else tx "RTC FAST".
Proof.
  intros H. split.
  - intros [(N & X)|(_ & t & F & <-)].
    + exfalso. apply wx_named. split; [eexists; exact X|exact N].
    + destruct (a <? 1074528256) eqn:L; [apply Z.ltb_lt in L|apply Z.ltb_ge in L].
      * rewrite (first_covering_unique _ _ _ _ F (wx_iram a ltac:(lia))). reflexivity.
      * rewrite (first_covering_unique _ _ _ _ F (wx_rtc a ltac:(lia))). reflexivity.
  - intros ->. right. split; [exact wx_named|]. destruct (a <? 1074528256) eqn:L; [apply Z.ltb_lt in L|apply Z.ltb_ge in L].
    + eexists. split; [apply wx_iram; lia|reflexivity].
    + eexists. split; [apply wx_rtc; lia|reflexivity].
Qed.
Lemma wx_built : built wx_disk dir1 (tx "app.map") wx_text wx_regions [wx_section] None (Some px_headers) types_esp32.
Proof.
  destruct px_built as [D P _ _ _ I _ _ _]. split.
  - exact D.
  - exact P.
  - vm_compute. reflexivity.
  - exact wx_map_ok.
  - constructor; [|constructor]. split; [|split].
    + constructor; [intros a n []|constructor; [intros a n []|constructor]].
    + constructor; [split; [cbn; lia|discriminate]|constructor].
    + split; [discriminate|exact Logic.I].
  - inversion I as [| | |oo app fn file l E1 E2 E3 E4 E5 E6]; subst.
    apply (image_file wx_disk _ _ oo app fn file _ E1 E2 E3 E4 E5 E6).
  - exists (tx "esp32"). split; [|exact types_esp32_ok].
    apply (target_described _ _ _ _ px_object (tx "app.elf")); [vm_compute; reflexivity|exact px_describes|reflexivity|discriminate].
  - constructor; [|constructor]. intros _. split; [|split].
    + right. intros a (A & B). cbn in A, B. exists (Region (fx "iram0_0_seg") 1074267136 269312 (fx "xr")). split; [left; reflexivity|].
      split; [discriminate|]. cbn [r_origin r_length]. split; [lia|]. intros a' Ha'. apply wx_covered. lia.
    + intros a b T (A1 & A2) (B1 & B2) L Ga Gb. cbn in A1, A2, B1, B2. apply wx_goes in Ga; [|lia]. apply wx_goes in Gb; [|lia].
      assert (S : a < 1074528256 <-> b < 1074528256).
      { destruct (a <? 1074528256) eqn:La, (b <? 1074528256) eqn:Lb; rewrite ?Z.ltb_lt, ?Z.ltb_ge in *; try (split; lia); exfalso; rewrite Ga in Gb; discriminate Gb. }
      split.
      * intros r [<-|[<-|[]]] N H; cbn [r_origin r_length r_name] in *; lia.
      * intros t lo hi It W H. apply windows_of_ok in W.
        destruct It as [<-|[<-|[<-|[<-|[<-|[<-|[<-|[]]]]]]]]; cbn in W; repeat (destruct W as [W|W]; [injection W as <- <-; lia|]); contradiction.
    + repeat (constructor; [cbn; lia|]). constructor.
  - intros l1 o l2 o' l3 E. destruct l1 as [|x l1]; [|destruct l1; discriminate E]. injection E as _ E. destruct l2; discriminate E.
Qed.
Lemma wx_filled : filled (Some px_headers) types_esp32 [wx_section].
Proof.
  constructor; [|constructor]. intros C T a (B1 & B2) G. cbn in B1, B2. exists (if a <? 1074528256 then wx_item1 else wx_item2), a.
  split; [destruct (a <? 1074528256); [left|right; left]; reflexivity|]. split; [|exact G].
  destruct (a <? 1074528256) eqn:L; [apply Z.ltb_lt in L|apply Z.ltb_ge in L]; cbn; lia.
Qed.
Definition wx_account : account := Account wx_regions [wx_section] (Some px_headers) types_esp32.
Definition wx_args (f : format) : args :=
  Args f false false false false None false None false true false false false false (Some false) None (tx "1") None false true.
Definition wx_run (a : args) := run_files wx_disk (get_memory_types chip_info) mx_render mx_encode mx_order mx_pct (px_cmd a) no_faults (start []).
Lemma wx_reported f : reported wx_disk (px_cmd (wx_args f)) wx_account None.
Proof.
  split; [|split; [reflexivity|split; reflexivity]].
  exists dir1, (tx "app.map"), wx_text, None. split; [reflexivity|]. split; [exact wx_built|]. split; [left; reflexivity|]. right. exact wx_filled.
Qed.
Lemma count_none b n a : (forall x, a <= x < a + Z.of_nat n -> b x = false) -> SpecBytes.count b a n = 0.
Proof.
  revert a. induction n as [|n IH]; intros a H; [reflexivity|]. cbn [SpecBytes.count]. rewrite H by lia. rewrite IH; [reflexivity|]. intros x Hx. apply H. lia.
Qed.
Lemma wx_without : ~ has_bytes (of_archive (tx "libb.a")) (tx "IRAM") (tx ".iram0.text") wx_account.
Proof.
  intros (n & (keep & b & K & B & ->) & P). revert P. apply Z.le_ngt. apply Z.eq_le_incl.
  assert (Bf : forall a, 1074528256 <= a < 1074528272 -> b a = false).
  { intros a H. destruct (b a) eqn:E; [|reflexivity]. apply B, wx_goes in E; [|lia]. replace (a <? 1074528256) with false in E by (symmetry; apply Z.ltb_ge; lia). discriminate E. }
  cbn [ac_l wx_account filter]. destruct (keep wx_section); [|reflexivity].
  assert (E : bytes_with b 1074528256 16 = 0) by (apply (count_none b 16 1074528256); intros x Hx; apply Bf; lia).
  change (bytes_with b 1074528256 16 + 0 + 0 = 0). rewrite E. reflexivity.
Qed.

(** C123 is false: an archive without a byte in IRAM is listed below it, because its input
    section begins where the section is cut. *)
Theorem c123_raw_refuted : exists d c k o files s m T N x,
  reported d c k None /\ a_use_dwarf (c_args c) <> Some true /\ a_format (c_args c) = FRaw /\
  run_files d (get_memory_types chip_info) mx_render mx_encode mx_order mx_pct c o (start files) = (Done tt, s) /\ s_printed s = [PRaw m] /\
  look m T [N; x] <> None /\ ~ present k None (has_bytes (of_archive x) T N).
Proof.
  exists wx_disk, (px_cmd (wx_args FRaw)), wx_account, no_faults, [].
  do 2 eexists. exists (tx "IRAM"), (tx ".iram0.text"), (tx "libb.a").
  split; [apply wx_reported|]. split; [discriminate|]. split; [reflexivity|].
  split; [vm_compute; reflexivity|]. split; [reflexivity|]. split; [vm_compute; discriminate|].
  intros [H|[]]. exact (wx_without H).
Qed.
Print Assumptions c123_raw_refuted.
Theorem c123_tree_refuted : exists d c k o files s,
  reported d c k None /\ a_format (c_args c) = FTree /\ given (a_archive_details (c_args c)) = false /\
  run_files d (get_memory_types chip_info) mx_render mx_encode mx_order mx_pct c o (start files) = (Done tt, s) /\
  s_printed s = [PTree (map (fun x => (fst x, tx (snd x))) [(0%nat, "Memory Types");
    (1%nat, "IRAM 16 / 261120"); (2%nat, ".text 16"); (3%nat, "liba.a 16"); (4%nat, "a.o 16"); (3%nat, "libb.a 0"); (4%nat, "b.o 0");
    (1%nat, "RTC FAST 16 / 8192"); (2%nat, ".text 16"); (3%nat, "libb.a 16"); (4%nat, "b.o 16")]%string)] /\
  ~ present k None (has_bytes (of_archive (tx "libb.a")) (tx "IRAM") (tx ".iram0.text")).
Proof.
  exists wx_disk, (px_cmd (wx_args FTree)), wx_account, no_faults, []. eexists.
  split; [apply wx_reported|]. split; [reflexivity|]. split; [reflexivity|].
  split; [vm_compute; reflexivity|]. split; [vm_compute; reflexivity|]. intros [H|[]]. exact (wx_without H).
Qed.
Print Assumptions c123_tree_refuted.
