(** * The listings of elf.py: properties C104 to C108 *)
From Coq Require Import Ascii String List ZArith Bool Lia.
From Verif Require Import Base ElfRead Dwarf Names Table Dump SpecMap SpecTable SpecElf SpecDwarf SpecDebug SpecDump
  ProofElf1 ProofElf2 ProofTable ProofDump1 ProofDump2 ProofDump3 ProofDump4 ProofDump5 FixElf FixDebug FixDump.
Import ListNotations.
Open Scope list_scope.
Open Scope Z_scope.

(** ** C104: the listing of the sections *)
Theorem c104_sections : forall is64 big file h phs shs e names o, elf_image is64 big file h phs shs -> elf_init file = Ok e -> named_sections e names ->
  o_debug o = None -> o_symbols o = false -> o_sections o = true ->
  exists lines, elf_program o file = (section_titles :: lines, Ok tt) /\ rows section_row (combine shs names) lines.
Proof. exact sections_listed. Qed.
Print Assumptions c104_sections.

(** no listing without an option, nor an error *)
Theorem c104_nothing_asked : forall is64 big file h phs shs, elf_image is64 big file h phs shs -> elf_program (Options false false None) file = ([], Ok tt).
Proof. exact nothing_listed. Qed.
Print Assumptions c104_nothing_asked.

Example c104_example : elf_image true false (fx_file true false) (fx_ehdr true false) fx_phdrs (fx_shdrs true false) /\
  elf_init (fx_file true false) = Ok (fx_elf true false) /\ named_sections (fx_elf true false) fx_names /\
  elf_program (Options true false None) (fx_file true false) = (map tx
    ["Nr  Name                           Type            Address    Off      Size    ";
     "0                                  NULL            0x00000000 0x000000 0x000000";
     "1   .symtab                        SYMTAB          0x00000000 0x0000a0 0x000090";
     "2   .strtab                        STRTAB          0x00000000 0x000080 0x000020";
     "3   .shstrtab                      STRTAB          0x00000000 0x000040 0x000040";
     "4   .debug_abbrev                  PROGBITS        0x00000000 0x000130 0x00003e";
     "5   .debug_info                    PROGBITS        0x00000000 0x00016e 0x00007a";
     "6   .debug_str                     PROGBITS        0x00000000 0x0001e8 0x000011"]%string, Ok tt).
Proof. split; [apply fx_image|]. split; [vm_compute; reflexivity|]. split; [exact (di_names _ _ _ (fx_debug_image true false))|]. vm_compute. reflexivity. Qed.

(** ** C105: the listings of the symbols *)

(** a line for every symbol, if all types and bindings have a name.  The full statement drops
    [usual] and is refuted below *)
Theorem c105_symbols_partial : forall is64 big file h phs shs ls e names ns o, elf_image is64 big file h phs shs -> elf_init file = Ok e -> named_sections e names ->
  Forall2 (symtab_image is64 big file) (filter is_symtab shs) ls ->
  Forall2 (symbol_named e) (concat ls) ns -> Forall usual (concat ls) ->
  o_debug o = None -> o_symbols o = true ->
  exists lines, elf_program o file = (symbol_titles :: lines, Ok tt) /\
    rows (symbol_row names) (map (fun yn => (yn, None)) (combine (concat ls) ns)) lines.
Proof. exact symbols_listed. Qed.
Print Assumptions c105_symbols_partial.

(** with their units: one line for each address of a function or an object *)
Theorem c105_files_partial : forall is64 big file h phs shs ls e names us o, elf_image is64 big file h phs shs -> elf_init file = Ok e ->
  Forall2 (symtab_image is64 big file) (filter is_symtab shs) ls ->
  Forall (fun y => usual y /\ exists n, symbol_named e y n) (concat ls) ->
  debug_image e names us -> ordinary e names us -> o_debug o = Some DebugFiles ->
  exists lines l, elf_program o file = (symbol_titles :: lines, Ok tt) /\ rows (symbol_row names) l lines /\
    NoDup (map (fun ync => x_value (fst (fst ync))) l) /\
    (forall y n c, In (y, n, c) l -> symbol_named e y n /\ symbol_unit e names us (x_value y) c /\
      last_with (fun y' => candidate y' /\ x_value y' = x_value y) (concat ls) y) /\
    (forall y, In y (concat ls) -> candidate y -> In (x_value y) (map (fun ync => x_value (fst (fst ync))) l)).
Proof. exact files_listed. Qed.
Print Assumptions c105_files_partial.

(** a symbol of a type without a name ends the listing: the symbols after it are not shown *)
Theorem c105_unnamed_refuted : exists file h shs ls e names ns, elf_image false false file h [] shs /\ elf_init file = Ok e /\ named_sections e names /\
  Forall2 (symtab_image false false file) (filter is_symtab shs) ls /\ Forall2 (symbol_named e) (concat ls) ns /\
  length (concat ls) = 3%nat /\ exists line, elf_program (Options false true None) file = ([symbol_titles; line], Err KeyError).
Proof.
  exists (whole ut_secs), (whole_ehdr ut_secs), (whole_shdrs ut_secs), [ut_syms], (whole_elf ut_secs), (mini_names ut_secs), [tx ".shstrtab"; tx ".shstrtab"; tx ".shstrtab"].
  split; [exact ut_image|]. split; [vm_compute; reflexivity|]. split; [apply named_ok; vm_compute; reflexivity|]. split; [exact ut_symtab|].
  split; [repeat constructor; apply symbol_ok; vm_compute; reflexivity|]. split; [reflexivity|]. eexists. vm_compute. reflexivity.
Qed.
Print Assumptions c105_unnamed_refuted.

(** the method works only in the program: elsewhere there is no global variable [elf] *)
Theorem c105_library_refuted : exists file h phs shs e y l, elf_image true false file h phs shs /\ elf_init file = Ok e /\ symbols e = Ok (y :: l) /\
  Forall usual (y :: l) /\ dump_symbol_table None e = ([symbol_titles], Err NameError).
Proof.
  exists (fx_file true false), (fx_ehdr true false), fx_phdrs, (fx_shdrs true false), (fx_elf true false). eexists _, _. split; [apply fx_image|].
  split; [vm_compute; reflexivity|]. split; [vm_compute; reflexivity|]. split; [repeat constructor; cbn; apply has_name_ok; reflexivity|]. vm_compute. reflexivity.
Qed.
Print Assumptions c105_library_refuted.

Example c105_example : exists ls ns, Forall2 (symtab_image true false (fx_file true false)) (filter is_symtab (fx_shdrs true false)) ls /\
  Forall2 (symbol_named (fx_elf true false)) (concat ls) ns /\ Forall usual (concat ls) /\
  Forall (fun y => usual y /\ exists n, symbol_named (fx_elf true false) y n) (concat ls) /\
  debug_image (fx_elf true false) fx_names (fx_units true false) /\ ordinary (fx_elf true false) fx_names (fx_units true false) /\
  elf_program (Options false true None) (fx_file true false) = (map tx
    ["Num     Value         Size Type       Bind       Vis           Ndx Shdr                 Name";
     "0       0x00000000       0 NOTYPE     LOCAL      DEFAULT         0                       NOCU";
     "1       0x00001000      40 FUNC       GLOBAL     DEFAULT         7 SPECIAL              app_main NOCU";
     "2       0x00002000       4 OBJECT     GLOBAL     DEFAULT         7 SPECIAL              counter NOCU";
     "3       0x00001010      24 FUNC       LOCAL      DEFAULT         7 SPECIAL              log NOCU";
     "4       0x00001040       8 FUNC       GLOBAL     DEFAULT         7 SPECIAL              other NOCU";
     "5       0x00005000       8 FUNC       GLOBAL     DEFAULT     65521 SPECIAL              vec NOCU"]%string, Ok tt) /\
  elf_program (Options false false (Some DebugFiles)) (fx_file true false) = (map tx
    ["Num     Value         Size Type       Bind       Vis           Ndx Shdr                 Name";
     "0       0x00001000      40 FUNC       GLOBAL     DEFAULT         7 SPECIAL              app_main main.c";
     "1       0x00002000       4 OBJECT     GLOBAL     DEFAULT         7 SPECIAL              counter main.c";
     "2       0x00001010      24 FUNC       LOCAL      DEFAULT         7 SPECIAL              log log.c";
     "3       0x00001040       8 FUNC       GLOBAL     DEFAULT         7 SPECIAL              other NOCU"]%string, Ok tt).
Proof.
  exists [fx_syms], (map tx [""; "app_main"; "counter"; "log"; "other"; "vec"]%string). split; [constructor; [apply fx_symtab_image; reflexivity|constructor]|].
  assert (N : Forall2 (symbol_named (fx_elf true false)) (concat [fx_syms]) (map tx [""; "app_main"; "counter"; "log"; "other"; "vec"]%string)) by (repeat constructor; apply symbol_ok; vm_compute; reflexivity).
  assert (U : Forall usual (concat [fx_syms])) by (repeat constructor; cbn; apply has_name_ok; reflexivity).
  split; [exact N|]. split; [exact U|]. split; [apply Forall_forall; intros y I; rewrite Forall_forall in U; split; [now apply U|]; clear U; revert I; induction N as [|a n l m H F IH]; intros I; [destruct I|]; destruct I as [<-|I]; [now exists n|now apply IH]|].
  split; [apply fx_debug_image|]. split; [apply fx_ordinary|]. split; vm_compute; reflexivity.
Qed.

(** ** C106: the listing of the debugging information *)

(** a line for every entry and every attribute, in the order of the bytes, if the values are read
    exactly and can be shown.  The full statement drops [showable] and is refuted below *)
Theorem c106_info_partial : forall is64 big file h phs shs e names us o, elf_image is64 big file h phs shs -> elf_init file = Ok e ->
  debug_image e names us -> Forall (showable e names) (flat_map unit_dies us) -> o_debug o = Some DebugInfo ->
  exists lines, elf_program o file = (lines, Ok tt) /\ info_lines e names (flat_map unit_dies us) lines.
Proof. exact info_done. Qed.
Print Assumptions c106_info_partial.

(** an attribute of form loclistx (34) or rnglistx (35) ends the listing *)
Theorem c106_lists_refuted : forall f, f = 34 \/ f = 35 -> exists file h shs e names us, elf_image false false file h [] shs /\ elf_init file = Ok e /\ debug_image e names us /\
  (exists d a, In d (flat_map unit_dies us) /\ has_attr d 85 a /\ at_form a = f) /\
  exists lines, elf_program (Options false false (Some DebugInfo)) file = (lines, Err TypeError).
Proof.
  intros f F. exists (whole (rl_secs f)), (whole_ehdr (rl_secs f)), (whole_shdrs (rl_secs f)), (whole_elf (rl_secs f)), (mini_names (rl_secs f)), [rl_unit f].
  split; [exact (rl_image f F)|]. destruct F as [->| ->].
  - split; [vm_compute; reflexivity|]. split; [exact rl_debug34|]. split; [eexists _, _; split; [left; reflexivity|]; split; [right; left; reflexivity|reflexivity]|eexists; vm_compute; reflexivity].
  - split; [vm_compute; reflexivity|]. split; [exact rl_debug35|]. split; [eexists _, _; split; [left; reflexivity|]; split; [right; left; reflexivity|reflexivity]|eexists; vm_compute; reflexivity].
Qed.
Print Assumptions c106_lists_refuted.

(** a name with 30 and more characters is not separated from the form *)
Theorem c106_unseparated_refuted : exists file h shs e names us, elf_image false false file h [] shs /\ elf_init file = Ok e /\ debug_image e names us /\
  Forall (showable e names) (flat_map unit_dies us) /\
  elf_program (Options false false (Some DebugInfo)) file = (map tx
    ["<0> <0xc> Abbrev Number: <1> (DW_TAG_compile_unit) size: 0x8";
     "    <0xd> DW_AT_name                    DW_FORM_string                 main.c";
     "    <0x14> DW_AT_GNU_all_source_call_sitesDW_FORM_flag_present           0x1"]%string, Ok tt).
Proof.
  exists (whole ln_secs), (whole_ehdr ln_secs), (whole_shdrs ln_secs), (whole_elf ln_secs), (mini_names ln_secs), [ln_unit].
  split; [exact ln_image|]. split; [vm_compute; reflexivity|]. split; [exact ln_debug|]. split; [apply (showable_ok _ _ []); vm_compute; reflexivity|]. vm_compute. reflexivity.
Qed.
Print Assumptions c106_unseparated_refuted.

Example c106_example : debug_image (fx_elf true false) fx_names (fx_units true false) /\
  Forall (showable (fx_elf true false) fx_names) (flat_map unit_dies (fx_units true false)) /\
  firstn 13 (fst (elf_program (Options false false (Some DebugInfo)) (fx_file true false))) = map tx
    ["<0> <0xc> Abbrev Number: <1> (DW_TAG_compile_unit) size: 0x36";
     "    <0xd> DW_AT_name                    DW_FORM_strp                   main.c";
     "    <0x11> DW_AT_language                DW_FORM_data1                  0x1d";
     "<1> <0x12> Abbrev Number: <2> (DW_TAG_subprogram) size: 0x12";
     "    <0x13> DW_AT_name                    DW_FORM_string                 app_main";
     "    <0x1c> DW_AT_low_pc                  DW_FORM_addr                   0x1000";
     "    <0x24> DW_AT_inline                  DW_FORM_implicit_const         0x3";
     "<1> <0x24> Abbrev Number: <3> (DW_TAG_variable) size: 0x13";
     "    <0x25> DW_AT_name                    DW_FORM_string                 counter";
     "    <0x2d> DW_AT_location                DW_FORM_exprloc                0x2000";
     "<1> <0x37> Abbrev Number: <3> (DW_TAG_variable) size: 0xa";
     "    <0x38> DW_AT_name                    DW_FORM_string                 local";
     "    <0x3e> DW_AT_location                DW_FORM_exprloc                9104"]%string.
Proof. split; [apply fx_debug_image|]. split; [apply (showable_ok _ _ fx_str); vm_compute; reflexivity|]. vm_compute. reflexivity. Qed.

(** ** C107: the listing of the abbreviations, for units of all types *)
Theorem c107_abbreviations : forall file e names info abb us ts o, elf_init file = Ok e ->
  named_sections e names -> section_is e names (list_ascii_of_string ".debug_info") info -> section_is e names (list_ascii_of_string ".debug_abbrev") abb ->
  units_enc (xe_big e) 0 us info -> Forall2 (abbrevs_of abb) us ts -> o_debug o = Some DebugAbbrev ->
  exists lines, elf_program o file = (lines, Ok tt) /\ abbrev_lines 0 (combine (map fst us) ts) lines.
Proof. exact abbrevs_done. Qed.
Print Assumptions c107_abbreviations.

(** every table of abbreviations has its offsets *)
Theorem c107_offsets : forall tbl l, abbrevs_enc tbl l -> forall off, exists t, abbrevs_at off t l /\
  map (fun a => Abbrev (l_code a) (l_tag a) (l_children a) (map snd (l_attrs a))) t = tbl.
Proof. exact abbrevs_place. Qed.
Print Assumptions c107_offsets.

Example c107_example : exists info us ts, section_is (fx_elf true false) fx_names (list_ascii_of_string ".debug_info") info /\
  section_is (fx_elf true false) fx_names (list_ascii_of_string ".debug_abbrev") fx_abbrev /\
  units_enc false 0 us info /\ Forall2 (abbrevs_of fx_abbrev) us ts /\ length us = 2%nat /\
  fst (elf_program (Options false false (Some DebugAbbrev)) (fx_file true false)) = map tx
    ["<0x00000000> CU<0> at offset 0x00000000";
     "<0x00000000>   1 DW_TAG_compile_unit [1]";
     "<0x00000003>      DW_AT_name                     DW_FORM_strp";
     "<0x00000005>      DW_AT_language                 DW_FORM_data1";
     "<0x00000007>      DW_AT_end                      DW_FORM_end";
     "<0x00000009>   2 DW_TAG_subprogram [0]";
     "<0x0000000c>      DW_AT_name                     DW_FORM_string";
     "<0x0000000e>      DW_AT_low_pc                   DW_FORM_addr";
     "<0x00000010>      DW_AT_inline                   DW_FORM_implicit_const";
     "<0x00000013>      DW_AT_end                      DW_FORM_end";
     "<0x00000015>   3 DW_TAG_variable [0]";
     "<0x00000018>      DW_AT_name                     DW_FORM_string";
     "<0x0000001a>      DW_AT_location                 DW_FORM_exprloc";
     "<0x0000001c>      DW_AT_end                      DW_FORM_end";
     "<0x0000001f> CU<1> at offset 0x00000042";
     "<0x0000001f>   1 DW_TAG_compile_unit [1]";
     "<0x00000022>      DW_AT_name                     DW_FORM_string";
     "<0x00000024>      DW_AT_end                      DW_FORM_end";
     "<0x00000026>   2 DW_TAG_subprogram [1]";
     "<0x00000029>      DW_AT_name                     DW_FORM_string";
     "<0x0000002b>      DW_AT_end                      DW_FORM_end";
     "<0x0000002d>   3 DW_TAG_formal_parameter [0]";
     "<0x00000030>      DW_AT_byte_size                DW_FORM_udata";
     "<0x00000032>      DW_AT_end                      DW_FORM_end";
     "<0x00000034>   4 DW_TAG_subprogram [0]";
     "<0x00000037>      DW_AT_abstract_origin          DW_FORM_ref4";
     "<0x00000039>      DW_AT_low_pc                   DW_FORM_addr";
     "<0x0000003b>      DW_AT_end                      DW_FORM_end"]%string.
Proof.
  destruct (di_sections _ _ _ (fx_debug_image true false)) as (info & abb & SI & _ & U & _).
  destruct (abbrevs_place fx_tbl1 (abbrevs_bytes fx_tbl1) ltac:(apply uleb_tbl; vm_compute; reflexivity) 0) as (t1 & T1 & _).
  destruct (abbrevs_place fx_tbl2 (abbrevs_bytes fx_tbl2) ltac:(apply uleb_tbl; vm_compute; reflexivity) fx_aoff2) as (t2 & T2 & _).
  eexists info, _, [t1; t2]. split; [exact SI|]. split; [apply section_ok; vm_compute; reflexivity|]. split; [exact U|]. split.
  - constructor; [exists (abbrevs_bytes fx_tbl1); split; [exact T1|apply occursb_ok; vm_compute; reflexivity]|].
    constructor; [exists (abbrevs_bytes fx_tbl2); split; [exact T2|apply occursb_ok; vm_compute; reflexivity]|constructor].
  - split; [reflexivity|]. vm_compute. reflexivity.
Qed.

(** ** C108: names *)
(** a number is shown by names of constants with this value, or as unknown *)
Theorem c108_names : forall z, shown_name DW_TAG_CONSTANTS z (get_tag_name z) /\ shown_name DW_AT_CONSTANTS z (get_attr_name z) /\
  shown_name DW_FORM_CONSTANTS z (get_form_name z) /\ shown_name SHT_CONSTANTS z (get_sht_name z).
Proof. intros z. exact (conj (tag_shown z) (conj (attr_shown z) (conj (form_shown z) (sht_shown z)))). Qed.
Print Assumptions c108_names.
(** different numbers are shown differently *)
Theorem c108_distinct : forall z z', get_tag_name z = get_tag_name z' \/ get_attr_name z = get_attr_name z' \/
  get_form_name z = get_form_name z' \/ get_sht_name z = get_sht_name z' -> z = z'.
Proof. intros z z' [H|[H|[H|H]]]; [exact (tag_inj z z' H)|exact (attr_inj z z' H)|exact (form_inj z z' H)|exact (sht_inj z z' H)]. Qed.
Print Assumptions c108_distinct.
(** the same for types, bindings and visibilities of symbols; every visibility has a name *)
Theorem c108_symbols : forall y y' s,
  (type_name y = Ok s -> type_name y' = Ok s -> x_stinfo y mod 16 = x_stinfo y' mod 16) /\
  (bind_name y = Ok s -> bind_name y' = Ok s -> x_stinfo y / 16 = x_stinfo y' / 16) /\
  (visibility_name y = Ok s -> visibility_name y' = Ok s -> x_stother y mod 4 = x_stother y' mod 4) /\
  exists v, visibility_name y = Ok v /\ shown_name STV_CONSTANTS (x_stother y mod 4) v.
Proof. intros y y' s. exact (conj (type_inj y y' s) (conj (bind_inj y y' s) (conj (vis_inj y y' s) (vis_always y)))). Qed.
Print Assumptions c108_symbols.

Example c108_example : map get_sht_name [1; 1879048191; 21] = map tx ["PROGBITS"; "HIOS"; "UNKNOWN 21"]%string /\
  get_attr_name 8193 = tx "DW_AT_MIPS_fde/DW_AT_HP_unmodifiable" /\ get_tag_name 46 = tx "DW_TAG_subprogram" /\ get_form_name 25 = tx "DW_FORM_flag_present" /\
  (let y := XSym 0 0 0 0 18 6 0 in type_name y = Ok (tx "FUNC") /\ bind_name y = Ok (tx "GLOBAL") /\ visibility_name y = Ok (tx "HIDDEN")).
Proof. repeat split; vm_compute; reflexivity. Qed.
