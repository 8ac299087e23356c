(** * Properties C75 to C80: units, abbreviations, entries and the units of symbols *)
From Coq Require Import Ascii String List ZArith Bool Lia.
From Verif Require Import Base ElfRead Dwarf SpecElf ProofElf1 ProofElf2 SpecDwarf SpecDebug ProofDwarf1 ProofDwarf2 ProofDwarf3 ProofDwarf4 FixElf FixDebug.
Import ListNotations.
Open Scope list_scope.
Open Scope Z_scope.

(** ** C75 *)

(** the abbreviations of a unit: codes, tags, attributes and forms; the constants
    stored in the table if they are not negative *)
Theorem c75_abbreviations_partial : forall e names abb c tbl l, named_sections e names ->
  section_is e names (list_ascii_of_string ".debug_abbrev") abb -> abbrevs_enc tbl l -> occurs abb (cu_abbrev_offset c) l ->
  exists tbl', abbrev_table e c = Ok tbl' /\ Forall2 abbrev_like tbl tbl'.
Proof. exact abbrev_table_image. Qed.
Print Assumptions c75_abbreviations_partial.

(** a negative constant (DW_FORM_implicit_const) is read as a positive one *)
Theorem c75_constants_refuted : exists tbl l tbl', abbrevs_enc tbl l /\
  read_abbrevs (S (length l)) false l 0 = Ok tbl' /\ tbl' <> tbl.
Proof.
  exists [Abbrev 1 46 0 [AbAttr 32 33 (Some (-1)); AbAttr 0 0 None]], [1; 46; 0; 32; 33; 127; 0; 0; 0]. eexists.
  split; [|split; [vm_compute; reflexivity | discriminate]].
  refine (abs_more (Abbrev 1 46 0 _) [] [1] [46] [32; 33; 127; 0; 0] [0] _ _ _ _ _ _); cbn [ab_code ab_tag ab_children ab_attrs]; try lia.
  - apply uleb1; lia.
  - apply uleb1; lia.
  - refine (aes_more (AbAttr 32 33 (Some (-1))) [32; 33; 127] [_] [0; 0] _ _ _); [left; discriminate | |].
    + exists [32], [33], [127]. split; [reflexivity|]. split; [apply uleb1; cbn; lia|]. split; [apply uleb1; cbn; lia|].
      split; [reflexivity|]. exact (se_last 127 ltac:(lia)).
    + exact (aes_end [0] [0] (uleb1 0 ltac:(lia)) (uleb1 0 ltac:(lia))).
  - exact (abs_end [0] (uleb1 0 ltac:(lia))).
Qed.
Print Assumptions c75_constants_refuted.

Example c75_example : named_sections (fx_elf true true) fx_names /\
  section_is (fx_elf true true) fx_names (list_ascii_of_string ".debug_abbrev") fx_abbrev /\
  occurs fx_abbrev (cu_abbrev_offset (fx_cu2 true true)) (abbrevs_bytes fx_tbl2) /\ abbrevs_enc fx_tbl2 (abbrevs_bytes fx_tbl2) /\
  abbrev_table (fx_elf true true) (fx_cu2 true true) = Ok fx_tbl2.
Proof.
  split; [apply named_ok; vm_compute; reflexivity|]. split; [apply section_ok; vm_compute; reflexivity|].
  split; [apply occursb_ok; vm_compute; reflexivity|]. split; [apply uleb_tbl; reflexivity | vm_compute; reflexivity].
Qed.

(** ** C76 *)

(** all entries of a unit in the order of the file: offset, parent, level, code, tag,
    size, and the attributes with their names, forms, positions, sizes and values *)
Theorem c76_entries_partial : forall big c tbl tbl' t info table, 0 <= cu_address_size c -> numbered tbl -> readable tbl ->
  Forall2 abbrev_like tbl tbl' -> table = Ok tbl' -> tree_ok big c tbl t -> occurs info (cu_die_offset c) (tbytes t) ->
  exists l, unit_DIEs big info table c = Ok l /\ Forall2 die_like (tdies (cu_die_offset c) None 0 t) l.
Proof. exact unit_DIEs_enc. Qed.
Print Assumptions c76_entries_partial.

(** abbreviations with other codes than 1, 2, 3, ... in this order *)
Theorem c76_codes_refuted : exists big c tbl t info x, tree_ok big c tbl t /\ NoDup (map ab_code tbl) /\ readable tbl /\
  info = tbytes t /\ cu_die_offset c = 0 /\ unit_DIEs big info (Ok tbl) c = Err x.
Proof.
  exists false, (Cu 0 4 8 false 4 None 4 0 0), [Abbrev 2 17 0 [attr 3 8; no_more]; Abbrev 1 46 0 [attr 3 8; no_more]],
    (Tree (Abbrev 2 17 0 [attr 3 8; no_more]) [2] [vstr "main.c"] []). eexists _, _.
  split; [node false (Cu 0 4 8 false 4 None 4 0 0); [attr_tac false (Cu 0 4 8 false 4 None 4 0 0) | apply Forall_nil]|].
  split; [cbv; nodup|]. split; [apply readable_ok; reflexivity|]. split; [reflexivity|]. split; [reflexivity|].
  vm_compute. reflexivity.
Qed.
Print Assumptions c76_codes_refuted.

Example c76_example : tree_ok true (fx_cu2 true true) fx_tbl2 (fx_tree2 true true) /\ numbered fx_tbl2 /\ readable fx_tbl2 /\
  match unit_DIEs true (fx_info true true) (Ok fx_tbl2) (fx_cu2 true true) with Ok l => l | Err _ => [] end =
    tdies (cu_die_offset (fx_cu2 true true)) None 0 (fx_tree2 true true) /\
  length (tdies (cu_die_offset (fx_cu2 true true)) None 0 (fx_tree2 true true)) = 7%nat.
Proof.
  split; [apply fx_tree2_ok|]. split; [apply numbered_ok; reflexivity|]. split; [apply readable_ok; reflexivity|].
  split; vm_compute; reflexivity.
Qed.

(** ** C77 *)

(** the units of .debug_info: versions 2 to 5, both formats, compile and partial units *)
Theorem c77_units_partial : forall e names info us, named_sections e names ->
  section_is e names (list_ascii_of_string ".debug_info") info ->
  units_enc (xe_big e) 0 us info -> Forall (fun u => plain_unit (fst u)) us -> CUs e = Ok (map fst us).
Proof. exact CUs_image. Qed.
Print Assumptions c77_units_partial.

(** type units of version 5: the signature of the type is taken for the first entry *)
Theorem c77_type_units_refuted : exists c body l, unit_enc false c body l /\ cu_offset c = 0 /\
  exists c', read_cu false l 0 = Ok c' /\ cu_die_offset c' <> cu_die_offset c.
Proof.
  exists (Cu 0 4 21 false 5 (Some 2) 4 0 24), [0]. eexists. split.
  - apply (ue_unit false (Cu 0 4 21 false 5 (Some 2) 4 0 24) [0]
             (int_enc false 2 5 ++ [2] ++ [4] ++ int_enc false 4 0 ++ int_enc false 8 77 ++ int_enc false 4 24)); try reflexivity.
    + apply uh_type; [now left | numbers | numbers].
    + now left.
    + numbers.
    + cbn. lia.
  - split; [reflexivity|]. eexists. split; [vm_compute; reflexivity | discriminate].
Qed.
Print Assumptions c77_type_units_refuted.

Example c77_example : CUs (fx_elf false true) = Ok [fx_cu1 false true; fx_cu2 false true] /\
  Forall (fun c => plain_unit c) [fx_cu1 false true; fx_cu2 false true].
Proof. split; [vm_compute; reflexivity|]. apply Forall_cons; [right; left; reflexivity|]. apply Forall_cons; [left; reflexivity | apply Forall_nil]. Qed.

(** ** C78 *)

(** from the bytes of the file: which symbols are reported and with which unit *)
Theorem c78_file_partial : forall is64 big file h phs shs ls names us, elf_image is64 big file h phs shs ->
  Forall2 (symtab_image is64 big file) (filter is_symtab shs) ls ->
  exists e, elf_init file = Ok e /\
  (debug_image e names us -> ordinary e names us ->
   exists r, add_cus_to_symbols e = Ok r /\
   forall z, match dget z r with
             | None => Forall (fun y => ~ (candidate y /\ x_value y = z)) (concat ls)
             | Some (y, n) => last_with (fun y => candidate y /\ x_value y = z) (concat ls) y /\ symbol_unit e names us z n
             end).
Proof. exact add_cus_file. Qed.
Print Assumptions c78_file_partial.

(** whatever the debugging information is: the symbols *)
Theorem c78_symbols : forall e syms r, symbols e = Ok syms -> add_cus_to_symbols e = Ok r ->
  forall z, match dget z r with
            | None => Forall (fun y => ~ (candidate y /\ x_value y = z)) syms
            | Some (y, _) => last_with (fun y => candidate y /\ x_value y = z) syms y
            end.
Proof. exact add_cus_symbols. Qed.
Print Assumptions c78_symbols.

(** a function in a partial unit: KeyError, as the entry of the unit is not kept *)
Theorem c78_partial_units_refuted : exists e names us, debug_image e names us /\
  (forall d u, In (d, u) (entries us) -> entry_ok e us d) /\ (forall u, In u us -> exists n, unit_name e names u n) /\
  symbols e = Ok [XSym 0 0 4096 40 18 0 7] /\ add_cus_to_symbols e = Err KeyError.
Proof.
  exists (mini pu_secs), (mini_names pu_secs), [pu_unit]. split; [exact pu_image|].
  split; [apply entries_b_ok; vm_compute; reflexivity|]. split; [|split; vm_compute; reflexivity].
  intros u [<-|[]]. exists (tx "main.c"). eexists _, _, _. split; [reflexivity|]. split; [left; reflexivity|].
  apply tv_string; [reflexivity | reflexivity | apply accepted_utf8; reflexivity].
Qed.
Print Assumptions c78_partial_units_refuted.

Example c78_example : debug_image (fx_elf true false) fx_names (fx_units true false) /\
  ordinary (fx_elf true false) fx_names (fx_units true false) /\
  elf_init (fx_file true false) = Ok (fx_elf true false) /\
  match add_cus_to_symbols (fx_elf true false) with Ok r => map (fun p => (fst p, snd (snd p))) r | Err _ => [] end =
    [(4096, Some (tx "main.c")); (8192, Some (tx "main.c")); (4112, Some (tx "log.c")); (4160, None)].
Proof. split; [apply fx_debug_image|]. split; [apply fx_ordinary|]. split; vm_compute; reflexivity. Qed.

(** ** C79 *)

(** the address of an entry is the one stated, and none if there is none *)
Theorem c79_addresses_partial : forall e us d, NoDup (map fst (d_attrs d)) -> entry_ok e us d ->
  exists o, die_address e d = Ok o /\ forall z, o = Some z <-> entry_address e d z.
Proof. exact die_address_ok. Qed.
Print Assumptions c79_addresses_partial.

(** a variable with an empty location (one that was optimised away) ends the run *)
Theorem c79_empty_location_refuted : exists e names us, debug_image e names us /\
  (forall u, In u us -> ab_tag (t_abbrev (u_tree u)) = 17 /\ exists n, unit_name e names u n) /\
  symbols e = Ok [XSym 0 0 4096 40 18 0 7] /\ add_cus_to_symbols e = Err Elf_Exception.
Proof.
  exists (mini ev_secs), (mini_names ev_secs), [ev_unit]. split; [exact ev_image|]. split; [|split; vm_compute; reflexivity].
  intros u [<-|[]]. split; [reflexivity|]. exists (tx "main.c"). eexists _, _, _. split; [reflexivity|]. split; [left; reflexivity|].
  apply tv_string; [reflexivity | reflexivity | apply accepted_utf8; reflexivity].
Qed.
Print Assumptions c79_empty_location_refuted.

Example c79_example : exists d u, In (d, u) (entries (fx_units false false)) /\ entry_ok (fx_elf false false) (fx_units false false) d /\
  NoDup (map fst (d_attrs d)) /\ d_tag d = 52 /\ die_address (fx_elf false false) d = Ok (Some 8192).
Proof.
  destruct (nth_error (entries (fx_units false false)) 2) as [[d u]|] eqn:E; [|vm_compute in E; discriminate].
  exists d, u. pose proof (nth_error_In _ _ E) as I. split; [exact I|]. split; [exact (proj2 (fx_ordinary false false) d u I)|].
  vm_compute in E. injection E as <- <-. split; [cbv; nodup|]. split; [reflexivity | vm_compute; reflexivity].
Qed.

(** ** C80 *)

(** the text of a name: forms string, strp and line_strp *)
Theorem c80_names_partial : forall e names a n, named_sections e names -> text_value e names a n -> get_attr_str e a = Ok n.
Proof. exact text_value_get. Qed.
Print Assumptions c80_names_partial.

(** form strx (26): the name is the string at an offset which is the entry [i] of
    .debug_str_offsets (32-bit DWARF), counted from [base]; the code returns [i] *)
Theorem c80_strx_refuted : exists e names a n i base offs strs z, named_sections e names /\
  at_form a = 26 /\ at_value a = DInt i /\
  section_is e names (tx ".debug_str_offsets") offs /\ occurs offs (base + 4 * i) (int_enc (xe_big e) 4 z) /\
  section_is e names (tx ".debug_str") strs /\ occurs strs z (text n ++ [0]) /\ plain n /\ n <> [] /\
  exists m, get_attr_str e a = Ok m /\ m <> n.
Proof.
  exists (mini sx_secs), (mini_names sx_secs), (DAttr 3 26 0 (DInt 0) 1), (tx "main.c"), 0, 8,
    (int_enc false 4 8 ++ [5; 0; 0; 0] ++ int_enc false 4 1), (bz "" ++ bz "main.c"), 1.
  split; [apply named_ok; vm_compute; reflexivity|]. split; [reflexivity|]. split; [reflexivity|].
  split; [apply section_ok; vm_compute; reflexivity|]. split; [apply occursb_ok; vm_compute; reflexivity|].
  split; [apply section_ok; vm_compute; reflexivity|]. split; [apply occursb_ok; vm_compute; reflexivity|].
  split; [apply plain_ok; reflexivity|]. split; [discriminate|].
  exists (tx "0x0"). split; [vm_compute; reflexivity | discriminate].
Qed.
Print Assumptions c80_strx_refuted.

Example c80_example : text_value (fx_elf true true) fx_names (DAttr 3 14 13 (DInt 1) 4) (tx "main.c") /\
  get_attr_str (fx_elf true true) (DAttr 3 14 13 (DInt 1) 4) = Ok (tx "main.c").
Proof.
  split; [|vm_compute; reflexivity].
  refine (tv_strp _ _ _ _ 14 (tx ".debug_str") fx_str 1 _ _ _ _ _ _).
  - left. split; reflexivity.
  - reflexivity.
  - reflexivity.
  - apply section_ok. vm_compute. reflexivity.
  - apply occursb_ok. vm_compute. reflexivity.
  - apply plain_ok. reflexivity.
Qed.
