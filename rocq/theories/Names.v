(** * Names: the constants of elf.py and the dictionaries with their names.

    Written by tools/names.py from the text of elf.py.  The constants of the sections and symbols
    are listed without their prefix SHT_, STB_, STT_, STV_, as the dictionaries show them. *)
From Coq Require Import Ascii String List ZArith.
From Verif Require Import Base.
Import ListNotations.
Open Scope list_scope.
Open Scope Z_scope.

Local Definition tx (s : string) : str := list_ascii_of_string s.

(** elf.py:12-101: the constants DW_TAG_... *)
Definition DW_TAG_CONSTANTS : list (Z * str) :=
  [(0, tx "DW_TAG_padding");
   (1, tx "DW_TAG_array_type");
   (2, tx "DW_TAG_class_type");
   (3, tx "DW_TAG_entry_point");
   (4, tx "DW_TAG_enumeration_type");
   (5, tx "DW_TAG_formal_parameter");
   (8, tx "DW_TAG_imported_declaration");
   (10, tx "DW_TAG_label");
   (11, tx "DW_TAG_lexical_block");
   (13, tx "DW_TAG_member");
   (15, tx "DW_TAG_pointer_type");
   (16, tx "DW_TAG_reference_type");
   (17, tx "DW_TAG_compile_unit");
   (18, tx "DW_TAG_string_type");
   (19, tx "DW_TAG_structure_type");
   (21, tx "DW_TAG_subroutine_type");
   (22, tx "DW_TAG_typedef");
   (23, tx "DW_TAG_union_type");
   (24, tx "DW_TAG_unspecified_parameters");
   (25, tx "DW_TAG_variant");
   (26, tx "DW_TAG_common_block");
   (27, tx "DW_TAG_common_inclusion");
   (28, tx "DW_TAG_inheritance");
   (29, tx "DW_TAG_inlined_subroutine");
   (30, tx "DW_TAG_module");
   (31, tx "DW_TAG_ptr_to_member_type");
   (32, tx "DW_TAG_set_type");
   (33, tx "DW_TAG_subrange_type");
   (34, tx "DW_TAG_with_stmt");
   (35, tx "DW_TAG_access_declaration");
   (36, tx "DW_TAG_base_type");
   (37, tx "DW_TAG_catch_block");
   (38, tx "DW_TAG_const_type");
   (39, tx "DW_TAG_constant");
   (40, tx "DW_TAG_enumerator");
   (41, tx "DW_TAG_file_type");
   (42, tx "DW_TAG_friend");
   (43, tx "DW_TAG_namelist");
   (44, tx "DW_TAG_namelist_item");
   (45, tx "DW_TAG_packed_type");
   (46, tx "DW_TAG_subprogram");
   (47, tx "DW_TAG_template_type_param");
   (48, tx "DW_TAG_template_value_param");
   (49, tx "DW_TAG_thrown_type");
   (50, tx "DW_TAG_try_block");
   (51, tx "DW_TAG_variant_part");
   (52, tx "DW_TAG_variable");
   (53, tx "DW_TAG_volatile_type");
   (54, tx "DW_TAG_dwarf_procedure");
   (55, tx "DW_TAG_restrict_type");
   (56, tx "DW_TAG_interface_type");
   (57, tx "DW_TAG_namespace");
   (58, tx "DW_TAG_imported_module");
   (59, tx "DW_TAG_unspecified_type");
   (60, tx "DW_TAG_partial_unit");
   (61, tx "DW_TAG_imported_unit");
   (63, tx "DW_TAG_condition");
   (64, tx "DW_TAG_shared_type");
   (65, tx "DW_TAG_type_unit");
   (66, tx "DW_TAG_rvalue_reference_type");
   (67, tx "DW_TAG_template_alias");
   (68, tx "DW_TAG_coarray_type");
   (69, tx "DW_TAG_generic_subrange");
   (70, tx "DW_TAG_dynamic_type");
   (71, tx "DW_TAG_atomic_type");
   (72, tx "DW_TAG_call_site");
   (73, tx "DW_TAG_call_site_parameter");
   (74, tx "DW_TAG_skeleton_unit");
   (75, tx "DW_TAG_immutable_type");
   (16512, tx "DW_TAG_lo_user");
   (65535, tx "DW_TAG_hi_user");
   (16513, tx "DW_TAG_MIPS_loop");
   (16528, tx "DW_TAG_HP_array_descriptor");
   (16529, tx "DW_TAG_HP_Bliss_field");
   (16530, tx "DW_TAG_HP_Bliss_field_set");
   (16641, tx "DW_TAG_format_label");
   (16642, tx "DW_TAG_function_template");
   (16643, tx "DW_TAG_class_template");
   (16644, tx "DW_TAG_GNU_BINCL");
   (16645, tx "DW_TAG_GNU_EINCL");
   (16646, tx "DW_TAG_GNU_template_template_param");
   (16647, tx "DW_TAG_GNU_template_parameter_pack");
   (16648, tx "DW_TAG_GNU_formal_parameter_pack");
   (16649, tx "DW_TAG_GNU_call_site");
   (16650, tx "DW_TAG_GNU_call_site_parameter");
   (34661, tx "DW_TAG_upc_shared_type");
   (34662, tx "DW_TAG_upc_strict_type");
   (34663, tx "DW_TAG_upc_relaxed_type");
   (40960, tx "DW_TAG_PGI_kanji_type");
   (40992, tx "DW_TAG_PGI_interface_block")].
(** elf.py:103-194: the items of DW_TAG_NAME_MAP in the order of the text *)
Definition DW_TAG_NAME_ITEMS : list (Z * str) :=
  [(0, tx "DW_TAG_padding");
   (1, tx "DW_TAG_array_type");
   (2, tx "DW_TAG_class_type");
   (3, tx "DW_TAG_entry_point");
   (4, tx "DW_TAG_enumeration_type");
   (5, tx "DW_TAG_formal_parameter");
   (8, tx "DW_TAG_imported_declaration");
   (10, tx "DW_TAG_label");
   (11, tx "DW_TAG_lexical_block");
   (13, tx "DW_TAG_member");
   (15, tx "DW_TAG_pointer_type");
   (16, tx "DW_TAG_reference_type");
   (17, tx "DW_TAG_compile_unit");
   (18, tx "DW_TAG_string_type");
   (19, tx "DW_TAG_structure_type");
   (21, tx "DW_TAG_subroutine_type");
   (22, tx "DW_TAG_typedef");
   (23, tx "DW_TAG_union_type");
   (24, tx "DW_TAG_unspecified_parameters");
   (25, tx "DW_TAG_variant");
   (26, tx "DW_TAG_common_block");
   (27, tx "DW_TAG_common_inclusion");
   (28, tx "DW_TAG_inheritance");
   (29, tx "DW_TAG_inlined_subroutine");
   (30, tx "DW_TAG_module");
   (31, tx "DW_TAG_ptr_to_member_type");
   (32, tx "DW_TAG_set_type");
   (33, tx "DW_TAG_subrange_type");
   (34, tx "DW_TAG_with_stmt");
   (35, tx "DW_TAG_access_declaration");
   (36, tx "DW_TAG_base_type");
   (37, tx "DW_TAG_catch_block");
   (38, tx "DW_TAG_const_type");
   (39, tx "DW_TAG_constant");
   (40, tx "DW_TAG_enumerator");
   (41, tx "DW_TAG_file_type");
   (42, tx "DW_TAG_friend");
   (43, tx "DW_TAG_namelist");
   (44, tx "DW_TAG_namelist_item");
   (45, tx "DW_TAG_packed_type");
   (46, tx "DW_TAG_subprogram");
   (47, tx "DW_TAG_template_type_param");
   (48, tx "DW_TAG_template_value_param");
   (49, tx "DW_TAG_thrown_type");
   (50, tx "DW_TAG_try_block");
   (51, tx "DW_TAG_variant_part");
   (52, tx "DW_TAG_variable");
   (53, tx "DW_TAG_volatile_type");
   (54, tx "DW_TAG_dwarf_procedure");
   (55, tx "DW_TAG_restrict_type");
   (56, tx "DW_TAG_interface_type");
   (57, tx "DW_TAG_namespace");
   (58, tx "DW_TAG_imported_module");
   (59, tx "DW_TAG_unspecified_type");
   (60, tx "DW_TAG_partial_unit");
   (61, tx "DW_TAG_imported_unit");
   (63, tx "DW_TAG_condition");
   (64, tx "DW_TAG_shared_type");
   (65, tx "DW_TAG_type_unit");
   (66, tx "DW_TAG_rvalue_reference_type");
   (67, tx "DW_TAG_template_alias");
   (68, tx "DW_TAG_coarray_type");
   (69, tx "DW_TAG_generic_subrange");
   (70, tx "DW_TAG_dynamic_type");
   (71, tx "DW_TAG_atomic_type");
   (72, tx "DW_TAG_call_site");
   (73, tx "DW_TAG_call_site_parameter");
   (74, tx "DW_TAG_skeleton_unit");
   (75, tx "DW_TAG_immutable_type");
   (16512, tx "DW_TAG_lo_user");
   (65535, tx "DW_TAG_hi_user");
   (16513, tx "DW_TAG_MIPS_loop");
   (16528, tx "DW_TAG_HP_array_descriptor");
   (16529, tx "DW_TAG_HP_Bliss_field");
   (16530, tx "DW_TAG_HP_Bliss_field_set");
   (16641, tx "DW_TAG_format_label");
   (16642, tx "DW_TAG_function_template");
   (16643, tx "DW_TAG_class_template");
   (16644, tx "DW_TAG_GNU_BINCL");
   (16645, tx "DW_TAG_GNU_EINCL");
   (16646, tx "DW_TAG_GNU_template_template_param");
   (16647, tx "DW_TAG_GNU_template_parameter_pack");
   (16648, tx "DW_TAG_GNU_formal_parameter_pack");
   (16649, tx "DW_TAG_GNU_call_site");
   (16650, tx "DW_TAG_GNU_call_site_parameter");
   (34661, tx "DW_TAG_upc_shared_type");
   (34662, tx "DW_TAG_upc_strict_type");
   (34663, tx "DW_TAG_upc_relaxed_type");
   (40960, tx "DW_TAG_PGI_kanji_type");
   (40992, tx "DW_TAG_PGI_interface_block")].

(** elf.py:201-415: the constants DW_AT_... *)
Definition DW_AT_CONSTANTS : list (Z * str) :=
  [(0, tx "DW_AT_end");
   (1, tx "DW_AT_sibling");
   (2, tx "DW_AT_location");
   (3, tx "DW_AT_name");
   (9, tx "DW_AT_ordering");
   (10, tx "DW_AT_subscr_data");
   (11, tx "DW_AT_byte_size");
   (12, tx "DW_AT_bit_offset");
   (13, tx "DW_AT_bit_size");
   (15, tx "DW_AT_element_list");
   (16, tx "DW_AT_stmt_list");
   (17, tx "DW_AT_low_pc");
   (18, tx "DW_AT_high_pc");
   (19, tx "DW_AT_language");
   (20, tx "DW_AT_member");
   (21, tx "DW_AT_discr");
   (22, tx "DW_AT_discr_value");
   (23, tx "DW_AT_visibility");
   (24, tx "DW_AT_import");
   (25, tx "DW_AT_string_length");
   (26, tx "DW_AT_common_reference");
   (27, tx "DW_AT_comp_dir");
   (28, tx "DW_AT_const_value");
   (29, tx "DW_AT_containing_type");
   (30, tx "DW_AT_default_value");
   (32, tx "DW_AT_inline");
   (33, tx "DW_AT_is_optional");
   (34, tx "DW_AT_lower_bound");
   (37, tx "DW_AT_producer");
   (39, tx "DW_AT_prototyped");
   (42, tx "DW_AT_return_addr");
   (44, tx "DW_AT_start_scope");
   (46, tx "DW_AT_bit_stride");
   (47, tx "DW_AT_upper_bound");
   (49, tx "DW_AT_abstract_origin");
   (50, tx "DW_AT_accessibility");
   (51, tx "DW_AT_address_class");
   (52, tx "DW_AT_artificial");
   (53, tx "DW_AT_base_types");
   (54, tx "DW_AT_calling_convention");
   (55, tx "DW_AT_count");
   (56, tx "DW_AT_data_member_location");
   (57, tx "DW_AT_decl_column");
   (58, tx "DW_AT_decl_file");
   (59, tx "DW_AT_decl_line");
   (60, tx "DW_AT_declaration");
   (61, tx "DW_AT_discr_list");
   (62, tx "DW_AT_encoding");
   (63, tx "DW_AT_external");
   (64, tx "DW_AT_frame_base");
   (65, tx "DW_AT_friend");
   (66, tx "DW_AT_identifier_case");
   (67, tx "DW_AT_macro_info");
   (68, tx "DW_AT_namelist_item");
   (69, tx "DW_AT_priority");
   (70, tx "DW_AT_segment");
   (71, tx "DW_AT_specification");
   (72, tx "DW_AT_static_link");
   (73, tx "DW_AT_type");
   (74, tx "DW_AT_use_location");
   (75, tx "DW_AT_variable_parameter");
   (76, tx "DW_AT_virtuality");
   (77, tx "DW_AT_vtable_elem_location");
   (78, tx "DW_AT_allocated");
   (79, tx "DW_AT_associated");
   (80, tx "DW_AT_data_location");
   (81, tx "DW_AT_byte_stride");
   (82, tx "DW_AT_entry_pc");
   (83, tx "DW_AT_use_UTF8");
   (84, tx "DW_AT_extension");
   (85, tx "DW_AT_ranges");
   (86, tx "DW_AT_trampoline");
   (87, tx "DW_AT_call_column");
   (88, tx "DW_AT_call_file");
   (89, tx "DW_AT_call_line");
   (90, tx "DW_AT_description");
   (91, tx "DW_AT_binary_scale");
   (92, tx "DW_AT_decimal_scale");
   (93, tx "DW_AT_small");
   (94, tx "DW_AT_decimal_sign");
   (95, tx "DW_AT_digit_count");
   (96, tx "DW_AT_picture_string");
   (97, tx "DW_AT_mutable");
   (98, tx "DW_AT_threads_scaled");
   (99, tx "DW_AT_explicit");
   (100, tx "DW_AT_object_pointer");
   (101, tx "DW_AT_endianity");
   (102, tx "DW_AT_elemental");
   (103, tx "DW_AT_pure");
   (104, tx "DW_AT_recursive");
   (105, tx "DW_AT_signature");
   (106, tx "DW_AT_main_subprogram");
   (107, tx "DW_AT_data_bit_offset");
   (108, tx "DW_AT_const_expr");
   (109, tx "DW_AT_enum_class");
   (110, tx "DW_AT_linkage_name");
   (111, tx "DW_AT_string_length_bit_size");
   (112, tx "DW_AT_string_length_byte_size");
   (113, tx "DW_AT_rank");
   (114, tx "DW_AT_str_offsets_base");
   (115, tx "DW_AT_addr_base");
   (116, tx "DW_AT_rnglists_base");
   (118, tx "DW_AT_dwo_name");
   (119, tx "DW_AT_reference");
   (120, tx "DW_AT_rvalue_reference");
   (121, tx "DW_AT_macros");
   (122, tx "DW_AT_call_all_calls");
   (123, tx "DW_AT_call_all_source_calls");
   (124, tx "DW_AT_call_all_tail_calls");
   (125, tx "DW_AT_call_return_pc");
   (126, tx "DW_AT_call_value");
   (127, tx "DW_AT_call_origin");
   (128, tx "DW_AT_call_parameter");
   (129, tx "DW_AT_call_pc");
   (130, tx "DW_AT_call_tail_call");
   (131, tx "DW_AT_call_target");
   (132, tx "DW_AT_call_target_clobbered");
   (133, tx "DW_AT_call_data_location");
   (134, tx "DW_AT_call_data_value");
   (135, tx "DW_AT_noreturn");
   (136, tx "DW_AT_alignment");
   (137, tx "DW_AT_export_symbols");
   (138, tx "DW_AT_deleted");
   (139, tx "DW_AT_defaulted");
   (140, tx "DW_AT_loclists_base");
   (8192, tx "DW_AT_lo_user");
   (16383, tx "DW_AT_hi_user");
   (8193, tx "DW_AT_MIPS_fde");
   (8194, tx "DW_AT_MIPS_loop_begin");
   (8195, tx "DW_AT_MIPS_tail_loop_begin");
   (8196, tx "DW_AT_MIPS_epilog_begin");
   (8197, tx "DW_AT_MIPS_loop_unroll_factor");
   (8198, tx "DW_AT_MIPS_software_pipeline_depth");
   (8199, tx "DW_AT_MIPS_linkage_name");
   (8200, tx "DW_AT_MIPS_stride");
   (8201, tx "DW_AT_MIPS_abstract_name");
   (8202, tx "DW_AT_MIPS_clone_origin");
   (8203, tx "DW_AT_MIPS_has_inlines");
   (8192, tx "DW_AT_HP_block_index");
   (8193, tx "DW_AT_HP_unmodifiable");
   (8197, tx "DW_AT_HP_prologue");
   (8200, tx "DW_AT_HP_epilogue");
   (8208, tx "DW_AT_HP_actuals_stmt_list");
   (8209, tx "DW_AT_HP_proc_per_section");
   (8210, tx "DW_AT_HP_raw_data_ptr");
   (8211, tx "DW_AT_HP_pass_by_reference");
   (8212, tx "DW_AT_HP_opt_level");
   (8213, tx "DW_AT_HP_prof_version_id");
   (8214, tx "DW_AT_HP_opt_flags");
   (8215, tx "DW_AT_HP_cold_region_low_pc");
   (8216, tx "DW_AT_HP_cold_region_high_pc");
   (8217, tx "DW_AT_HP_all_variables_modifiable");
   (8218, tx "DW_AT_HP_linkage_name");
   (8219, tx "DW_AT_HP_prof_flags");
   (8223, tx "DW_AT_HP_unit_name");
   (8224, tx "DW_AT_HP_unit_size");
   (8225, tx "DW_AT_HP_widened_byte_size");
   (8226, tx "DW_AT_HP_definition_points");
   (8227, tx "DW_AT_HP_default_location");
   (8233, tx "DW_AT_HP_is_result_param");
   (8449, tx "DW_AT_sf_names");
   (8450, tx "DW_AT_src_info");
   (8451, tx "DW_AT_mac_info");
   (8452, tx "DW_AT_src_coords");
   (8453, tx "DW_AT_body_begin");
   (8454, tx "DW_AT_body_end");
   (8455, tx "DW_AT_GNU_vector");
   (8456, tx "DW_AT_GNU_guarded_by");
   (8457, tx "DW_AT_GNU_pt_guarded_by");
   (8458, tx "DW_AT_GNU_guarded");
   (8459, tx "DW_AT_GNU_pt_guarded");
   (8460, tx "DW_AT_GNU_locks_excluded");
   (8461, tx "DW_AT_GNU_exclusive_locks_required");
   (8462, tx "DW_AT_GNU_shared_locks_required");
   (8463, tx "DW_AT_GNU_odr_signature");
   (8464, tx "DW_AT_GNU_template_name");
   (8465, tx "DW_AT_GNU_call_site_value");
   (8466, tx "DW_AT_GNU_call_site_data_value");
   (8467, tx "DW_AT_GNU_call_site_target");
   (8468, tx "DW_AT_GNU_call_site_target_clobbered");
   (8469, tx "DW_AT_GNU_tail_call");
   (8470, tx "DW_AT_GNU_all_tail_call_sites");
   (8471, tx "DW_AT_GNU_all_call_sites");
   (8472, tx "DW_AT_GNU_all_source_call_sites");
   (8473, tx "DW_AT_GNU_macros");
   (8474, tx "DW_AT_GNU_deleted");
   (8496, tx "DW_AT_GNU_dwo_name");
   (8497, tx "DW_AT_GNU_dwo_id");
   (8498, tx "DW_AT_GNU_ranges_base");
   (8499, tx "DW_AT_GNU_addr_base");
   (8500, tx "DW_AT_GNU_pubnames");
   (8501, tx "DW_AT_GNU_pubtypes");
   (8502, tx "DW_AT_GNU_discriminator");
   (8503, tx "DW_AT_GNU_locviews");
   (8504, tx "DW_AT_GNU_entry_view");
   (8705, tx "DW_AT_VMS_rtnbeg_pd_address");
   (8961, tx "DW_AT_use_GNAT_descriptive_type");
   (8962, tx "DW_AT_GNAT_descriptive_type");
   (12816, tx "DW_AT_upc_threads_scaled");
   (14848, tx "DW_AT_PGI_lbase");
   (14849, tx "DW_AT_PGI_soffset");
   (14850, tx "DW_AT_PGI_lstride");
   (16353, tx "DW_AT_APPLE_optimized");
   (16354, tx "DW_AT_APPLE_flags");
   (16355, tx "DW_AT_APPLE_isa");
   (16356, tx "DW_AT_APPLE_block");
   (16357, tx "DW_AT_APPLE_major_runtime_vers");
   (16358, tx "DW_AT_APPLE_runtime_class");
   (16359, tx "DW_AT_APPLE_omit_frame_ptr");
   (16360, tx "DW_AT_APPLE_property_name");
   (16361, tx "DW_AT_APPLE_property_getter");
   (16362, tx "DW_AT_APPLE_property_setter");
   (16363, tx "DW_AT_APPLE_property_attribute");
   (16364, tx "DW_AT_APPLE_objc_complete_type");
   (16365, tx "DW_AT_APPLE_property")].
(** elf.py:417-629: the items of DW_AT_NAME_MAP in the order of the text *)
Definition DW_AT_NAME_ITEMS : list (Z * str) :=
  [(0, tx "DW_AT_end");
   (1, tx "DW_AT_sibling");
   (2, tx "DW_AT_location");
   (3, tx "DW_AT_name");
   (9, tx "DW_AT_ordering");
   (10, tx "DW_AT_subscr_data");
   (11, tx "DW_AT_byte_size");
   (12, tx "DW_AT_bit_offset");
   (13, tx "DW_AT_bit_size");
   (15, tx "DW_AT_element_list");
   (16, tx "DW_AT_stmt_list");
   (17, tx "DW_AT_low_pc");
   (18, tx "DW_AT_high_pc");
   (19, tx "DW_AT_language");
   (20, tx "DW_AT_member");
   (21, tx "DW_AT_discr");
   (22, tx "DW_AT_discr_value");
   (23, tx "DW_AT_visibility");
   (24, tx "DW_AT_import");
   (25, tx "DW_AT_string_length");
   (26, tx "DW_AT_common_reference");
   (27, tx "DW_AT_comp_dir");
   (28, tx "DW_AT_const_value");
   (29, tx "DW_AT_containing_type");
   (30, tx "DW_AT_default_value");
   (32, tx "DW_AT_inline");
   (33, tx "DW_AT_is_optional");
   (34, tx "DW_AT_lower_bound");
   (37, tx "DW_AT_producer");
   (39, tx "DW_AT_prototyped");
   (42, tx "DW_AT_return_addr");
   (44, tx "DW_AT_start_scope");
   (46, tx "DW_AT_bit_stride");
   (47, tx "DW_AT_upper_bound");
   (49, tx "DW_AT_abstract_origin");
   (50, tx "DW_AT_accessibility");
   (51, tx "DW_AT_address_class");
   (52, tx "DW_AT_artificial");
   (53, tx "DW_AT_base_types");
   (54, tx "DW_AT_calling_convention");
   (55, tx "DW_AT_count");
   (56, tx "DW_AT_data_member_location");
   (57, tx "DW_AT_decl_column");
   (58, tx "DW_AT_decl_file");
   (59, tx "DW_AT_decl_line");
   (60, tx "DW_AT_declaration");
   (61, tx "DW_AT_discr_list");
   (62, tx "DW_AT_encoding");
   (63, tx "DW_AT_external");
   (64, tx "DW_AT_frame_base");
   (65, tx "DW_AT_friend");
   (66, tx "DW_AT_identifier_case");
   (67, tx "DW_AT_macro_info");
   (68, tx "DW_AT_namelist_item");
   (69, tx "DW_AT_priority");
   (70, tx "DW_AT_segment");
   (71, tx "DW_AT_specification");
   (72, tx "DW_AT_static_link");
   (73, tx "DW_AT_type");
   (74, tx "DW_AT_use_location");
   (75, tx "DW_AT_variable_parameter");
   (76, tx "DW_AT_virtuality");
   (77, tx "DW_AT_vtable_elem_location");
   (78, tx "DW_AT_allocated");
   (79, tx "DW_AT_associated");
   (80, tx "DW_AT_data_location");
   (81, tx "DW_AT_byte_stride");
   (82, tx "DW_AT_entry_pc");
   (83, tx "DW_AT_use_UTF8");
   (84, tx "DW_AT_extension");
   (85, tx "DW_AT_ranges");
   (86, tx "DW_AT_trampoline");
   (87, tx "DW_AT_call_column");
   (88, tx "DW_AT_call_file");
   (89, tx "DW_AT_call_line");
   (90, tx "DW_AT_description");
   (91, tx "DW_AT_binary_scale");
   (92, tx "DW_AT_decimal_scale");
   (93, tx "DW_AT_small");
   (94, tx "DW_AT_decimal_sign");
   (95, tx "DW_AT_digit_count");
   (96, tx "DW_AT_picture_string");
   (97, tx "DW_AT_mutable");
   (98, tx "DW_AT_threads_scaled");
   (99, tx "DW_AT_explicit");
   (100, tx "DW_AT_object_pointer");
   (101, tx "DW_AT_endianity");
   (102, tx "DW_AT_elemental");
   (103, tx "DW_AT_pure");
   (104, tx "DW_AT_recursive");
   (105, tx "DW_AT_signature");
   (106, tx "DW_AT_main_subprogram");
   (107, tx "DW_AT_data_bit_offset");
   (108, tx "DW_AT_const_expr");
   (109, tx "DW_AT_enum_class");
   (110, tx "DW_AT_linkage_name");
   (111, tx "DW_AT_string_length_bit_size");
   (112, tx "DW_AT_string_length_byte_size");
   (113, tx "DW_AT_rank");
   (114, tx "DW_AT_str_offsets_base");
   (115, tx "DW_AT_addr_base");
   (116, tx "DW_AT_rnglists_base");
   (118, tx "DW_AT_dwo_name");
   (119, tx "DW_AT_reference");
   (120, tx "DW_AT_rvalue_reference");
   (121, tx "DW_AT_macros");
   (122, tx "DW_AT_call_all_calls");
   (123, tx "DW_AT_call_all_source_calls");
   (124, tx "DW_AT_call_all_tail_calls");
   (125, tx "DW_AT_call_return_pc");
   (126, tx "DW_AT_call_value");
   (127, tx "DW_AT_call_origin");
   (128, tx "DW_AT_call_parameter");
   (129, tx "DW_AT_call_pc");
   (130, tx "DW_AT_call_tail_call");
   (131, tx "DW_AT_call_target");
   (132, tx "DW_AT_call_target_clobbered");
   (133, tx "DW_AT_call_data_location");
   (134, tx "DW_AT_call_data_value");
   (135, tx "DW_AT_noreturn");
   (136, tx "DW_AT_alignment");
   (137, tx "DW_AT_export_symbols");
   (138, tx "DW_AT_deleted");
   (139, tx "DW_AT_defaulted");
   (140, tx "DW_AT_loclists_base");
   (8192, tx "DW_AT_lo_user/DW_AT_HP_block_index");
   (16383, tx "DW_AT_hi_user");
   (8193, tx "DW_AT_MIPS_fde/DW_AT_HP_unmodifiable");
   (8194, tx "DW_AT_MIPS_loop_begin");
   (8195, tx "DW_AT_MIPS_tail_loop_begin");
   (8196, tx "DW_AT_MIPS_epilog_begin");
   (8197, tx "DW_AT_MIPS_loop_unroll_factor/DW_AT_HP_prologue");
   (8198, tx "DW_AT_MIPS_software_pipeline_depth");
   (8199, tx "DW_AT_MIPS_linkage_name");
   (8200, tx "DW_AT_MIPS_stride/DW_AT_HP_epilogue");
   (8201, tx "DW_AT_MIPS_abstract_name");
   (8202, tx "DW_AT_MIPS_clone_origin");
   (8203, tx "DW_AT_MIPS_has_inlines");
   (8208, tx "DW_AT_HP_actuals_stmt_list");
   (8209, tx "DW_AT_HP_proc_per_section");
   (8210, tx "DW_AT_HP_raw_data_ptr");
   (8211, tx "DW_AT_HP_pass_by_reference");
   (8212, tx "DW_AT_HP_opt_level");
   (8213, tx "DW_AT_HP_prof_version_id");
   (8214, tx "DW_AT_HP_opt_flags");
   (8215, tx "DW_AT_HP_cold_region_low_pc");
   (8216, tx "DW_AT_HP_cold_region_high_pc");
   (8217, tx "DW_AT_HP_all_variables_modifiable");
   (8218, tx "DW_AT_HP_linkage_name");
   (8219, tx "DW_AT_HP_prof_flags");
   (8223, tx "DW_AT_HP_unit_name");
   (8224, tx "DW_AT_HP_unit_size");
   (8225, tx "DW_AT_HP_widened_byte_size");
   (8226, tx "DW_AT_HP_definition_points");
   (8227, tx "DW_AT_HP_default_location");
   (8233, tx "DW_AT_HP_is_result_param");
   (8449, tx "DW_AT_sf_names");
   (8450, tx "DW_AT_src_info");
   (8451, tx "DW_AT_mac_info");
   (8452, tx "DW_AT_src_coords");
   (8453, tx "DW_AT_body_begin");
   (8454, tx "DW_AT_body_end");
   (8455, tx "DW_AT_GNU_vector");
   (8456, tx "DW_AT_GNU_guarded_by");
   (8457, tx "DW_AT_GNU_pt_guarded_by");
   (8458, tx "DW_AT_GNU_guarded");
   (8459, tx "DW_AT_GNU_pt_guarded");
   (8460, tx "DW_AT_GNU_locks_excluded");
   (8461, tx "DW_AT_GNU_exclusive_locks_required");
   (8462, tx "DW_AT_GNU_shared_locks_required");
   (8463, tx "DW_AT_GNU_odr_signature");
   (8464, tx "DW_AT_GNU_template_name");
   (8465, tx "DW_AT_GNU_call_site_value");
   (8466, tx "DW_AT_GNU_call_site_data_value");
   (8467, tx "DW_AT_GNU_call_site_target");
   (8468, tx "DW_AT_GNU_call_site_target_clobbered");
   (8469, tx "DW_AT_GNU_tail_call");
   (8470, tx "DW_AT_GNU_all_tail_call_sites");
   (8471, tx "DW_AT_GNU_all_call_sites");
   (8472, tx "DW_AT_GNU_all_source_call_sites");
   (8473, tx "DW_AT_GNU_macros");
   (8474, tx "DW_AT_GNU_deleted");
   (8496, tx "DW_AT_GNU_dwo_name");
   (8497, tx "DW_AT_GNU_dwo_id");
   (8498, tx "DW_AT_GNU_ranges_base");
   (8499, tx "DW_AT_GNU_addr_base");
   (8500, tx "DW_AT_GNU_pubnames");
   (8501, tx "DW_AT_GNU_pubtypes");
   (8502, tx "DW_AT_GNU_discriminator");
   (8503, tx "DW_AT_GNU_locviews");
   (8504, tx "DW_AT_GNU_entry_view");
   (8705, tx "DW_AT_VMS_rtnbeg_pd_address");
   (8961, tx "DW_AT_use_GNAT_descriptive_type");
   (8962, tx "DW_AT_GNAT_descriptive_type");
   (12816, tx "DW_AT_upc_threads_scaled");
   (14848, tx "DW_AT_PGI_lbase");
   (14849, tx "DW_AT_PGI_soffset");
   (14850, tx "DW_AT_PGI_lstride");
   (16353, tx "DW_AT_APPLE_optimized");
   (16354, tx "DW_AT_APPLE_flags");
   (16355, tx "DW_AT_APPLE_isa");
   (16356, tx "DW_AT_APPLE_block");
   (16357, tx "DW_AT_APPLE_major_runtime_vers");
   (16358, tx "DW_AT_APPLE_runtime_class");
   (16359, tx "DW_AT_APPLE_omit_frame_ptr");
   (16360, tx "DW_AT_APPLE_property_name");
   (16361, tx "DW_AT_APPLE_property_getter");
   (16362, tx "DW_AT_APPLE_property_setter");
   (16363, tx "DW_AT_APPLE_property_attribute");
   (16364, tx "DW_AT_APPLE_objc_complete_type");
   (16365, tx "DW_AT_APPLE_property")].

(** elf.py:636-683: the constants DW_FORM_... *)
Definition DW_FORM_CONSTANTS : list (Z * str) :=
  [(0, tx "DW_FORM_end");
   (1, tx "DW_FORM_addr");
   (3, tx "DW_FORM_block2");
   (4, tx "DW_FORM_block4");
   (5, tx "DW_FORM_data2");
   (6, tx "DW_FORM_data4");
   (7, tx "DW_FORM_data8");
   (8, tx "DW_FORM_string");
   (9, tx "DW_FORM_block");
   (10, tx "DW_FORM_block1");
   (11, tx "DW_FORM_data1");
   (12, tx "DW_FORM_flag");
   (13, tx "DW_FORM_sdata");
   (14, tx "DW_FORM_strp");
   (15, tx "DW_FORM_udata");
   (16, tx "DW_FORM_ref_addr");
   (17, tx "DW_FORM_ref1");
   (18, tx "DW_FORM_ref2");
   (19, tx "DW_FORM_ref4");
   (20, tx "DW_FORM_ref8");
   (21, tx "DW_FORM_ref_udata");
   (22, tx "DW_FORM_indirect");
   (23, tx "DW_FORM_sec_offset");
   (24, tx "DW_FORM_exprloc");
   (25, tx "DW_FORM_flag_present");
   (32, tx "DW_FORM_ref_sig8");
   (26, tx "DW_FORM_strx");
   (27, tx "DW_FORM_addrx");
   (28, tx "DW_FORM_ref_sup4");
   (29, tx "DW_FORM_strp_sup");
   (30, tx "DW_FORM_data16");
   (31, tx "DW_FORM_line_strp");
   (33, tx "DW_FORM_implicit_const");
   (34, tx "DW_FORM_loclistx");
   (35, tx "DW_FORM_rnglistx");
   (36, tx "DW_FORM_ref_sup8");
   (37, tx "DW_FORM_strx1");
   (38, tx "DW_FORM_strx2");
   (39, tx "DW_FORM_strx3");
   (40, tx "DW_FORM_strx4");
   (41, tx "DW_FORM_addrx1");
   (42, tx "DW_FORM_addrx2");
   (43, tx "DW_FORM_addrx3");
   (44, tx "DW_FORM_addrx4");
   (7937, tx "DW_FORM_GNU_addr_index");
   (7938, tx "DW_FORM_GNU_str_index");
   (7968, tx "DW_FORM_GNU_ref_alt");
   (7969, tx "DW_FORM_GNU_strp_alt")].
(** elf.py:685-734: the items of DW_FORM_NAME_MAP in the order of the text *)
Definition DW_FORM_NAME_ITEMS : list (Z * str) :=
  [(0, tx "DW_FORM_end");
   (1, tx "DW_FORM_addr");
   (3, tx "DW_FORM_block2");
   (4, tx "DW_FORM_block4");
   (5, tx "DW_FORM_data2");
   (6, tx "DW_FORM_data4");
   (7, tx "DW_FORM_data8");
   (8, tx "DW_FORM_string");
   (9, tx "DW_FORM_block");
   (10, tx "DW_FORM_block1");
   (11, tx "DW_FORM_data1");
   (12, tx "DW_FORM_flag");
   (13, tx "DW_FORM_sdata");
   (14, tx "DW_FORM_strp");
   (15, tx "DW_FORM_udata");
   (16, tx "DW_FORM_ref_addr");
   (17, tx "DW_FORM_ref1");
   (18, tx "DW_FORM_ref2");
   (19, tx "DW_FORM_ref4");
   (20, tx "DW_FORM_ref8");
   (21, tx "DW_FORM_ref_udata");
   (22, tx "DW_FORM_indirect");
   (23, tx "DW_FORM_sec_offset");
   (24, tx "DW_FORM_exprloc");
   (25, tx "DW_FORM_flag_present");
   (32, tx "DW_FORM_ref_sig8");
   (26, tx "DW_FORM_strx");
   (27, tx "DW_FORM_addrx");
   (28, tx "DW_FORM_ref_sup4");
   (29, tx "DW_FORM_strp_sup");
   (30, tx "DW_FORM_data16");
   (31, tx "DW_FORM_line_strp");
   (33, tx "DW_FORM_implicit_const");
   (34, tx "DW_FORM_loclistx");
   (35, tx "DW_FORM_rnglistx");
   (36, tx "DW_FORM_ref_sup8");
   (37, tx "DW_FORM_strx1");
   (38, tx "DW_FORM_strx2");
   (39, tx "DW_FORM_strx3");
   (40, tx "DW_FORM_strx4");
   (41, tx "DW_FORM_addrx1");
   (42, tx "DW_FORM_addrx2");
   (43, tx "DW_FORM_addrx3");
   (44, tx "DW_FORM_addrx4");
   (7937, tx "DW_FORM_GNU_addr_index");
   (7938, tx "DW_FORM_GNU_str_index");
   (7968, tx "DW_FORM_GNU_ref_alt");
   (7969, tx "DW_FORM_GNU_strp_alt")].

(** elf.py:1148-1184: the constants SHT_... *)
Definition SHT_CONSTANTS : list (Z * str) :=
  [(0, tx "NULL");
   (1, tx "PROGBITS");
   (2, tx "SYMTAB");
   (3, tx "STRTAB");
   (4, tx "RELA");
   (5, tx "HASH");
   (6, tx "DYNAMIC");
   (7, tx "NOTE");
   (8, tx "NOBITS");
   (9, tx "REL");
   (10, tx "SHLIB");
   (11, tx "DYNSYM");
   (14, tx "INIT_ARRAY");
   (15, tx "FINI_ARRAY");
   (16, tx "PREINIT_ARRAY");
   (17, tx "GROUP");
   (18, tx "SYMTAB_SHNDX");
   (19, tx "RELR");
   (20, tx "NUM");
   (1610612736, tx "LOOS");
   (1879048181, tx "GNU_ATTRIBUTES");
   (1879048182, tx "GNU_HASH");
   (1879048183, tx "GNU_LIBLIST");
   (1879048184, tx "CHECKSUM");
   (1879048186, tx "LOSUNW");
   (1879048186, tx "SUNW_move");
   (1879048187, tx "SUNW_COMDAT");
   (1879048188, tx "SUNW_syminfo");
   (1879048189, tx "GNU_verdef");
   (1879048190, tx "GNU_verneed");
   (1879048191, tx "GNU_versym");
   (1879048191, tx "HISUNW");
   (1879048191, tx "HIOS");
   (1879048192, tx "LOPROC");
   (2147483647, tx "HIPROC");
   (2147483648, tx "LOUSER");
   (2415919103, tx "HIUSER")].
(** elf.py:1187-1225: the items of SHT_NAME_MAP in the order of the text *)
Definition SHT_NAME_ITEMS : list (Z * str) :=
  [(0, tx "NULL");
   (1, tx "PROGBITS");
   (2, tx "SYMTAB");
   (3, tx "STRTAB");
   (4, tx "RELA");
   (5, tx "HASH");
   (6, tx "DYNAMIC");
   (7, tx "NOTE");
   (8, tx "NOBITS");
   (9, tx "REL");
   (10, tx "SHLIB");
   (11, tx "DYNSYM");
   (14, tx "INIT_ARRAY");
   (15, tx "FINI_ARRAY");
   (16, tx "PREINIT_ARRAY");
   (17, tx "GROUP");
   (18, tx "SYMTAB_SHNDX");
   (19, tx "RELR");
   (20, tx "NUM");
   (1610612736, tx "LOOS");
   (1879048181, tx "GNU_ATTRIBUTES");
   (1879048182, tx "GNU_HASH");
   (1879048183, tx "GNU_LIBLIST");
   (1879048184, tx "CHECKSUM");
   (1879048186, tx "LOSUNW");
   (1879048186, tx "SUNW_move");
   (1879048187, tx "SUNW_COMDAT");
   (1879048188, tx "SUNW_syminfo");
   (1879048189, tx "GNU_verdef");
   (1879048190, tx "GNU_verneed");
   (1879048191, tx "GNU_versym");
   (1879048191, tx "HISUNW");
   (1879048191, tx "HIOS");
   (1879048192, tx "LOPROC");
   (2147483647, tx "HIPROC");
   (2147483648, tx "LOUSER");
   (2415919103, tx "HIUSER")].

(** elf.py:1233-1241: the constants STB_... *)
Definition STB_CONSTANTS : list (Z * str) :=
  [(0, tx "LOCAL");
   (1, tx "GLOBAL");
   (2, tx "WEAK");
   (3, tx "NUM");
   (10, tx "LOOS");
   (10, tx "GNU_UNIQUE");
   (12, tx "HIOS");
   (13, tx "LOPROC");
   (15, tx "HIPROC")].
(** elf.py:1243-1252: the items of STB_NAME_MAP in the order of the text *)
Definition STB_NAME_ITEMS : list (Z * str) :=
  [(0, tx "LOCAL");
   (1, tx "GLOBAL");
   (2, tx "WEAK");
   (3, tx "NUM");
   (10, tx "LOOS");
   (12, tx "HIOS");
   (13, tx "LOPROC");
   (15, tx "HIPROC")].

(** elf.py:1255-1267: the constants STT_... *)
Definition STT_CONSTANTS : list (Z * str) :=
  [(0, tx "NOTYPE");
   (1, tx "OBJECT");
   (2, tx "FUNC");
   (3, tx "SECTION");
   (4, tx "FILE");
   (5, tx "COMMON");
   (6, tx "TLS");
   (7, tx "NUM");
   (10, tx "LOOS");
   (10, tx "GNU_IFUNC");
   (12, tx "HIOS");
   (13, tx "LOPROC");
   (15, tx "HIPROC")].
(** elf.py:1269-1282: the items of STT_NAME_MAP in the order of the text *)
Definition STT_NAME_ITEMS : list (Z * str) :=
  [(0, tx "NOTYPE");
   (1, tx "OBJECT");
   (2, tx "FUNC");
   (3, tx "SECTION");
   (4, tx "FILE");
   (5, tx "COMMON");
   (6, tx "TLS");
   (7, tx "NUM");
   (10, tx "LOOS/GNU_IFUNC");
   (12, tx "HIOS");
   (13, tx "LOPROC");
   (15, tx "HIPROC")].

(** elf.py:1285-1288: the constants STV_... *)
Definition STV_CONSTANTS : list (Z * str) :=
  [(0, tx "DEFAULT");
   (1, tx "INTERNAL");
   (2, tx "HIDDEN");
   (3, tx "PROTECTED")].
(** elf.py:1290-1295: the items of STV_NAME_MAP in the order of the text *)
Definition STV_NAME_ITEMS : list (Z * str) :=
  [(0, tx "DEFAULT");
   (1, tx "INTERNAL");
   (2, tx "HIDDEN");
   (3, tx "PROTECTED")].
