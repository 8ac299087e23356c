{"claims": [
{"property": "C01", "status": "proved", "theorems": ["c01_read_back", "c01_exact"], "note": "Every printed map (format in SpecMap.v): names, addresses, archives, objects exact, sizes by an explicit rule; regular maps are always accepted and read exactly, padding included."},
{"property": "C02", "status": "proved", "theorems": ["c02_regions", "c02_regions_total"], "note": ""},
{"property": "C03", "status": "partial", "theorems": ["c03_location_partial", "c03_join", "c03_location_refuted", "c03_direct_refuted"], "note": "Proved for archive and direct object paths without an opening parenthesis; refuted for others (finding)."},
{"property": "C04", "status": "proved", "theorems": ["c04_cross_references"], "note": ""},
{"property": "C05", "status": "proved", "theorems": ["c05_superseded", "c05_out_of_range"], "note": ""},
{"property": "C06", "status": "partial", "theorems": ["c06_inside_partial", "c06_inside_refuted"], "note": "All but the first input section of an output section; the first is not checked by the code: refuted (finding)."},
{"property": "C07", "status": "partial", "theorems": ["c07_padding_partial", "c07_padding_refuted"], "note": "Proved when an input section without size is followed by at most one *fill* and no data line, and the first has a size; refuted otherwise: only the last fill line is charged (finding)."},
{"property": "C08", "status": "partial", "theorems": ["c08_errors_partial", "c08_errors_refuted", "c08_printed_refuted"], "note": "Only MapFileException, ValueError, TypeError, NameError, IndexError can be raised; each of the others is reachable (findings), NameError even from a well-formed map."},
{"property": "C09", "status": "proved", "theorems": ["c09_validate", "c09_validate_error"], "note": ""},
{"property": "C10", "status": "proved", "theorems": ["c10_truncated"], "note": ""},
{"property": "C11", "status": "proved", "theorems": ["c11_target", "c11_parts_unique"], "note": ""},
{"property": "C12", "status": "proved", "theorems": ["c12_regions_tiled"], "note": "region lengths assumed non-negative (they are parsed from hexadecimal numbers)"},
{"property": "C13", "status": "partial", "theorems": ["c13_region_splitting_terminates_refuted", "c13_region_splitting_terminates_partial", "c13_covered_regions_terminate_partial"], "note": "refuted: endless loop for a region that reaches an address without memory type and ends where an earlier region part ends; exact termination condition proved"},
{"property": "C14", "status": "proved", "theorems": ["c14_sections_tiled"], "note": ""},
{"property": "C15", "status": "proved", "theorems": ["c15_cut_conserves"], "note": ""},
{"property": "C16", "status": "proved", "theorems": ["c16_pieces_stay_inside"], "note": ""},
{"property": "C17", "status": "proved", "theorems": ["c17_archive_totals", "c17_archives_listed", "c17_archives_no_more", "c17_archives_sum", "c17_archives_wf"], "note": ""},
{"property": "C18", "status": "partial", "theorems": ["c18_symbol_sizes_kept_refuted", "c18_symbol_sizes_last_partial", "c18_symbol_sizes_kept_partial"], "note": "refuted: symbols of one object file with equal names overwrite each other; true for distinct names, and the last size is shown otherwise"},
{"property": "C19", "status": "proved", "theorems": ["c19_used_conserved", "c19_destination_exists", "c19_destination_unique"], "note": "region parts carry a type of the chip's table (C12)"},
{"property": "C20", "status": "partial", "theorems": ["c20_used_is_sum_refuted", "c20_used_is_sum_partial"], "note": "refuted: parts of a section in two regions of the same memory type overwrite each other while 'used' accumulates; proved for distinct reported names"},
{"property": "C21", "status": "proved", "theorems": ["c21_type_size"], "note": ""},
{"property": "C22", "status": "proved", "theorems": ["c22_sections_of_type", "c22_used_of_type", "c22_types", "c22_map_wf"], "note": ""},
{"property": "C23", "status": "partial", "theorems": ["c23_overflow_reported_refuted", "c23_unpreceded_not_assigned_refuted", "c23_overflow_reported_partial"], "note": "refuted: overflow of the region with the highest address is lost; a part below all regions is reported as overflow of the lowest; proved for gaps between regions"},
{"property": "C24", "status": "proved", "theorems": ["c24_ext_ram_listed", "c24_ext_ram_any_address", "c24_others_by_address"], "note": ""},
{"property": "C25", "status": "proved", "theorems": ["c25_kept_sections"], "note": ""},
{"property": "C26", "status": "partial", "theorems": ["c26_image_size_refuted", "c26_image_size_partial", "c26_image_size_at_most", "c26_image_size_by_name"], "note": "refuted: of two allocated ELF sections with one name the second replaces the first; proved for distinct names, as an upper bound in general, and by name without ELF headers"},
{"property": "C27", "status": "partial", "theorems": ["c27_supplied_elf_refuted", "c27_supplied_elf_ignored"], "note": "refuted: get() sets elf = None before using it (memorymap.py:198), so the argument never has an effect; the independence itself is proved"},
{"property": "C28", "status": "partial", "theorems": ["c28_symbols_placed_refuted", "c28_symbols_placed_partial"], "note": "refuted for a symbol that starts before an input section and reaches into it (it is skipped); proved for symbols by start address"},
{"property": "C29", "status": "partial", "theorems": ["c29_no_holes_refuted", "c29_no_holes_partial", "c29_own_names_partial"], "note": "refuted: input sections after the one of the last symbol list nothing; proved up to the last symbol and without ELF"},
{"property": "C30", "status": "proved", "theorems": ["c30_symbols_keep_sizes"], "note": ""},
{"property": "C31", "status": "partial", "theorems": ["c31_expansion_conserves_refuted", "c31_padding_refuted", "c31_expansion_conserves_partial", "c31_pieces_partial", "c31_archives_kept"], "note": "refuted: the rest of an '(exe)' input section is dropped if no symbol starts behind it, and an empty one overwrites the padding before it; proved if a symbol follows and none crosses the end"},
{"property": "C32", "status": "partial", "theorems": ["c32_repeatable_refuted", "c32_repeatable_partial"], "note": "refuted: DWARF expansion stays in the MapFile object; proved for all histories without DWARF"},
{"property": "C33", "status": "partial", "theorems": ["c33_bytes_accounted", "c33_archive_bytes_refuted"], "note": "used bytes proved in full; per archive refuted (parts of one name replace each other), proved for distinct names without DWARF"},
{"property": "C34", "status": "proved", "theorems": ["c34_diff_entries", "c34_diff_memory_types", "c34_diff_unique_keys", "c34_diff_header"], "note": "keys are assumed unique on every level (Python dict); uniqueness is proved of the result"},
{"property": "C35", "status": "proved", "theorems": ["c35_diff_self", "c35_diff_self_memory_types", "c35_diff_antisymmetric", "c35_diff_chain"], "note": ""},
{"property": "C36", "status": "proved", "theorems": ["c36_diff_totals"], "note": ""},
{"property": "C37", "status": "partial", "theorems": ["c37_same_project_partial", "c37_same_project_refuted"], "note": "refuted: raw output shows minus the flash size as size_diff; partial: every other value in every format (raw, json, table, csv, tree) and every message shows no difference, at every successful run"},
{"property": "C38", "status": "proved", "theorems": ["c38_unify_sums", "c38_unify_unique_keys", "c38_unify_totals", "c38_unify_header"], "note": ""},
{"property": "C39", "status": "proved", "theorems": ["c39_unify_idempotent", "c39_unify_diff_commute"], "note": "commutation assumes that common paths have the same abbreviated name, which holds of maps built by get()"},
{"property": "C40", "status": "partial", "theorems": ["c40_unify_structure_refuted"], "note": "refuted: unify() adds the key None to every symbol entry"},
{"property": "C41", "status": "proved", "theorems": ["c41_walk_visits", "c41_walk_ancestors", "c41_walk_once"], "note": ""},
{"property": "C42", "status": "proved", "theorems": ["c42_archives_report", "c42_archives_once"], "note": "rows of archives unchanged in a diff are left out, as stated"},
{"property": "C43", "status": "partial", "theorems": ["c43_objects_report_partial", "c43_names_without_colon", "c43_objects_totals_partial", "c43_objects_unify_refuted"], "note": "refuted with --unify (two archives with equally named object files: section value is the last one, total is the sum); proved without --unify when 'archive:object' identifies the object file; totals proved always"},
{"property": "C44", "status": "partial", "theorems": ["c44_symbols_report_partial", "c44_names_without_colon", "c44_symbols_totals_partial", "c44_not_found_partial", "c44_not_found_refuted", "c44_symbols_unify_refuted"], "note": "refuted: 'not found' for an archive without symbols, and section values with --unify; proved without --unify when names contain no ':'; totals and exact condition of the error proved always"},
{"property": "C45", "status": "partial", "theorems": ["c45_remove_unused_listed_types_used_refuted", "c45_remove_unused_idempotent_refuted", "c45_remove_unused_partial", "c45_remove_unused_header_partial", "c45_remove_unused_stable_partial"], "note": "refuted: a memory type whose last section is removed stays listed with used = 0 and goes on the second application; exact effect proved, stable after two applications"},
{"property": "C46", "status": "proved", "theorems": ["c46_flash_types", "c46_flash_entries", "c46_flash_rest", "c46_flash_idempotent", "c46_contains_means_substring"], "note": ""},
{"property": "C47", "status": "partial", "theorems": ["c47_trim_entries", "c47_trim_order", "c47_trim_header", "c47_trim_keeps_changed_refuted"], "note": "refuted: changes that cancel inside a parent are hidden; exact set and order of the remaining entries proved"},
{"property": "C48", "status": "proved", "theorems": ["c48_sort_map", "c48_sort_entries", "c48_sort_header", "c48_sort_summary"], "note": ""},
{"property": "C49", "status": "proved", "theorems": ["c49_filter_exact", "c49_no_filter", "c49_glob_language", "c49_plain_is_substring", "c49_written"], "note": "fnmatch of CPython modelled; classes, wildcards and plain text"},
{"property": "C50", "status": "proved", "theorems": ["c50_converse", "c50_table_read"], "note": "for every order of set iteration and every table that can be read from a map file"},
{"property": "C51", "status": "proved", "theorems": ["c51_report"], "note": "including sizes and uniqueness of symbols; maps with distinct keys, no --diff (main drops it)"},
{"property": "C52", "status": "partial", "theorems": ["c52_order_partial", "c52_order_refuted"], "note": "proved up to the order of the entries; the order itself depends on the hash seed (refuted)"},
{"property": "C53", "status": "partial", "theorems": ["c53_columns", "c53_width", "c53_archive_values", "c53_object_values_partial", "c53_symbol_values_partial"], "note": "layout and widths for all three tables; values equal the map's for archives always, for object files and symbols if ':'-joined full names are unique and without --unify (see C43, C44)"},
{"property": "C54", "status": "partial", "theorems": ["c54_accepts_partial", "c54_accepts_summary", "c54_one_column", "c54_by_number", "c54_by_title", "c54_refuses", "c54_message_refuted", "c54_first_title_refuted", "c54_empty_refuted"], "note": "acceptance is exact for tables with rows; refuted: message range, title of the first column, empty tables"},
{"property": "C55", "status": "partial", "theorems": ["c55_percent_order_partial", "c55_whole_percents_refuted", "c55_reports", "c55_summary_partial", "c55_percent_refuted"], "note": "exact for archives/files/symbols and for used/remain/total of the summary; percent column: in order up to whole percents (c55_percent_order_partial); refuted beyond (c55_percent_refuted; c55_whole_percents_refuted: 28.0 before 29.0 in descending order)"},
{"property": "C56", "status": "partial", "theorems": ["c56_read_back_partial", "c56_quotes_refuted"], "note": "read back for texts without double quotes, cells stripped of surrounding blanks; refuted for names with double quotes (C++ literal operators). rich markup in names is not modelled"},
{"property": "C57", "status": "partial", "theorems": ["c57_summary_partial", "c57_parts_refuted"], "note": "free bytes always; parts add up if shown names of sections are distinct, refuted otherwise"},
{"property": "C58", "status": "proved", "theorems": ["c58_graph"], "note": "lines before text formatting; characters that need quoting in DOT are not escaped by the code and not modelled"},
{"property": "C59", "status": "proved", "theorems": ["c59_uleb128", "c59_encodings"], "note": "All encodings, padded ones included, at any offset."},
{"property": "C60", "status": "partial", "theorems": ["c60_signed_refuted", "c60_signed_partial", "c60_read_partial", "c60_encodings_partial"], "note": "Refuted: the sign is taken from the byte before the number. Proved exactly when the value is right, what is read otherwise, and that the length is right."},
{"property": "C61", "status": "proved", "theorems": ["c61_unsigned", "c61_signed"], "note": "Every size, both byte orders."},
{"property": "C62", "status": "proved", "theorems": ["c62_headers", "c62_symbols", "c62_section_name", "c62_symbol_name", "c62_lookup"], "note": "Both classes and byte orders; names are UTF-8 strings. Header tables with entries of the standard size."},
{"property": "C63", "status": "partial", "theorems": ["c63_sizes_refuted", "c63_sizes_partial", "c63_unsupported_partial"], "note": "Refuted for DW_FORM_ref_sig8. Proved for every other supported form; unsupported forms raise Elf_Exception."},
{"property": "C64", "status": "proved", "theorems": ["c64_terminates", "c64_headers"], "note": "Reading of headers, symbols, units, abbreviations and entries ends for every content; the Python stack limit is not modelled."},
{"property": "C65", "status": "partial", "theorems": ["c65_entries_refuted", "c65_attributes_refuted", "c65_symbols_refuted", "c65_repeat_partial", "c65_symbols_partial"], "note": "Refuted for get_DIEs, get_attr_eval and symbols. Proved for repeating the same query without failures."},
{"property": "C66", "status": "proved", "theorems": ["c66_files", "c66_failing_report", "c66_success", "c66_no_output_file", "c66_directories", "c66_interrupted"], "note": "over all failure points; rendering and encoding are arbitrary functions"},
{"property": "C67", "status": "partial", "theorems": ["c67_atomic_refuted", "c67_prefix_partial"], "note": "refuted by a kill or OSError during the write; partial: previous content or a prefix of the new report, no other file changes"},
{"property": "C68", "status": "partial", "theorems": ["c68_conflicts", "c68_symbols_not_needed", "c68_symbols_loaded", "c68_tree_symbols_refuted", "c68_lto"], "note": "conflicts, symbols and --lto proved; refuted for the tree format, which shows symbols that are not loaded"},
{"property": "C69", "status": "partial", "theorems": ["c69_unify_refuted"], "note": "refuted: with --unify the report drops every archive that has a directory in its name"},
{"property": "C70", "status": "partial", "theorems": ["c70_remain_partial", "c70_remain_refuted"], "note": "proved if both projects know the size; refuted otherwise"},
{"property": "C71", "status": "proved", "theorems": ["c71_tree"], "note": "texts without colours"},
{"property": "C72", "status": "proved", "theorems": ["c72_read_back"], "note": "texts without colours; symbols recovered if no name contains a newline"},
{"property": "C73", "status": "partial", "theorems": ["c73_program_headers_refuted", "c73_program_headers_partial"], "note": "Refuted for 64-bit files, proved for 32-bit files."},
{"property": "C74", "status": "partial", "theorems": ["c74_errors_refuted", "c74_errors_partial", "c74_standard_partial"], "note": "Refuted: struct.error. Proved that these two are all errors and that struct.error needs entries of another size."},
{"property": "C75", "status": "partial", "theorems": ["c75_abbreviations_partial", "c75_constants_refuted"], "note": "Proved up to the sign of implicit constants; a negative one is read as positive (refuted)."},
{"property": "C76", "status": "partial", "theorems": ["c76_entries_partial", "c76_codes_refuted"], "note": "Proved for abbreviations numbered 1, 2, ... in order and the forms elf.py reads, values exact except for sdata, loclistx, rnglistx and negative implicit constants; other codes raise AssertionError or IndexError (refuted)."},
{"property": "C77", "status": "partial", "theorems": ["c77_units_partial", "c77_type_units_refuted"], "note": "Proved for versions 2 to 4 and compile and partial units of version 5; the header of a type or split unit is cut short (refuted)."},
{"property": "C78", "status": "partial", "theorems": ["c78_file_partial", "c78_symbols", "c78_partial_units_refuted"], "note": "Proved end to end for compile units with a name in form string, strp or line_strp and entries with plain addresses and locations; a function in a partial unit raises KeyError (refuted). The symbols themselves are proved without conditions."},
{"property": "C79", "status": "partial", "theorems": ["c79_addresses_partial", "c79_empty_location_refuted"], "note": "Proved for addresses and for locations that are an address or contain another operation first or second; an empty location raises Elf_Exception (refuted)."},
{"property": "C80", "status": "partial", "theorems": ["c80_names_partial", "c80_strx_refuted"], "note": "Proved for string, strp and line_strp; for strx the index is returned as a hexadecimal number (refuted)."},
{"property": "C81", "status": "proved", "theorems": ["c81_pristine"], "note": ""},
{"property": "C82", "status": "proved", "theorems": ["c82_region_sizes"], "note": ""},
{"property": "C83", "status": "proved", "theorems": ["c83_memory_types"], "note": "Grammar of sums of products of hexadecimal and decimal literals is independent of the model's tokenizer."},
{"property": "C84", "status": "partial", "theorems": ["c84_types_reachable_refuted", "c84_shipped_chips"], "note": "c84_types_reachable_refuted: Flash Data of the esp32c6 is never found by address. c84_shipped_chips proves the rest, and that a memory type is found for some address exactly if one of its windows is no window of an earlier one."},
{"property": "C85", "status": "proved", "theorems": ["c85_used_bytes", "c85_used_bytes_shipped"], "note": "c85_used_bytes_shipped discharges the condition on the windows for all shipped chips."},
{"property": "C86", "status": "proved", "theorems": ["c86_section_bytes"], "note": ""},
{"property": "C87", "status": "proved", "theorems": ["c87_same_files", "c87_undescribed", "c87_target_described", "c87_target_from_map", "c87_relative"], "note": ""},
{"property": "C88", "status": "proved", "theorems": ["c88_used_bytes", "c88_section_bytes"], "note": "For sections that are mapped by the chip description; the second part without DWARF and for sections that do not continue over a boundary with the same memory type."},
{"property": "C89", "status": "partial", "theorems": ["c89_owner_refuted", "c89_owner_partial", "c89_offered_partial", "c89_components"], "note": "False in general (c89_owner_refuted): directories are compared as strings. Proved when no component directory is the beginning of the name of another directory with sources."},
{"property": "C90", "status": "proved", "theorems": ["c90_json_summary"], "note": "whole command from files to the printed json2 value; no diff, no unify, LTO off; sections distinct by name, unbroken in their memory type"},
{"property": "C91", "status": "proved", "theorems": ["c91_json_archives", "c91_json_files"], "note": "whole command from files to the printed rows; no diff, no unify, no DWARF; for --files object names without colon"},
{"property": "C92", "status": "proved", "theorems": ["c92_table_summary"], "note": "whole command from files to the table; the text of the percent column is an arbitrary function of the model; order by percent excepted (C55)"},
{"property": "C93", "status": "partial", "theorems": ["c93_unreadable_map", "c93_not_a_map", "c93_get_raises", "c93_unknown_chip", "c93_bad_reference", "c93_bad_column", "c93_bad_elf", "c93_no_magic", "c93_uncaught_refuted"], "note": "Each kind of failure named in the statement is diagnosed (c93_unreadable_map, c93_not_a_map, c93_get_raises, c93_unknown_chip, c93_bad_reference, c93_bad_column), a rejected ELF file is ignored (c93_bad_elf, c93_no_magic). The last sentence is refuted (c93_uncaught_refuted): a description that is not an object raises AttributeError, an ELF file without a string table ValueError; neither is caught."},
{"property": "C94", "status": "proved", "theorems": ["c94_reported"], "note": "Runs without faults from outside; symbol reports (raw, --archive-details), dependency reports and DWARF are not covered here."},
{"property": "C95", "status": "partial", "theorems": ["c95_summary_table", "c95_total_refuted"], "note": "Proved for the whole command from files to table (c95_summary_table), alone and with --diff, for any sort options except the percent column. The difference of the total (and of the remaining) bytes is that to the reference only where the reference uses the memory type: c95_total_refuted shows a memory of the same size in both projects reported as added, since unused types are removed from the reference before the comparison. For a type of unknown size in the project it is not stated."},
{"property": "C96", "status": "proved", "theorems": ["c96_entries_json"], "note": "Whole command from files to entries. DWARF excluded; with --files object file names without ':' (C52 shows why)."},
{"property": "C97", "status": "proved", "theorems": ["c97_entries_table"], "note": "Whole command from files to table; patterns of --filter as fnmatch documents them (characters, *, ?, classes). DWARF excluded; with --files object file names without ':'."},
{"property": "C98", "status": "partial", "theorems": ["c98_difference", "c98_size", "c98_size_refuted", "c98_summary_table", "c98_entries_table", "c98_other_tables", "c98_tree", "c98_messages", "c98_as_it_is", "c98_names_refuted", "c98_markup_error_refuted"], "note": "Proved for names without an opening bracket: tables, CSV lines, trees and messages show the uncoloured text, and color_diff closes its tags. Refuted: color_size leaves tags open; names with brackets are shown wrongly or raise MarkupError."},
{"property": "C99", "status": "partial", "theorems": ["c99_json_text", "c99_dumps", "c99_ascii", "c99_names_refuted"], "note": "The dumped text reads back for all values and all names, and it has exactly the documented members. What is printed is that text if no name has an opening bracket; refuted for names with brackets (rich takes them for markup)."},
{"property": "C100", "status": "partial", "theorems": ["c100_dot_text", "c100_names_refuted"], "note": "Proved for names without brackets, quotation marks and backslashes; refuted for the others."},
{"property": "C101", "status": "proved", "theorems": ["c101_dependencies_json", "c101_dependencies_tree"], "note": "End to end for the command line program, run without debug information (--no-lto or none configured); --unify excluded. The raw format is for runs without --lto."},
{"property": "C102", "status": "proved", "theorems": ["c102_dependencies_table", "c102_dependencies_graph"], "note": "End to end, without --unify; table, text, CSV and DOT with --filter."},
{"property": "C103", "status": "proved", "theorems": ["c103_no_dependencies", "c103_dependencies", "c103_no_graph"], "note": "Runs without faults of the file system; without --archive-details and other than --format raw."},
{"property": "C104", "status": "proved", "theorems": ["c104_sections", "c104_nothing_asked"], "note": ""},
{"property": "C105", "status": "partial", "theorems": ["c105_symbols_partial", "c105_files_partial", "c105_unnamed_refuted", "c105_library_refuted"], "note": "for symbols whose types and bindings have names (else KeyError, refuted); from a library the method fails with NameError (refuted)"},
{"property": "C106", "status": "partial", "theorems": ["c106_info_partial", "c106_lists_refuted", "c106_unseparated_refuted"], "note": "for values that can be shown (rnglistx and loclistx end the listing with TypeError, refuted); long names run into the form (refuted)"},
{"property": "C107", "status": "proved", "theorems": ["c107_abbreviations", "c107_offsets"], "note": ""},
{"property": "C108", "status": "proved", "theorems": ["c108_names", "c108_distinct", "c108_symbols"], "note": ""},
{"property": "C109", "status": "proved", "theorems": ["c109_percent_column", "c109_unchanged", "c109_coloured"], "note": "Floats are those of the standard library (SpecFloat); error bounds of the three operations, rounding to hundredths and the text are proved. The texts are Python's for numbers below 10^13."},
{"property": "C110", "status": "proved", "theorems": ["c110_understood", "c110_nothing_else"], "note": "Sound (c110_understood) and complete (c110_nothing_else) with respect to a grammar of command lines. click itself is modelled from its documentation."},
{"property": "C111", "status": "proved", "theorems": ["c111_order", "c111_files", "c111_refused"], "note": "Order (c111_order), files (c111_files), refused lines (c111_refused), for every oracle of faults."},
{"property": "C112", "status": "proved", "theorems": ["c112_symbol_bytes", "c112_symbols_inside"], "note": "without debugging information; input sections apart and names distinct per object file and section, as C18 is refuted"},
{"property": "C113", "status": "proved", "theorems": ["c113_symbols_json"], "note": ""},
{"property": "C114", "status": "proved", "theorems": ["c114_symbols_table"], "note": ""},
{"property": "C115", "status": "proved", "theorems": ["c115_reported", "c115_not_found", "c115_misfit"], "note": ""},
{"property": "C116", "status": "partial", "theorems": ["c116_empty", "c116_diagnosed_refuted"], "note": "such projects end with IndexError: proved (c116_empty); the claim is refuted (c116_diagnosed_refuted)"},
{"property": "C117", "status": "proved", "theorems": ["c117_lines", "c117_written"], "note": ""},
{"property": "C118", "status": "proved", "theorems": ["c118_numbers", "c118_refused", "c118_one"], "note": "for words of characters below 256 without surrounding white space; Python's int also takes other digits of Unicode"},
{"property": "C119", "status": "proved", "theorems": ["c119_entries", "c119_symbols", "c119_summary"], "note": "for all consoles that satisfy console_shows and encodings that keep ASCII; lines longer than 10000 characters, which rich wraps, are excluded"},
{"property": "C120", "status": "partial", "theorems": ["c120_opened_refuted", "c120_opened_partial", "c120_length_partial"], "note": "refuted: a file that is just an ELF header (52 bytes) is refused, because the header is read with the sizes of the machine's C types; proved: files with a header table behind the header are opened, and exactly those of 76 bytes or more"},
{"property": "C121", "status": "proved", "theorems": ["c121_raw"], "note": "end to end, alone or with a reference, sizes and differences, symbols included"},
{"property": "C122", "status": "proved", "theorems": ["c122_tree"], "note": "end to end, alone or with a reference"},
{"property": "C123", "status": "partial", "theorems": ["c123_raw_partial", "c123_tree_partial", "c123_raw_refuted", "c123_tree_refuted"], "note": "refuted: an archive whose input section begins where the section is cut at the border of two memory types is listed with 0 bytes below the first; proved for sections that lie in one memory type"},
{"property": "C124", "status": "proved", "theorems": ["c124_summary_table", "c124_archives_json", "c124_archives_table"], "note": "summary and report on archives, as JSON, table, text and CSV"},
{"property": "C125", "status": "proved", "theorems": ["c125_json_summary"], "note": "with and without --unify, with and without a reference"},
{"property": "C126", "status": "partial", "theorems": ["c126_differences_partial", "c126_differences_refuted"], "note": "for the report on archives; the summary prints the same whatever the reference has"},
{"property": "C127", "status": "proved", "theorems": ["c127_percentages"], "note": "percent cells of a project's summary, alone or with a reference, with and without --unify; sections and regions below 32 gigabytes"},
{"property": "C128", "status": "proved", "theorems": ["c128_same_place", "c128_some_place", "c128_path", "c128_components", "c128_outside"], "note": "any spelling of the input path and of the paths in the description; file systems without symbolic links"},
{"property": "C129", "status": "proved", "theorems": ["c129_archive_bytes", "c129_files"], "note": "from the files of a project; conditions on overlapping symbols and directories in the statement, see C31 and C89 for what happens without them"},
{"property": "C130", "status": "proved", "theorems": ["c130_opened", "c130_symbols", "c130_no_symbols", "c130_section_name", "c130_symbol_name"], "note": "from the bytes of the file; name decoding as UTF-8 is part of 'plain'"},
{"property": "C131", "status": "proved", "theorems": ["c131_messages", "c131_killed"], "note": "texts of the messages are not modelled"},
{"property": "C132", "status": "proved", "theorems": ["c132_no_target", "c132_no_target_command", "c132_components", "c132_no_report"], "note": "the first missing thing counts; texts of tracebacks are not modelled"},
{"property": "C133", "status": "partial", "theorems": ["c133_memory", "c133_command", "c133_two_lines_refuted"], "note": "proved for the three forms that leave no trace (c133_memory, c133_command); the full claim, with the form that has address and size on a second line, is refuted: the variable size is left over (c133_two_lines_refuted, see C07)"},
{"property": "C134", "status": "proved", "theorems": ["c134_runs", "c134_table", "c134_file", "c134_entries"], "note": "all command lines with a meaning; the usual ones in full, without hypotheses on the outcome"},
{"property": "C135", "status": "proved", "theorems": ["c135_shown", "c135_error", "c135_names"], "note": "of the model of rich's markup (Markup.v)"},
{"property": "C136", "status": "partial", "theorems": ["c136_same", "c136_terminal", "c136_quiet", "c136_quiet_refuted"], "note": "c136_same and c136_terminal prove it but for --quiet with --output-file, where it is false: c136_quiet, c136_quiet_refuted."},
{"property": "C137", "status": "partial", "theorems": ["c137_same", "c137_plain", "c137_summary_partial", "c137_summary_refuted", "c137_unreadable_refuted", "c137_tree_refuted"], "note": "same options as the setting and the equality of --lto and --no-lto in plain reports are proved; the summary with --show-unused only, the full claim is refuted"},
{"property": "C138", "status": "proved", "theorems": ["c138_summary", "c138_entries", "c138_symbols"], "note": "for names without opening brackets and double quotes (C56 and C98 refute it for others); the console is any that shows markup and does not wrap lines that fit"},
{"property": "C139", "status": "partial", "theorems": ["c139_reports_add_partial", "c139_moved_refuted"], "note": "totals always, every figure when nothing is left out; the rest is refuted (c139_moved_refuted)"},
{"property": "C140", "status": "proved", "theorems": ["c140_turned", "c140_steps"], "note": "whole runs with JSON reports on archives or object files"},
{"property": "C141", "status": "partial", "theorems": ["c141_symbols_add_partial", "c141_padding_refuted"], "note": "proved for archives whose input sections are made up of the symbols in them; refuted in general: bytes of an input section behind or between its symbols are counted for the archive but for no symbol"},
{"property": "C142", "status": "proved", "theorems": ["c142_same", "c142_compared"], "note": "Order of rows and of the sections within a row may differ, so rows are compared as sets with all their figures."},
{"property": "C143", "status": "proved", "theorems": ["c143_entries", "c143_symbols"], "note": "For CSV the table is what is read back of the lines, see prints."},
{"property": "C144", "status": "partial", "theorems": ["c144_json_partial", "c144_table_partial", "c144_refuted"], "note": "Rows, totals, memory types, columns and order are proved for all projects; figures of sections for names whose object files are in archives with one base name. The rest is false: c144_refuted."},
{"property": "C145", "status": "proved", "theorems": ["c145_json", "c145_table", "c145_symbols", "c145_summary"], "note": "with --use-dwarf the summary does not read the debugging information at all: C95"},
{"property": "C146", "status": "proved", "theorems": ["c146_entries", "c146_symbols", "c146_symbols_turned", "c146_symbols_steps"], "note": "for archives, object files and symbols; the laws of C140 (turned round, in steps) now also hold for symbols"},
{"property": "C147", "status": "partial", "theorems": ["c147_json_partial", "c147_table_partial", "c147_refuted"], "note": "Rows, totals, memory types, columns and order are proved for all projects; figures of sections for names whose symbols are in object files with one base name. The rest is false: c147_refuted."},
{"property": "C148", "status": "proved", "theorems": ["c148_archives", "c148_files", "c148_symbols"], "note": "For the three reports; figures of sections are not part of the claim (C144, C147 refute them for object files and symbols)."},
{"property": "C149", "status": "partial", "theorems": ["c149_archives", "c149_archives_turned", "c149_archives_steps", "c149_files_partial", "c149_files_turned_partial", "c149_files_steps_partial", "c149_symbols_partial", "c149_symbols_turned_partial", "c149_symbols_steps_partial", "c149_refuted"], "note": "Archives: proved in full. Object files and symbols: proved for the row set, the totals, the figures of memory types, and the figures of sections for names that are in archives (object files) with one base name. For the other figures of sections the claim is false: c149_refuted."},
{"property": "C150", "status": "partial", "theorems": ["c150_summary", "c150_summary_turned", "c150_summary_steps_partial", "c150_refuted"], "note": "c150_summary and c150_summary_turned in full; the differences in steps for memory types always and for sections with --show-unchanged; without it they do not add up (c150_refuted). Sizes of memory types: C154."},
{"property": "C151", "status": "proved", "theorems": ["c151_summary"], "note": "All summaries in table, text and CSV format, with and without a reference."},
{"property": "C152", "status": "proved", "theorems": ["c152_whole", "c152_packed"], "note": "For JSON reports on archives or object files against the summary as table, text or CSV, without --unify. That input sections do not overlap is a hypothesis."},
{"property": "C153", "status": "proved", "theorems": ["c153_summary"], "note": "Summary as table, text or CSV against JSON. Sizes of memory types: C154. The size of the image is not in the table."},
{"property": "C154", "status": "proved", "theorems": ["c154_compared", "c154_formats", "c154_determined"], "note": "Sizes are compared where the table shows them. Windows of the shipped chips are the same or separate (C84)."},
{"property": "C155", "status": "proved", "theorems": ["c155_turned", "c155_steps"], "note": "For memory types with a row in each of the comparisons."},
{"property": "C156", "status": "partial", "theorems": ["c156_json_partial", "c156_refuted"], "note": "memory types, sizes and names always, bytes of sections with --unify or --no-abbrev; refuted for short names: a section that only the reference has takes the place of one of the project with the same short name (c156_refuted)"},
{"property": "C157", "status": "proved", "theorems": ["c157_table", "c157_json"], "note": "Table, text, CSV and JSON summaries, with or without a reference, with and without --show-unused; used bytes, sections, sizes of types in which the project has bytes. The size of a type that only the reference uses is left out (it counts as 0 without --show-unused). JSON bytes of sections: with --unify or long names, see C156."},
{"property": "C158", "status": "proved", "theorems": ["c158_entries", "c158_symbols", "c158_merged"], "note": "JSON reports on archives (also with --unify), object files and symbols, with or without a reference, with and without --show-unused and --use-flash-size; without DWARF. Names of object files and symbols without ':', as in C96 and C113."},
{"property": "C159", "status": "proved", "theorems": ["c159_entries", "c159_symbols", "c159_merged"], "note": "JSON reports on archives (also with --unify), object files and symbols, with or without a reference, two runs with any options of order, filter and names; without DWARF. Names of object files and symbols without ':', as in C96 and C113."},
{"property": "C160", "status": "partial", "theorems": ["c160_json_partial", "c160_refuted"], "note": "memory types, their bytes and sizes and names of sections always, bytes of sections with --unify or --no-abbrev; refuted for short names: --sort-reverse decides which of the sections with the same short name is shown (c160_refuted)"},
{"property": "C161", "status": "proved", "theorems": ["c161_summary"], "note": "Table, text and CSV summaries, with or without a reference and --unify, two runs with any options of order, filter and names."},
{"property": "C162", "status": "proved", "theorems": ["c162_entries", "c162_symbols", "c162_merged", "c162_summary"], "note": "Archives, object files and symbols without --unify, archives with --unify, and the summary with and without --unify. Object files and symbols with --unify are outside: their section figures are refuted in C144 and C149."}
]}
