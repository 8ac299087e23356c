{
"C01": [
"proved",
"Every printed map (format in SpecMap.v): names, addresses, archives, objects exact, sizes by an explicit rule; regular maps are always accepted and read exactly, padding included."
],
"C02": [
"proved",
""
],
"C03": [
"partial",
"Proved for archive and direct object paths without an opening parenthesis; refuted for others (finding)."
],
"C04": [
"proved",
""
],
"C05": [
"proved",
""
],
"C06": [
"partial",
"All but the first input section of an output section; the first is not checked by the code: refuted (finding)."
],
"C07": [
"partial",
"Proved when an input section without size is followed by at most one *fill* and no data line, and the first has a size; refuted otherwise: only the last fill line is charged (finding)."
],
"C08": [
"partial",
"Only MapFileException, ValueError, TypeError, NameError, IndexError can be raised; each of the others is reachable (findings), NameError even from a well-formed map."
],
"C09": [
"proved",
""
],
"C10": [
"proved",
""
],
"C100": [
"partial",
"Proved for names without brackets, quotation marks and backslashes; refuted for the others."
],
"C101": [
"proved",
"End to end for the command line program, run without debug information (--no-lto or none configured); --unify excluded. The raw format is for runs without --lto."
],
"C102": [
"proved",
"End to end, without --unify; table, text, CSV and DOT with --filter."
],
"C103": [
"proved",
"Runs without faults of the file system; without --archive-details and other than --format raw."
],
"C104": [
"proved",
""
],
"C105": [
"partial",
"for symbols whose types and bindings have names (else KeyError, refuted); from a library the method fails with NameError (refuted)"
],
"C106": [
"partial",
"for values that can be shown (rnglistx and loclistx end the listing with TypeError, refuted); long names run into the form (refuted)"
],
"C107": [
"proved",
""
],
"C108": [
"proved",
""
],
"C109": [
"proved",
"Floats are those of the standard library (SpecFloat); error bounds of the three operations, rounding to hundredths and the text are proved. The texts are Python's for numbers below 10^13."
],
"C11": [
"proved",
""
],
"C110": [
"proved",
"Sound (c110_understood) and complete (c110_nothing_else) with respect to a grammar of command lines. click itself is modelled from its documentation."
],
"C111": [
"proved",
"Order (c111_order), files (c111_files), refused lines (c111_refused), for every oracle of faults."
],
"C112": [
"proved",
"without debugging information; input sections apart and names distinct per object file and section, as C18 is refuted"
],
"C113": [
"proved",
""
],
"C114": [
"proved",
""
],
"C115": [
"proved",
""
],
"C116": [
"partial",
"such projects end with IndexError: proved (c116_empty); the claim is refuted (c116_diagnosed_refuted)"
],
"C117": [
"proved",
""
],
"C118": [
"proved",
"for words of characters below 256 without surrounding white space; Python's int also takes other digits of Unicode"
],
"C119": [
"proved",
"for all consoles that satisfy console_shows and encodings that keep ASCII; lines longer than 10000 characters, which rich wraps, are excluded"
],
"C12": [
"proved",
"region lengths assumed non-negative (they are parsed from hexadecimal numbers)"
],
"C120": [
"partial",
"refuted: a file that is just an ELF header (52 bytes) is refused, because the header is read with the sizes of the machine's C types; proved: files with a header table behind the header are opened, and exactly those of 76 bytes or more"
],
"C121": [
"proved",
"end to end, alone or with a reference, sizes and differences, symbols included"
],
"C122": [
"proved",
"end to end, alone or with a reference"
],
"C123": [
"partial",
"refuted: an archive whose input section begins where the section is cut at the border of two memory types is listed with 0 bytes below the first; proved for sections that lie in one memory type"
],
"C124": [
"proved",
"summary and report on archives, as JSON, table, text and CSV"
],
"C125": [
"proved",
"with and without --unify, with and without a reference"
],
"C126": [
"partial",
"for the report on archives; the summary prints the same whatever the reference has"
],
"C127": [
"proved",
"percent cells of a project's summary, alone or with a reference, with and without --unify; sections and regions below 32 gigabytes"
],
"C128": [
"proved",
"any spelling of the input path and of the paths in the description; file systems without symbolic links"
],
"C129": [
"proved",
"from the files of a project; conditions on overlapping symbols and directories in the statement, see C31 and C89 for what happens without them"
],
"C13": [
"partial",
"refuted: endless loop for a region that reaches an address without memory type and ends where an earlier region part ends; exact termination condition proved"
],
"C130": [
"proved",
"from the bytes of the file; name decoding as UTF-8 is part of 'plain'"
],
"C131": [
"proved",
"texts of the messages are not modelled"
],
"C132": [
"proved",
"the first missing thing counts; texts of tracebacks are not modelled"
],
"C133": [
"partial",
"proved for the three forms that leave no trace (c133_memory, c133_command); the full claim, with the form that has address and size on a second line, is refuted: the variable size is left over (c133_two_lines_refuted, see C07)"
],
"C134": [
"proved",
"all command lines with a meaning; the usual ones in full, without hypotheses on the outcome"
],
"C135": [
"proved",
"of the model of rich's markup (Markup.v)"
],
"C136": [
"partial",
"c136_same and c136_terminal prove it but for --quiet with --output-file, where it is false: c136_quiet, c136_quiet_refuted."
],
"C137": [
"partial",
"same options as the setting and the equality of --lto and --no-lto in plain reports are proved; the summary with --show-unused only, the full claim is refuted"
],
"C138": [
"proved",
"for names without opening brackets and double quotes (C56 and C98 refute it for others); the console is any that shows markup and does not wrap lines that fit"
],
"C139": [
"partial",
"totals always, every figure when nothing is left out; the rest is refuted (c139_moved_refuted)"
],
"C14": [
"proved",
""
],
"C140": [
"proved",
"whole runs with JSON reports on archives or object files"
],
"C141": [
"partial",
"proved for archives whose input sections are made up of the symbols in them; refuted in general: bytes of an input section behind or between its symbols are counted for the archive but for no symbol"
],
"C142": [
"proved",
"Order of rows and of the sections within a row may differ, so rows are compared as sets with all their figures."
],
"C143": [
"proved",
"For CSV the table is what is read back of the lines, see prints."
],
"C144": [
"partial",
"Rows, totals, memory types, columns and order are proved for all projects; figures of sections for names whose object files are in archives with one base name. The rest is false: c144_refuted."
],
"C145": [
"proved",
"with --use-dwarf the summary does not read the debugging information at all: C95"
],
"C146": [
"proved",
"for archives, object files and symbols; the laws of C140 (turned round, in steps) now also hold for symbols"
],
"C147": [
"partial",
"Rows, totals, memory types, columns and order are proved for all projects; figures of sections for names whose symbols are in object files with one base name. The rest is false: c147_refuted."
],
"C148": [
"proved",
"For the three reports; figures of sections are not part of the claim (C144, C147 refute them for object files and symbols)."
],
"C149": [
"partial",
"Archives: proved in full. Object files and symbols: proved for the row set, the totals, the figures of memory types, and the figures of sections for names that are in archives (object files) with one base name. For the other figures of sections the claim is false: c149_refuted."
],
"C15": [
"proved",
""
],
"C150": [
"partial",
"c150_summary and c150_summary_turned in full; the differences in steps for memory types always and for sections with --show-unchanged; without it they do not add up (c150_refuted). Sizes of memory types: C154."
],
"C151": [
"proved",
"All summaries in table, text and CSV format, with and without a reference."
],
"C152": [
"proved",
"For JSON reports on archives or object files against the summary as table, text or CSV, without --unify. That input sections do not overlap is a hypothesis."
],
"C153": [
"proved",
"Summary as table, text or CSV against JSON. Sizes of memory types: C154. The size of the image is not in the table."
],
"C154": [
"proved",
"Sizes are compared where the table shows them. Windows of the shipped chips are the same or separate (C84)."
],
"C155": [
"proved",
"For memory types with a row in each of the comparisons."
],
"C156": [
"partial",
"memory types, sizes and names always, bytes of sections with --unify or --no-abbrev; refuted for short names: a section that only the reference has takes the place of one of the project with the same short name (c156_refuted)"
],
"C157": [
"proved",
"Table, text, CSV and JSON summaries, with or without a reference, with and without --show-unused; used bytes, sections, sizes of types in which the project has bytes. The size of a type that only the reference uses is left out (it counts as 0 without --show-unused). JSON bytes of sections: with --unify or long names, see C156."
],
"C158": [
"proved",
"JSON reports on archives (also with --unify), object files and symbols, with or without a reference, with and without --show-unused and --use-flash-size; without DWARF. Names of object files and symbols without ':', as in C96 and C113."
],
"C159": [
"proved",
"JSON reports on archives (also with --unify), object files and symbols, with or without a reference, two runs with any options of order, filter and names; without DWARF. Names of object files and symbols without ':', as in C96 and C113."
],
"C16": [
"proved",
""
],
"C160": [
"partial",
"memory types, their bytes and sizes and names of sections always, bytes of sections with --unify or --no-abbrev; refuted for short names: --sort-reverse decides which of the sections with the same short name is shown (c160_refuted)"
],
"C161": [
"proved",
"Table, text and CSV summaries, with or without a reference and --unify, two runs with any options of order, filter and names."
],
"C162": [
"proved",
"Archives, object files and symbols without --unify, archives with --unify, and the summary with and without --unify. Object files and symbols with --unify are outside: their section figures are refuted in C144 and C149."
],
"C17": [
"proved",
""
],
"C18": [
"partial",
"refuted: symbols of one object file with equal names overwrite each other; true for distinct names, and the last size is shown otherwise"
],
"C19": [
"proved",
"region parts carry a type of the chip's table (C12)"
],
"C20": [
"partial",
"refuted: parts of a section in two regions of the same memory type overwrite each other while 'used' accumulates; proved for distinct reported names"
],
"C21": [
"proved",
""
],
"C22": [
"proved",
""
],
"C23": [
"partial",
"refuted: overflow of the region with the highest address is lost; a part below all regions is reported as overflow of the lowest; proved for gaps between regions"
],
"C24": [
"proved",
""
],
"C25": [
"proved",
""
],
"C26": [
"partial",
"refuted: of two allocated ELF sections with one name the second replaces the first; proved for distinct names, as an upper bound in general, and by name without ELF headers"
],
"C27": [
"partial",
"refuted: get() sets elf = None before using it (memorymap.py:198), so the argument never has an effect; the independence itself is proved"
],
"C28": [
"partial",
"refuted for a symbol that starts before an input section and reaches into it (it is skipped); proved for symbols by start address"
],
"C29": [
"partial",
"refuted: input sections after the one of the last symbol list nothing; proved up to the last symbol and without ELF"
],
"C30": [
"proved",
""
],
"C31": [
"partial",
"refuted: the rest of an '(exe)' input section is dropped if no symbol starts behind it, and an empty one overwrites the padding before it; proved if a symbol follows and none crosses the end"
],
"C32": [
"partial",
"refuted: DWARF expansion stays in the MapFile object; proved for all histories without DWARF"
],
"C33": [
"partial",
"used bytes proved in full; per archive refuted (parts of one name replace each other), proved for distinct names without DWARF"
],
"C34": [
"proved",
"keys are assumed unique on every level (Python dict); uniqueness is proved of the result"
],
"C35": [
"proved",
""
],
"C36": [
"proved",
""
],
"C37": [
"partial",
"refuted: raw output shows minus the flash size as size_diff; partial: every other value in every format (raw, json, table, csv, tree) and every message shows no difference, at every successful run"
],
"C38": [
"proved",
""
],
"C39": [
"proved",
"commutation assumes that common paths have the same abbreviated name, which holds of maps built by get()"
],
"C40": [
"partial",
"refuted: unify() adds the key None to every symbol entry"
],
"C41": [
"proved",
""
],
"C42": [
"proved",
"rows of archives unchanged in a diff are left out, as stated"
],
"C43": [
"partial",
"refuted with --unify (two archives with equally named object files: section value is the last one, total is the sum); proved without --unify when 'archive:object' identifies the object file; totals proved always"
],
"C44": [
"partial",
"refuted: 'not found' for an archive without symbols, and section values with --unify; proved without --unify when names contain no ':'; totals and exact condition of the error proved always"
],
"C45": [
"partial",
"refuted: a memory type whose last section is removed stays listed with used = 0 and goes on the second application; exact effect proved, stable after two applications"
],
"C46": [
"proved",
""
],
"C47": [
"partial",
"refuted: changes that cancel inside a parent are hidden; exact set and order of the remaining entries proved"
],
"C48": [
"proved",
""
],
"C49": [
"proved",
"fnmatch of CPython modelled; classes, wildcards and plain text"
],
"C50": [
"proved",
"for every order of set iteration and every table that can be read from a map file"
],
"C51": [
"proved",
"including sizes and uniqueness of symbols; maps with distinct keys, no --diff (main drops it)"
],
"C52": [
"partial",
"proved up to the order of the entries; the order itself depends on the hash seed (refuted)"
],
"C53": [
"partial",
"layout and widths for all three tables; values equal the map's for archives always, for object files and symbols if ':'-joined full names are unique and without --unify (see C43, C44)"
],
"C54": [
"partial",
"acceptance is exact for tables with rows; refuted: message range, title of the first column, empty tables"
],
"C55": [
"partial",
"exact for archives/files/symbols and for used/remain/total of the summary; percent column: in order up to whole percents (c55_percent_order_partial); refuted beyond (c55_percent_refuted; c55_whole_percents_refuted: 28.0 before 29.0 in descending order)"
],
"C56": [
"partial",
"read back for texts without double quotes, cells stripped of surrounding blanks; refuted for names with double quotes (C++ literal operators). rich markup in names is not modelled"
],
"C57": [
"partial",
"free bytes always; parts add up if shown names of sections are distinct, refuted otherwise"
],
"C58": [
"proved",
"lines before text formatting; characters that need quoting in DOT are not escaped by the code and not modelled"
],
"C59": [
"proved",
"All encodings, padded ones included, at any offset."
],
"C60": [
"partial",
"Refuted: the sign is taken from the byte before the number. Proved exactly when the value is right, what is read otherwise, and that the length is right."
],
"C61": [
"proved",
"Every size, both byte orders."
],
"C62": [
"proved",
"Both classes and byte orders; names are UTF-8 strings. Header tables with entries of the standard size."
],
"C63": [
"partial",
"Refuted for DW_FORM_ref_sig8. Proved for every other supported form; unsupported forms raise Elf_Exception."
],
"C64": [
"proved",
"Reading of headers, symbols, units, abbreviations and entries ends for every content; the Python stack limit is not modelled."
],
"C65": [
"partial",
"Refuted for get_DIEs, get_attr_eval and symbols. Proved for repeating the same query without failures."
],
"C66": [
"proved",
"over all failure points; rendering and encoding are arbitrary functions"
],
"C67": [
"partial",
"refuted by a kill or OSError during the write; partial: previous content or a prefix of the new report, no other file changes"
],
"C68": [
"partial",
"conflicts, symbols and --lto proved; refuted for the tree format, which shows symbols that are not loaded"
],
"C69": [
"partial",
"refuted: with --unify the report drops every archive that has a directory in its name"
],
"C70": [
"partial",
"proved if both projects know the size; refuted otherwise"
],
"C71": [
"proved",
"texts without colours"
],
"C72": [
"proved",
"texts without colours; symbols recovered if no name contains a newline"
],
"C73": [
"partial",
"Refuted for 64-bit files, proved for 32-bit files."
],
"C74": [
"partial",
"Refuted: struct.error. Proved that these two are all errors and that struct.error needs entries of another size."
],
"C75": [
"partial",
"Proved up to the sign of implicit constants; a negative one is read as positive (refuted)."
],
"C76": [
"partial",
"Proved for abbreviations numbered 1, 2, ... in order and the forms elf.py reads, values exact except for sdata, loclistx, rnglistx and negative implicit constants; other codes raise AssertionError or IndexError (refuted)."
],
"C77": [
"partial",
"Proved for versions 2 to 4 and compile and partial units of version 5; the header of a type or split unit is cut short (refuted)."
],
"C78": [
"partial",
"Proved end to end for compile units with a name in form string, strp or line_strp and entries with plain addresses and locations; a function in a partial unit raises KeyError (refuted). The symbols themselves are proved without conditions."
],
"C79": [
"partial",
"Proved for addresses and for locations that are an address or contain another operation first or second; an empty location raises Elf_Exception (refuted)."
],
"C80": [
"partial",
"Proved for string, strp and line_strp; for strx the index is returned as a hexadecimal number (refuted)."
],
"C81": [
"proved",
""
],
"C82": [
"proved",
""
],
"C83": [
"proved",
"Grammar of sums of products of hexadecimal and decimal literals is independent of the model's tokenizer."
],
"C84": [
"partial",
"c84_types_reachable_refuted: Flash Data of the esp32c6 is never found by address. c84_shipped_chips proves the rest, and that a memory type is found for some address exactly if one of its windows is no window of an earlier one."
],
"C85": [
"proved",
"c85_used_bytes_shipped discharges the condition on the windows for all shipped chips."
],
"C86": [
"proved",
""
],
"C87": [
"proved",
""
],
"C88": [
"proved",
"For sections that are mapped by the chip description; the second part without DWARF and for sections that do not continue over a boundary with the same memory type."
],
"C89": [
"partial",
"False in general (c89_owner_refuted): directories are compared as strings. Proved when no component directory is the beginning of the name of another directory with sources."
],
"C90": [
"proved",
"whole command from files to the printed json2 value; no diff, no unify, LTO off; sections distinct by name, unbroken in their memory type"
],
"C91": [
"proved",
"whole command from files to the printed rows; no diff, no unify, no DWARF; for --files object names without colon"
],
"C92": [
"proved",
"whole command from files to the table; the text of the percent column is an arbitrary function of the model; order by percent excepted (C55)"
],
"C93": [
"partial",
"Each kind of failure named in the statement is diagnosed (c93_unreadable_map, c93_not_a_map, c93_get_raises, c93_unknown_chip, c93_bad_reference, c93_bad_column), a rejected ELF file is ignored (c93_bad_elf, c93_no_magic). The last sentence is refuted (c93_uncaught_refuted): a description that is not an object raises AttributeError, an ELF file without a string table ValueError; neither is caught."
],
"C94": [
"proved",
"Runs without faults from outside; symbol reports (raw, --archive-details), dependency reports and DWARF are not covered here."
],
"C95": [
"partial",
"Proved for the whole command from files to table (c95_summary_table), alone and with --diff, for any sort options except the percent column. The difference of the total (and of the remaining) bytes is that to the reference only where the reference uses the memory type: c95_total_refuted shows a memory of the same size in both projects reported as added, since unused types are removed from the reference before the comparison. For a type of unknown size in the project it is not stated."
],
"C96": [
"proved",
"Whole command from files to entries. DWARF excluded; with --files object file names without ':' (C52 shows why)."
],
"C97": [
"proved",
"Whole command from files to table; patterns of --filter as fnmatch documents them (characters, *, ?, classes). DWARF excluded; with --files object file names without ':'."
],
"C98": [
"partial",
"Proved for names without an opening bracket: tables, CSV lines, trees and messages show the uncoloured text, and color_diff closes its tags. Refuted: color_size leaves tags open; names with brackets are shown wrongly or raise MarkupError."
],
"C99": [
"partial",
"The dumped text reads back for all values and all names, and it has exactly the documented members. What is printed is that text if no name has an opening bracket; refuted for names with brackets (rich takes them for markup)."
]
}