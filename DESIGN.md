# Formal model of esp-idf-size: design

The subject is `/repo/esp_idf_size` (Python).  The model is written in Rocq/Coq
8.16.1 with the standard library only, in `rocq/theories`.  Nothing of the
project is executed; the Python text is read and re-expressed function by
function.

## 1. Conventions of the model

* **Exceptions are values.**  A Python function that may raise is a Coq function
  returning `res A := Ok a | Err e` where `e : exn` names the exception class
  (`MapFileException`, `MemMapException`, `ValueError`, `IndexError`, ...).
  Messages are not modelled.
* **Dictionaries** are insertion-ordered association lists (`dict K V`), with
  `dget`, `dset` (overwrite in place, else append) and `dmem`.  Python keeps
  keys unique; this is the predicate `wf_dict` (hypothesis on inputs, proved of
  outputs).
* **Integers** are `Z` (Python integers are unbounded).  Percentages are IEEE
  binary64 numbers as defined by `SpecFloat` of the standard library.
* **Strings** are lists of `ascii` (code points 0..255).  Python's whitespace and
  line break sets are modelled for that range.
* **Mutation** is modelled by returning the new value.  Where aliasing or call
  history is the point of the property (caches, repeated `get()`), the state is
  an explicit argument and result.
* **Loops** are structural recursion or folds.  The loops with no structural
  bound (`while True` in region splitting, the work list of section splitting,
  LEB128, DIE recursion) take fuel and return an explicit `OutOfFuel` error;
  the theorems state for how much fuel it cannot occur, or that it always does.
* **Trees.**  A memory map is memory type -> section -> archive -> object file ->
  symbol.  The three middle levels have the same shape and are instances of one
  parametric record, so that a lemma proved for a level and its children applies
  to all of them.

## 2. Specification style

Specifications are separate small definitions (`Spec*.v`): sums over the list of
all (path, value) entries of a tree, lookup by path, tilings of intervals,
renderers that print a link map / ELF file / LEB128 number.  They do not call the
model's helpers.  Property theorems are in `Prop*.v`, each closed by `exact` of
a lemma, with `Print Assumptions` below and an `Example` showing a concrete,
non-trivial instance of the hypotheses.

Where the faithful model violates the property, the file contains a theorem
`..._refuted` exhibiting a concrete input (evaluated by the kernel), and the
strongest true variant (suffix `_partial` when it is weaker than the property).

## 3. Plan per property

| id | modelled | proof method |
|----|----------|--------------|
| C01 | `_get_sections` line state machine over strings incl. `strip`, `split(maxsplit)`, `int(x,0)` | round trip with an independent printer; induction over sections/lines |
| C02 | `_get_memory_regions` | round trip, induction over rows |
| C03 | `_get_archive_object_file` | round trip; refutation for paths containing `(` |
| C04 | `_get_cross_reference_table` | round trip, induction |
| C05 | `add_input_section` inside `_get_sections` | invariant of the state machine |
| C06 | same | refutation (first input section unchecked); invariant for the others |
| C07 | same incl. the captured variable `size` | refutation (stale/unbound captured variable); conservation under the condition that excludes it |
| C08 | whole constructor | refutation (`ValueError`), classification of the possible exceptions |
| C09 | `_validate_sections` | if and only if with a declarative contiguity predicate |
| C10 | `_get_sections` | monotonicity of the state machine in its input |
| C11 | `_get_target`, hand-written matchers for the three regular expressions | characterisation by first matching line |
| C12 | `_split_memory_regions` with fuel | invariant: tiling |
| C13 | same | refutation: input for which no fuel suffices; sufficient condition with explicit bound |
| C14-C16 | `_split_map_sections` with fuel | explicit fuel bound; tiling; sums per archive/object/symbol |
| C17, C18 | `_add_archives_to_sections` | sums by induction; refutation of C18 (equal symbol names), true under distinct names |
| C19-C24 | `_get_mem_type_map` | sums, first-match characterisation; refutations for C20, C23 |
| C25, C26 | `_filter_map_sections`, `_get_elf_sections_headers`, `_get_image_size` | characterisation |
| C27 | `get` | `get` is independent of the argument (refutation) |
| C28, C29 | `_add_symbols_to_sections` | invariant of the merge loop; refutation of C29 |
| C30, C32, C33 | `get` pipeline after parsing | erasure, idempotence of the in-place changes, conservation |
| C31 | `_expand_input_sections` main loop | refutation (dropped sections), conservation under a condition |
| C34-C36 | `diff` | pointwise lookup characterisation, sums |
| C37 | `_run` | refutation for the sizes of flash types in the raw format; everything else in every format is proved |
| C38-C40 | `unify` | sums over entries with equal abbreviated path; C40 refuted |
| C41 | `walk` | equality with an independent enumeration |
| C42-C44 | summaries | sums; refutations with `--unify` and for symbol-less archives |
| C45-C48 | `remove_unused`, `ignore_flash_size`, `trim`, `sort` | characterisations, stable sort proofs; refutations |
| C49 | `get_summary_filtered`, `fnmatch` | characterisation; matcher for the glob language |
| C50-C52 | `deps.py` with explicit set iteration order | relations as sets of triples; order refutation |
| C53-C58 | `format_*.py` up to the text rendering of the `rich` package | structural |
| C59-C65 | `elf.py` readers | round trips; refutations for SLEB128, `ref_sig8`, caches |
| C75-C80 | `elf.py` debugging information | round trips with encodings of the DWARF standard; `add_cus_to_symbols` end to end from the bytes of the file |
| C66-C68 | `_run` with explicit failure points and a file system | case analysis over all failure points |
| C81, C82 | `get` | shape of the result through the whole pipeline |
| C83, C84 | `_get_memory_types`, the yaml files | round trip with an independent grammar of sums; kernel evaluation of a proved check; refutation (types with the windows of an earlier type) |
| C85, C86 | `get` with the chip descriptions | counting of single bytes against the address windows |
| C87 | finding and loading of the files of a project | the footprint as a relation between two file systems |
| C88 | all of it, from the text of the map file and the bytes of the ELF file | composition of C01/C02, C62 and C85/C86 |
| C89 | `_expand_input_sections` and the components | origin of every added input section; refutation (string prefixes taken for directories) |
| C90-C92 | the whole command `run_files` on a linked project | composition of C88 with the reports; JSON summary, archives and files, summary table |
| C93, C94 | the whole command on unusable and on linked projects | each failure is diagnosed; a linked project is always reported |
| C95-C97 | the whole command with `--diff`, `--sort*`, `--filter`, table, text, CSV and JSON | bytes of both link maps as relations, independent of the tree of the code |
| C98-C100 | the texts with markup, JSON and DOT texts | a model of rich's markup; independent readers of JSON (RFC 8259) and DOT in `SpecText.v`; refutations (names with brackets) |
| C101-C103 | the whole command with `--archive-dependencies` | what uses what as a relation between cross reference table, symbol table and the bytes of the link map; order by first mention in the table |
| C104-C108 | the listings printed by `python -m esp_idf_size.elf` | a relation between the bytes of the file and the lines (`SpecDump.v`), built on the specifications of C60-C80; injectivity of the name tables by computation; refutations (KeyError, NameError, TypeError, names run together) |
| C109 | the percent column | rational numbers (`SpecPercent.v`): the shown number is a nearest number of hundredths of the exact percentage; error bounds of division, multiplication and subtraction of floats proved from `SpecFloat` |
| C110, C111 | the declared options and click's reading of a command line | soundness and completeness against a grammar of command lines (`SpecLine.v`); commuting options; case analysis over faults |
| C112 | the symbols of the memory map | the symbols of an input section as a function of address range and symbol table (`SpecSyms.v`); bytes per memory type as in C33/C40 |
| C113, C114 | the report on the symbols of an archive, end to end | an output section with the symbols of the symbol table in place of its input sections (`SpecSymbols.v`, `by_symbols`); rows and cells then as in C96, C97 |
| C115, C116 | the outcome of the report on the symbols of an archive | which input section a symbol belongs to is stated by ends of input sections (`SpecFits.v`), not by the loop that takes them off a list; both outcomes end to end; refutation (`IndexError`) |
| C117 | the lines of a text | a relation between text and lines (`SpecLines.v`), shown equivalent to the function |
| C118 | integers as Python reads them | a grammar with values (`SpecNumber.v`), shown equivalent to the function |
| C119 | the JSON report in the output file | C90, C96, C113 composed with C66 and C99: the text in the file, read by the JSON reader of `SpecText.v`, says the right report; what is assumed of rich and of the encoding is `console_shows` and `keeps_ascii` (`SpecFile.v`) |
| C120 | a valid ELF file can be opened | `elf_file` (`SpecElf.v`) against `elf_init`, both directions: exactly those of 76 bytes or more are |
| C121–C123 | the raw report and the tree | stated on the printed map file as C95 is; the records of `SpecWhole.v` are the tree that is asked for, `type_lines` its lines; C123 holds for sections that lie in one memory type; refutation |
| C124 | the reports with --unify | stated on the printed map file as C95 is; `SpecMerge.v` says what a row for a short name is; the report on object files is not covered, see C43 |
| C125, C126 | the JSON summary with a reference | `SpecLayout.v`; C126 holds for the report on archives and not for the summary, which has no differences; refutation |
| C127 | the percentages of the summary, from the map file to the cell | `SpecShare.v`; C95/C124 for the figures, C109 for the text |
| C128 | paths with dots, empty names, several slashes; libraries outside of the build directory | `SpecPath.v`: what stands between slashes, where names lead |
| C129 | bytes of optimised code (link time optimisation) per archive and object file, from the files | `SpecLto.v`, `SpecLto2.v`: owners of symbols, bytes given to them, symbols of an ELF file with their units |
| C130 | what is read of an ELF file is in it; damaged files | `SpecElf2.v`: what a file has to hold for symbols and names to be read |
| C131 | the messages of a command are exactly those that are due; a killed command | `SpecNotes.v`: which messages, in which order |
| C132 | descriptions that lack a key | `SpecDesc.v`: what is lacking, how the command ends |
| C133 | output sections without size in the map file | `SpecEmpty.v`: the lines of such a section, and two file systems that differ in them only; equality of results; refuted for the form with the size on a second line |
| C134 | from the words of the command line to the report | composition of C94, C92, C110 and C119: `SpecWords.v` has the usual command lines; the meaning of C110 is shown to be unique as far as it matters |
| C135 | what a text with brackets is shown as | `SpecMarkup.v`: the tags of a text as a decomposition, the open styles and the shown text as relations; no parser |
| C136 | options of the console | `SpecDisplay.v`; `c136_same`: for commands that differ in --quiet, --no-color and --force-terminal only, the result and the state are the same but for the console and the contents of the output file, with any faults; `c136_terminal`: with an output file --force-terminal changes nothing; the part on --quiet is false: `c136_quiet` (for any console that shows nothing when quiet every successful command leaves an empty output file) and `c136_quiet_refuted` |
| C137 | --lto, --no-lto and the setting of the project | The first two parts are proved for whole runs with faults (`c137_same`, `c137_plain`). The summary is proved with --show-unused (`c137_summary_partial`); without it the claim fails, and so do two more wishes (`c137_summary_refuted`, `c137_unreadable_refuted`, `c137_tree_refuted`, see section 6) |
| C138 | The CSV report in the output file | `c138_*` (PropCsv.v): C95, C97 and C114 composed with C56 (reading CSV), C98 and C118 (markup, texts of percentages) and the output file; names with brackets (C98) or quotes (C56) are excluded |
| C139 | The report of archives is the sum of the report of object files | JSON reports of --archives and of --files for the same project: totals of differences always add up; with everything shown, every figure does (`c139_reports_add_partial`). Differences per section need not add up when unchanged rows are left out (`c139_moved_refuted`). |
| C140 | Comparisons can be turned round and made in steps | whole runs that print JSON reports on archives or object files: exchanging project and reference (`c140_turned`), three projects compared in steps (`c140_steps`). Every figure is shown to have a value, and a column that is not listed to be zero. |
| C141 | The report of archives is the sum of the report of their symbols | JSON reports of --archives and of --archive-details for the same project, if the symbols tile the input sections of the archive (`c141_symbols_add_partial`). Padding behind a symbol is counted for the archive but for no symbol (`c141_padding_refuted`). |
| C142 | What is only moved does not show up in the reports | JSON reports of archives or object files of two builds of which one is the other laid out differently within the memory types: same rows and figures (`c142_same`), and nothing when compared with each other (`c142_compared`). |
| C143 | A report says the same in every format | The JSON report of archives, object files or symbols and the table of the same report: same rows up to --filter, same columns, same figures (`c143_entries`, `c143_symbols`). |
| C144 | Reports on object files with --unify | JSON and tables of --files --unify: one row per base name, total and memory type figures of all object files with it; figures of sections only if their archives have one base name (`c144_json_partial`, `c144_table_partial`). With several archives the figure of a section is that of the last one (`c144_refuted`). |
| C145 | Reports of projects with link time optimisation | JSON and tables of --archives/--files, project and reference each optimised or not: as C96/C97 of the map files with the code of (exe) taken apart into the symbols of the components and what lies between (`c145_json`, `c145_table`); every symbol of a component is a piece (`c145_symbols`). The summary is that of the map files as they are (`c145_summary`). |
| C146 | A comparison is the difference of the two reports | JSON of --archives/--files: rows and figures of --diff are those of the two reports, subtracted (`c146_entries`); the same for --archive-details (`c146_symbols`), with the laws of C140 for it (`c146_symbols_turned`, `c146_symbols_steps`). |
| C147 | Reports on the symbols of an archive with --unify | JSON and tables of --archive-details --unify: one row per name of a symbol, total and memory type figures of all symbols with it in archives with the base name; figures of sections only if they are in object files with one base name (`c147_json_partial`, `c147_table_partial`). With several object files the figure of a section is that of the last one (`c147_refuted`). |
| C148 | --unify adds up the rows with the same short name | Two JSON reports of the same project, without and with --unify: totals and figures of memory types are sums over the rows with the short name; total differences even if unchanged rows are left out (`c148_archives`, `c148_files`, `c148_symbols`). Figures of sections are not part of the claim, see C144 and C147. |
| C149 | Comparisons with --unify: differences of the two reports, turned round, in steps | Like C146, C140 and C139, with --unify. Archives in full (`c149_archives`, `c149_archives_turned`, `c149_archives_steps`); object files and symbols for totals, memory types and those sections' figures that C144 and C147 prove right (`c149_files_partial` and the others); the other figures of sections break it (`c149_refuted`). |
| C150 | A comparison of summaries is the difference of the two summaries | C95/C124 give the groups of a run; used bytes and bytes of a section are functions of the project, a row that is missing stands for 0 (or for no change), so the rows can be subtracted (`compares_usage`), turned (`turned_usage`) and added (`steps_usage`). Sizes of memory types are not compared: the parts of a region are not unique in the specification. Partial: without --show-unchanged the differences of sections do not add up, as a memory type whose used bytes are the same is left out with all its sections (`c150_refuted`) |
| C151 | --unify adds up the sections of the summary with the same short name | Like C148, for the summary. The bytes of a short name are the sum over the names with it (`section_values`), a section that has no row has no bytes or no difference (`c151_summary`). |
| C152 | The archives make up what the summary has, but for bytes in no input section | Input sections of an output section lie within it; if no byte is in two of them, the bytes of a memory type split into those of the input sections and the rest (`split_bytes`, by windows), and the input sections split into the rows by name as in C139/C148 (`rows_together`). `c152_whole` is this equation for each memory type and section, with differences; `c152_packed` is the case without a rest. |
| C153 | The summary says the same as JSON and as a table | Like C143, for the summary, with and without --unify. Both are right about the same bytes (C95/C124, C125), which are unique; what has no row in the table did not change (`c153_summary`). The sizes of memory types: C154. |
| C154 | The sizes of memory types in comparisons and as JSON | Adds the sizes to C150 and C153. A part of a region is in the first memory type that covers its first address, and reaches to the end of that window or of the region (`part_whole`, now part of `region_parts`), so the parts are unique but for empty ones, which have no size and mirror no other (`c154_determined`); hence the sizes in two reports right about the same project are equal (`c154_compared`, `c154_formats`). |
| C155 | The sizes of memory types in several comparisons | C150 turned and in steps, for the sizes: each is right about the same project, and sizes are unique (C154) (`c155_turned`, `c155_steps`). |
| C156 | A reference does not change the numbers of the JSON summary | Both summaries are right about the project (C125), sizes and bytes are unique (C154), and what only the reference has is 0 (`c156_json_partial`: sections' bytes with --unify or long names). With short names the later of two sections with the same name is shown, which is by default the one with fewer bytes (`c156_refuted`). |
| C157 | --show-unused only adds memory types without bytes | Both runs are right about the same project and reference (C125, C154); used bytes, bytes of sections and sizes of listed types are unique; a type listed only with --show-unused has 0 bytes (`c157_table`, `c157_json`). The size of a type that only the reference uses is left out: without --show-unused the project has no such type and its size counts as 0. |
| C158 | --show-unused does not change the rows and figures of a report | Both reports are right about the same project and reference (C96, C113); a figure is determined by project, reference and row, also where there is no such column (0); a section with bytes makes its memory type listed (`c158_entries`, `c158_symbols`, archives with --unify `c158_merged`). By C143 the same holds of tables, text and CSV. |
| C159 | Order, filter and names change only the order of a JSON report | Both reports are right about the same project and reference (C96, C113), and that determines rows, short names, columns and figures (`c159_entries`, `c159_symbols`, archives with --unify `c159_merged`). --filter is documented for table, CSV and DOT only. |
| C160 | Order and filter change only the order of the JSON summary | Both summaries are right about the same project and reference (C125), which determines all but which of the sections with one short name is shown (`c160_json_partial`: sections' bytes with --unify or long names). With short names the figure depends on --sort-reverse (`c160_refuted`). |
| C161 | Order, filter and names do not change the numbers of the summary | Both summaries are right about the same project and reference (C95, C124, C154), which determines the numbers (`c161_summary`). |
| C162 | --show-unchanged adds only what has no difference | Both reports are right about the same project and reference (C126, C154), which determines rows and figures; a row is dropped if and only if the difference of its total is 0 (`c162_entries`, `c162_symbols`, `c162_merged`, `c162_summary`). |

## 4. Trusted base

* Coq's kernel (8.16.1) and `coqchk`.
* `Print Assumptions` is run under every property theorem; the expected output is
  "Closed under the global context" everywhere (no axioms).
* The correspondence between the Python text and the model, kept inspectable by
  the file/line citation on every model definition.

Not modelled: the `rich`/`yaml`/`json` packages (except rich's markup and the texts written by
`json.dumps`), the help texts of `click` (its reading of command lines is modelled from its
documentation), the file system and
decoding UTF-8, logging and messages, terminal rendering.

## 5. Files

| model | covers |
|-------|--------|
| `Base.v` | results, dictionaries, strings, lists |
| `MemMap.v` | memorymap.py: tree, `walk`, `diff`, `unify`, `trim`, `sort`, summaries, `remove_unused`, `ignore_flash_size` |
| `Filter.v` | `get_summary_filtered`, `fnmatch` |
| `Pipeline.v` | memorymap.py `get` and all its helpers after parsing |
| `PyStr.v` | Python `strip`, `split`, `splitlines`, `int(x, 0)`, substring search |
| `MapFile.v` | mapfile.py, the whole class |
| `Deps.v` | deps.py and format_dot.py; the order in which Python iterates over a set is a parameter |
| `Table.v` | format_table.py: columns, sorting, the summary table, the dependency table |
| `ElfRead.v` | elf.py: `Elf` and the ELF structures, reading of numbers, strings, headers, symbols |
| `Dwarf.v` | elf.py: abbreviations, units, debugging entries, attributes, `add_cus_to_symbols` |
| `Formats.v` | format_csv.py, format_json.py (summary), format_tree.py |
| `Chips.v` | chip_info/*.yaml as loaded values (compared with the files, and the numeric constants of the models with elf.py, by `tools/chips.py`), `_get_memory_types`, `eval` of sums of products |
| `Project.v` | memorymap.py `get` up to the loaded files: paths, `get_proj_desc`, `get_elf`, `_load_elf_file`, the components |
| `Command.v` | main.py: the whole command `run_files` on the files of `Project.v` (composition of `Main.v` and `Project.v`) |
| `Names.v`, `Dump.v` | elf.py: names of constants (generated by `tools/names.py` from the text), the `dump_*` functions and the program `python -m esp_idf_size.elf` after parsing of its arguments |
| `Markup.v` | rich/markup.py: which part of a text is shown (third-party, from its documentation) |
| `JsonText.v` | `json.dumps(value, indent=4)` and the values dumped by format_json.py and format_raw.py |
| `Text.v` | the texts with markup of format_table.py, format_csv.py, format_tree.py, format_dot.py |
| `Percent.v` | format_table.py 147, 171: `round(x, 2)` and the text of a float, as the instance `python_floats` of the parameter of `Table.v`/`Text.v` |
| `CommandLine.v` | main.py 164-316: the declared options (compared with the text by `tools/options.py`), click's option parser, the whole command from the words of its command line |
| `Main.v` | main.py `_run`, `_write_output_file` (lines 44-162) and the `show` functions of all formats |

`Spec*.v` hold the specification vocabulary, `Proof*.v` the lemmas, `Fix*.v`
concrete data, `Prop*.v` the property theorems.

Simplifications of `PyStr.v`/`MapFile.v`: code points 0..255 only (white space
and line break sets restricted to that range); no 4300 digit limit of `int`;
underscores and all prefixes of `int(x, 0)` are modelled; `log.*` calls have no
effect; the text is given (file reading is not modelled).

Simplifications of `Table.v`/`Formats.v`/`Deps.v`: texts are without colour markup
(`Text.v` has them with markup, C98 relates the two); characters that
would need quoting in DOT are not treated (the code does not quote them either);
the text of the percent column is a parameter there (`Percent.v` has Python's texts);
the OverflowError of `/` for integers of more than 1024 bits is not modelled.

Simplifications of `Markup.v`/`JsonText.v`/`Text.v`: styles are names only; emoji codes are
not replaced; rich's wrapping of long lines and its table borders are not modelled; strings have code
points 0..255; the texts of rounded floats are parameters (any text without white space, brackets
and backslashes, the difference may be padded), `Percent.v` has Python's.

Simplifications of `Percent.v`: `round(x, 2)` and the text of its result, described for numbers below
10^13 (at most 15 digits, shown without exponent); floats are `SpecFloat` of the standard library
(53 bits, round to nearest even), their error bounds are proved in `ProofFloat*.v`.

Simplifications of `ElfRead.v`/`Dwarf.v`: the file is a list of bytes that does not
change; a decoded string is represented by its UTF-8 bytes (the strict decoder is
modelled); the limit of the Python stack is not modelled; what the cache of
`get_DIEs` holds after an exception is not modelled; `int(text)` of a location
that is a string is always an error; the size of C's long, which decides how many bytes
are read for the ELF header (C120), is that of 64-bit Linux and macOS.  The encodings in `SpecElf.v`/`SpecDwarf.v` are
written down from the System V ABI and the DWARF 5 standard.

Simplifications of `Chips.v`: the yaml package is not modelled, the files are transcribed
as the values it returns; `eval` knows integer literals, signs, `+`, `-` and `*` only.

Simplifications of `Project.v`: the file system gives the text, the bytes and the loaded
JSON value of every path (`json.load` and decoding are part of it) and does not change;
no symbolic links; an error inside the ELF file or the components is taken to be
found when the ELF file is opened; the names of all symbols that may be placed are read;
a target in the description that is neither a string nor falsy is an error.

Simplifications of `Command.v`: an error in the description, or in the symbol names that the
dependency report needs, is taken to be found when the ELF file is opened; relative input paths
are made absolute first (C87 shows this is the same file). What a finished run prints is not affected.

Simplifications of `Main.v`: the program is a sequence of steps on a state (files,
directories, console, printed values, messages); an arbitrary oracle may raise an
exception or kill the process at each step.  Turning the printed values into text
(rich) and encoding the text are arbitrary functions; the texts of messages, debug
messages, the definition of the options (click) and the normalisation of paths are
not modelled; the files of a project do not change during a run.

## 6. Findings (properties that the code does not have)

Each is a theorem `..._refuted` with a concrete witness.

* C03: an archive path or object path containing `(` is split in the wrong place.
* C06: the first input section of an output section is not checked against the
  address range of the output section.
* C07: after an empty input section only the last of several `*fill*` lines is
  charged (`size` is the variable of the enclosing loop).
* C133: because of the left-over variable of C07, an empty output section whose
  size 0 is on a second line makes a later section readable that is otherwise a
  `NameError`.
* C08: `ValueError`, `TypeError`, `NameError`, `IndexError` escape for malformed
  maps; `NameError` also for a well-formed one (explicit data after an empty
  input section before any `size` has been assigned).
* C13: region splitting does not terminate for a region that reaches an address
  without memory type and ends where an earlier part ends.
* C18: symbols with equal names in one object file overwrite each other.
* C20: parts of a section in two regions of one memory type overwrite each other
  while `used` accumulates.
* C23: overflow of the region with the highest address is lost; a part below all
  regions is reported as overflow of the lowest.
* C26: of two allocated ELF sections with one name the second replaces the first.
* C27: `get()` ignores the ELF object it is given.
* C28, C29: a symbol that starts before an input section is skipped; input
  sections after that of the last symbol list nothing.
* C31: the rest of an input section of the executable is dropped if no symbol
  starts behind it; an empty one overwrites the padding before it.
* C32: DWARF expansion stays in the `MapFile` object and changes later results.
* C33: bytes per archive are lost when parts of one name replace each other.
* C37: comparing a project with itself in the raw format shows minus the size of the
  flash memory as `size_diff` of flash memory types (main.py:130 treats the wrong map).
* C40: `unify` adds the key `None` to every symbol entry.
* C43, C44: with `--unify` section values are those of the last entry while totals
  are sums; 'not found' for an archive without symbols.
* C45: a memory type whose last section is removed stays listed with used = 0.
* C47: changes that cancel inside a parent are hidden.
* C52: the order of the dependency report depends on the hash seed.
* C54: the message of `--sort` leaves out an accepted number; an empty table
  accepts every number; the title of the first column is refused.
* C55: by percent only whole percents are compared, and these are computed with binary fractions:
  28.0 can precede 29.0 in descending order.
* C56: double quotes in names are not doubled in CSV.
* C57: in json2, sections with one abbreviated name replace each other, so parts
  do not add up to 'used'.
* C67: the output file is emptied before it is written; a crash or a full disk leaves
  a part of the report.
* C68: the tree format shows symbols but they are not loaded for it.
* C69: with `--unify` the dependency report drops archives with a directory in
  their name.
* C70: the difference of remaining bytes is off if only one project knows the size.
* C60: the sign of a signed LEB128 number is taken from the byte before the number.
* C63: `DW_FORM_ref_sig8` is read as one byte instead of eight.
* C65: the cache of `get_DIEs` ignores the filter; a second `get_attr_eval` of an
  attribute raises `KeyError`; after a failure `symbols` returns what was read so far.
* C73: the fields of 64-bit program headers are mixed up (`p_flags` comes second there).
* C74: header tables whose entries do not have the standard size end in
  `struct.error`, or in misread headers.
* C123: an output section over the border of two memory types is cut, and an input section that begins
  exactly where it is cut leaves an empty input section in the first part (`memorymap.py:1004-1047`), so
  its archive and object file are listed, with 0 bytes, below a memory type in which they have none.
* C126: `--diff` with `--format json2` prints no difference in the summary (`format_json.py:11-36`): what is
  printed is the same for a reference with 16 bytes less and for the project itself.
* C136: `--quiet` with `--output-file` writes an empty file and thereby destroys the report of an earlier
  run: the console that fills the buffer of the file is silenced too (`main.py:82-97`, `main.py:153-157`).
* C137: on a project configured with link time optimisation the default summary reads the debugging
  information although it shows nothing of it: if the ELF file has none, a section that consists of
  optimiser output only loses its input sections (`memorymap.py:1281-1428`), is dropped as unused
  (`remove_unused`) and is reported with 0 bytes used, while `--lto` and `--no-lto` both report its real
  size; if it cannot be read, there is no summary at all, while `--lto` shows one.  And `--lto`
  switches the debugging information off (`main.py:114-116`) for `--format tree` and
  `--archive-dependencies`, which do show archives.
* C139: with --diff and without --show-unchanged a row of --archives or --files is left out when
  its total is the same (`rem_summary_unchanged`, memorymap.py:711-717), although figures of its
  memory types or sections changed.  An object file whose code moved from flash to IRAM without
  growing is not reported.
* C141: bytes of an input section that no symbol covers (literals, alignment behind a function) are
  counted for the archive, but are missing from the report on its symbols: with 12 and 1 bytes of
  symbols in a section of 16, `--archives` has 16 bytes and `--archive-details` 13.  An input
  section without any symbol is listed, in contrast.
* C144: with --files --unify the figure of a section is that of only the last archive, if object
  files with one base name are in archives with different base names; the row then does not add up
  to its total (at the level of the command; at the level of the map see C43, C44).
* C147: with --archive-details --unify the figure of a section is that of only the last object
  file, if symbols with one name (static functions, say) are in object files with different base
  names; the totals and the figures of the memory types are right.
* C149: with --files --unify --diff the figures of a section need not be the difference of those of
  the two reports, nor turn their sign when project and reference are exchanged, if object files
  of one name are in archives with different names (same cause as C144).
* C150: `esp_idf_size --diff` leaves out a memory type whose used bytes did not change together with
  all its sections, so bytes that moved from one section of it to another are not reported: the
  comparison can be empty although the two summaries differ.
* C156: the JSON summary (json2) with --diff and short names (the default) can lose the bytes of a
  section: with .iram0.text in the project and .iram1.text only in the reference, both are `.text`,
  and the latter, with 0 bytes, comes later and overwrites the former (format_json.py:31-34).
* C160: the bytes of a section in the JSON summary with short names depend on
  `--sort-reverse`: of several sections of a memory type with the same short name the last
  one in the order is shown (`c160_refuted`).
* C120: the ELF header is read with `struct.calcsize` of a format without byte order, that is with the
  sizes of the machine (76 bytes on 64-bit Linux and macOS instead of 52 or 64): a shorter file
  that consists of little more than its header is refused.
* C75: negative constants in an abbreviation (`DW_FORM_implicit_const`) are read as
  positive ones.
* C76: abbreviation codes are taken as positions in the table; codes that are not
  1, 2, 3, ... in this order raise `AssertionError` or `IndexError`.
* C77: the header of a DWARF 5 type or split unit is taken to be shorter than it is.
* C78: a function in a partial unit raises `KeyError`.
* C79: a variable with an empty location expression raises `Elf_Exception`.
* C80: for a name of form strx the index is returned as a hexadecimal number.
* C84: a memory type with the same windows as an earlier one (e.g. Flash Data of the
  esp32c6, External RAM of the esp32s3) is never found by address.
* C89: directories are compared as strings: code of /p/led_strip is charged to the
  component in /p/led if no longer component directory matches.
* C93: a `project_description.json` that is not an object raises `AttributeError`, an
  ELF file without a string table `ValueError`.
* C95: with `--diff` a memory type that the reference does not use is taken as one of
  size 0, so that its whole memory is reported as added.
* C98: `color_size` opens a second green tag instead of closing the first; names with
  `[word]` lose that part in all reports, and a name with `[/word]` raises `MarkupError`.
* C99: the same for the names in JSON reports: what is printed is not what was dumped.
* C100: nodes whose names differ in brackets only become one; a quotation mark in a name makes the
  graph unreadable.
* C105: a symbol whose type or binding has no name (types 8, 9, 11, 14; bindings 4-9, 11, 14)
  ends the listing with `KeyError`; `dump_symbol_table` called from a library ends with
  `NameError` because it uses the global variable `elf` of the program.
* C106: an attribute of form rnglistx or loclistx ends the listing with `TypeError`
  (`hex(None)`); attribute names with 30 or more characters are not separated from the form.
* C116: a project with an ELF file whose map file lists no input section that counts ends with
  `IndexError` (`isections.pop(0)`, memorymap.py:1136) when symbols are wanted.
