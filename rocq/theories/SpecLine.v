(** * Specification vocabulary: command lines

    What a user may write, and what it means, as documented by the help of the command. *)
From Coq Require Import Ascii String List Bool.
From Verif Require Import Base MemMap Main CommandLine SpecLetters.
Import ListNotations.
Open Scope list_scope.

Local Notation tx := list_ascii_of_string.

(** ** Options *)
Inductive switch :=
| Archives | ArchiveDependencies | DepSymbols | DepReverse | Files | NoAbbrev | Unify | ShowUnused | ShowUnchanged | UseFlashSize
| Lto | NoLto | Debug | SortDiff | SortReverse | Quiet | NoColor | ForceTerminal | Doc | Help.
Inductive setting := Format | ArchiveDetails | Diff | OutputFile | Sort | Filter.

Definition switch_names (s : switch) : list string :=
  match s with
  | Archives => ["--archives"]
  | ArchiveDependencies => ["--archive-dependencies"; "--archive-deps"]
  | DepSymbols => ["--dep-symbols"; "--dep-syms"]
  | DepReverse => ["--dep-reverse"; "--dep-rev"]
  | Files => ["--files"]
  | NoAbbrev => ["--no-abbrev"]
  | Unify => ["--unify"]
  | ShowUnused => ["--show-unused"]
  | ShowUnchanged => ["--show-unchanged"]
  | UseFlashSize => ["--use-flash-size"]
  | Lto => ["--lto"]
  | NoLto => ["--no-lto"]
  | Debug => ["--debug"]
  | SortDiff => ["--sort-diff"]
  | SortReverse => ["--sort-reverse"]
  | Quiet => ["--quiet"]
  | NoColor => ["--no-color"]
  | ForceTerminal => ["--force-terminal"]
  | Doc => ["--doc"]
  | Help => ["--help"]
  end%string.
Definition setting_names (s : setting) : list string :=
  match s with
  | Format => ["--format"]
  | ArchiveDetails => ["--archive-details"; "--archive_details"]
  | Diff => ["--diff"]
  | OutputFile => ["--output-file"]
  | Sort => ["--sort"]
  | Filter => ["--filter"]
  end%string.
Inductive switch_letter : switch -> ascii -> Prop :=
| letter_debug : switch_letter Debug "d" | letter_quiet : switch_letter Quiet "q" | letter_help : switch_letter Help "h".
Inductive setting_letter : setting -> ascii -> Prop :=
| letter_output : setting_letter OutputFile "o" | letter_sort : setting_letter Sort "s" | letter_filter : setting_letter Filter "F".

(** ** What is said *)
Inductive item := Switch (s : switch) | Set_ (s : setting) (x : str) | File (x : str).

(** letters of switches, then possibly a letter of a setting with its value directly behind it *)
Inductive letters : str -> list item -> Prop :=
| letters_none : letters [] []
| letters_switch s c cs l : switch_letter s c -> letters cs l -> letters (c :: cs) (Switch s :: l)
| letters_value s c x : setting_letter s c -> x <> [] -> letters (c :: x) [Set_ s x].
(** letters of switches, then that of a setting whose value is the next word *)
Inductive letters_before : str -> list item -> setting -> Prop :=
| before_setting s c : setting_letter s c -> letters_before [c] [] s
| before_switch s c cs l t : switch_letter s c -> letters_before cs l t -> letters_before (c :: cs) (Switch s :: l) t.

(** a word that is no option: it does not begin with a dash, or is a dash alone *)
Definition no_option (w : str) : Prop := (forall x, w <> "-"%char :: x) \/ w = ["-"%char].

(** the words of a command line and what they say *)
Inductive says : list str -> list item -> Prop :=
| says_nothing : says [] []
| says_rest fs : says (tx "--" :: fs) (map File fs)
| says_file w ws l : no_option w -> says ws l -> says (w :: ws) (File w :: l)
| says_switch s n ws l : In n (switch_names s) -> says ws l -> says (tx n :: ws) (Switch s :: l)
| says_setting s n x ws l : In n (setting_names s) -> says ws l -> says (tx n :: x :: ws) (Set_ s x :: l)
| says_equals s n x ws l : In n (setting_names s) -> says ws l -> says ((tx n ++ "="%char :: x) :: ws) (Set_ s x :: l)
| says_letters cs k ws l : cs <> [] -> letters cs k -> says ws l -> says (("-"%char :: cs) :: ws) (k ++ l)
| says_letters_value cs k s x ws l : letters_before cs k s -> says ws l -> says (("-"%char :: cs) :: x :: ws) (k ++ Set_ s x :: l).

(** ** What it means *)

(** the values given for a setting, and the files, in their order *)
Definition same_setting (a b : setting) : bool :=
  match a, b with
  | Format, Format | ArchiveDetails, ArchiveDetails | Diff, Diff | OutputFile, OutputFile | Sort, Sort | Filter, Filter => true
  | _, _ => false
  end.
Definition values (s : setting) (l : list item) : list str :=
  flat_map (fun i => match i with Set_ t x => if same_setting s t then [x] else [] | _ => [] end) l.
Definition files (l : list item) : list str := flat_map (fun i => match i with File x => [x] | _ => [] end) l.
Definition last_value (s : setting) (l : list item) : option str := match rev (values s l) with x :: _ => Some x | [] => None end.
Definition switched (s : switch) (l : list item) (b : bool) : Prop := b = true <-> In (Switch s) l.

(** the last mention of one of the two *)
Inductive last_lto : list item -> option bool -> Prop :=
| lto_unsaid l : ~ In (Switch Lto) l -> ~ In (Switch NoLto) l -> last_lto l None
| lto_said a b : ~ In (Switch Lto) b -> ~ In (Switch NoLto) b -> last_lto (a ++ Switch Lto :: b) (Some true)
| no_lto_said a b : ~ In (Switch Lto) b -> ~ In (Switch NoLto) b -> last_lto (a ++ Switch NoLto :: b) (Some false).

Definition format_text (f : format) : string :=
  match f with FTable => "table" | FText => "text" | FTree => "tree" | FCsv => "csv" | FJson2 => "json2" | FRaw => "raw" | FDot => "dot" end.
(** a format is named in small or capital letters; without it, the table is meant *)
Definition names_format (o : option str) (f : format) : Prop :=
  match o with None => f = FTable | Some x => lowered x (tx (format_text f)) end.

(** the help or the documentation is asked for, by the first mention of one of them *)
Definition asks_for (s : switch) (l : list item) : Prop :=
  exists a b, l = a ++ Switch s :: b /\ ~ In (Switch Doc) a /\ ~ In (Switch Help) a.

Record means (l : list item) (env : bool) (c : cmd) : Prop := Means {
  mn_input : files l = [c_input c];
  mn_format : names_format (last_value Format l) (a_format (c_args c));
  mn_archives : switched Archives l (a_archives (c_args c));
  mn_dependencies : switched ArchiveDependencies l (a_archive_dependencies (c_args c));
  mn_dep_symbols : switched DepSymbols l (a_dep_symbols (c_args c));
  mn_dep_reverse : switched DepReverse l (a_dep_reverse (c_args c));
  mn_details : a_archive_details (c_args c) = last_value ArchiveDetails l;
  mn_files : switched Files l (a_files (c_args c));
  mn_diff : a_diff (c_args c) = last_value Diff l;
  mn_no_abbrev : switched NoAbbrev l (a_no_abbrev (c_args c));
  mn_unify : switched Unify l (a_unify (c_args c));
  mn_unused : switched ShowUnused l (a_show_unused (c_args c));
  mn_unchanged : switched ShowUnchanged l (a_show_unchanged (c_args c));
  mn_flash : switched UseFlashSize l (a_use_flash_size (c_args c));
  mn_lto : last_lto l (a_use_dwarf (c_args c));
  mn_output : a_output_file (c_args c) = last_value OutputFile l;
  mn_sort : Some (a_sort (c_args c)) = match last_value Sort l with None => Some (tx "1") | o => o end;
  mn_filter : match a_filter (c_args c) with None => values Filter l = [] | Some p => values Filter l = p /\ p <> [] end;
  mn_sort_diff : switched SortDiff l (a_sort_diff (c_args c));
  mn_sort_reverse : switched SortReverse l (negb (a_sort_reverse (c_args c)));   (* the field says "descending" *)
  mn_quiet : switched Quiet l (c_quiet c);
  mn_no_color : switched NoColor l (c_no_color c);
  mn_terminal : c_force_terminal c <> Some false /\ (c_force_terminal c = Some true <-> In (Switch ForceTerminal) l \/ env = true) }.

(** what the command does: help and documentation come first, then a command with a meaning is
    run, and nothing else *)
Definition understood (env : bool) (l : list item) (a : asked) : Prop :=
  match a with
  | AskHelp => asks_for Help l
  | AskDoc => asks_for Doc l
  | AskRun c => ~ In (Switch Doc) l /\ ~ In (Switch Help) l /\ means l env c
  | AskNonsense => ~ In (Switch Doc) l /\ ~ In (Switch Help) l /\ forall c, ~ means l env c
  end.

(** two items of which the order does not matter *)
Definition independent (a b : item) : Prop :=
  match a, b with
  | Set_ s _, Set_ t _ => s <> t
  | Switch s, Switch t => ~ (In s [Lto; NoLto] /\ In t [Lto; NoLto]) /\ ~ (In s [Doc; Help] /\ In t [Doc; Help])
  | File _, File _ => False
  | _, _ => True
  end.
(** the same items in another order, those that belong together in their order *)
Inductive reordered : list item -> list item -> Prop :=
| reordered_same l : reordered l l
| reordered_swap a x y b m : independent x y -> reordered (a ++ y :: x :: b) m -> reordered (a ++ x :: y :: b) m.
