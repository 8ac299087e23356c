(** * Model of the command line (esp_idf_size/main.py:164-316): the options as they are declared,
    and how the click package (third-party, from its documentation and parser.py of version 8)
    reads the words of a command line with them.  No proofs here.

    Not modelled: the texts of messages and of the help, completion of command lines in a shell,
    expansion of patterns in file names on Windows, options from environment variables other than
    ESP_IDF_SIZE_FORCE_TERMINAL (none is declared). *)
From Coq Require Import Ascii String List ZArith Bool.
From Verif Require Import Base MemMap Filter Pipeline PyStr MapFile Deps Table Formats ElfRead Dwarf Project Main Command.
Import ListNotations.
Open Scope list_scope.

(** ** Declared options *)

(** value of an option *)
Inductive cval := VBool (b : bool) | VStr (s : str) | VList (l : list str).

(** what an option does with its destination: a flag stores a constant; an option with a value
    stores it, or appends it if declared with multiple=True *)
Inductive action := AConst (b : bool) | AStore | AAppend.
Record opt := Opt { op_names : list str; op_dest : str; op_action : action }.
Definition takes_value (o : opt) : bool := match op_action o with AConst _ => false | _ => true end.

Local Notation tx := list_ascii_of_string.
Definition flag (names : list string) (dest : string) : opt := Opt (map tx names) dest (AConst true).
Definition valued (names : list string) (dest : string) : opt := Opt (map tx names) dest AStore.

(** main.py:172-310, in their order; -h/--help from line 166; --doc is eager and exits *)
Definition options : list opt := [
  valued ["--format"%string] "format";
  flag ["--archives"%string] "archives";
  flag ["--archive-dependencies"%string; "--archive-deps"%string] "archive_dependencies";
  flag ["--dep-symbols"%string; "--dep-syms"%string] "dep_symbols";
  flag ["--dep-reverse"%string; "--dep-rev"%string] "dep_reverse";
  valued ["--archive-details"%string; "--archive_details"%string] "archive_details";
  flag ["--files"%string] "files";
  valued ["--diff"%string] "diff";
  flag ["--no-abbrev"%string] "no_abbrev";
  flag ["--unify"%string] "unify";
  flag ["--show-unused"%string] "show_unused";
  flag ["--show-unchanged"%string] "show_unchanged";
  flag ["--use-flash-size"%string] "use_flash_size";
  flag ["--lto"%string] "use_dwarf";
  Opt [tx "--no-lto"] (tx "use_dwarf") (AConst false);
  flag ["-d"%string; "--debug"%string] "debug";
  valued ["-o"%string; "--output-file"%string] "output_file";
  valued ["-s"%string; "--sort"%string] "sort";
  Opt [tx "-F"; tx "--filter"] (tx "filter") AAppend;
  flag ["--sort-diff"%string] "sort_diff";
  Opt [tx "--sort-reverse"] (tx "sort_reverse") (AConst false);
  flag ["-q"%string; "--quiet"%string] "quiet";
  flag ["--no-color"%string] "no_color";
  flag ["--force-terminal"%string] "force_terminal";
  flag ["--doc"%string] "doc";
  flag ["-h"%string; "--help"%string] "help" ].

(** ** click: OptionParser *)

Definition dash : ascii := "-"%char.
(** an option with two characters is a short one, all others are long ones (OptionParser.add_option) *)
Definition is_short (n : str) : bool := match n with [_; _] => true | _ => false end.
Definition long_opt (n : str) : option opt := if is_short n then None else find (fun o => mem n (op_names o)) options.
Definition short_opt (c : ascii) : option opt := find (fun o => mem [dash; c] (op_names o)) options.

(** Option.process *)
Definition process (o : opt) (v : str) (opts : dict str cval) : dict str cval :=
  match op_action o with
  | AConst b => dset (op_dest o) (VBool b) opts
  | AStore => dset (op_dest o) (VStr v) opts
  | AAppend => dset (op_dest o) (VList (match dget (op_dest o) opts with Some (VList l) => l ++ [v] | _ => [v] end)) opts
  end.

(** what one word does: an error, a new state, or an option that needs the next word *)
Inductive step := SBad | SDone (opts : dict str cval) | SNext (o : opt) (opts : dict str cval).

(** _match_short_opt: the letters after the dash *)
Fixpoint match_short (cs : str) (opts : dict str cval) : step :=
  match cs with
  | [] => SDone opts
  | c :: cs' =>
    match short_opt c with
    | None => SBad
    | Some o =>
      if takes_value o then match cs' with [] => SNext o opts | _ => SDone (process o cs' opts) end
      else match_short cs' (process o [] opts)
    end
  end.

(** [arg.split('=', 1)] *)
Definition split_eq (w : str) : str * option str :=
  match cut_at "="%char w with Some (n, v) => (n, Some v) | None => (w, None) end.
Definition two_dashes (w : str) : bool := match w with a :: b :: _ => (a =?= dash) && (b =?= dash) | _ => false end.

(** _process_opts, _match_long_opt *)
Definition process_opts (w : str) (opts : dict str cval) : step :=
  let (n, v) := split_eq w in
  match long_opt n with
  | Some o =>
    match takes_value o, v with
    | true, Some v => SDone (process o v opts)
    | true, None => SNext o opts
    | false, Some _ => SBad
    | false, None => SDone (process o [] opts)
    end
  | None => if two_dashes w then SBad else match_short (tl w) opts
  end.

(** does a word look like an option? *)
Definition is_option (w : str) : bool := match w with a :: _ :: _ => a =?= dash | _ => false end.

(** _process_args_for_options: the options and the other words *)
Fixpoint process_args (ws : list str) (opts : dict str cval) (largs : list str) : option (dict str cval * list str) :=
  match ws with
  | [] => Some (opts, largs)
  | w :: rest =>
    if w =?= [dash; dash] then Some (opts, largs ++ rest)
    else if is_option w then
      match process_opts w opts with
      | SBad => None
      | SDone opts' => process_args rest opts' largs
      | SNext o opts' =>
        match rest with
        | [] => None
        | v :: rest' => process_args rest' (process o v opts') largs
        end
      end
    else process_args rest opts (largs ++ [w])
  end.

(** ** Values of the parameters *)

Section Values.
Variable opts : dict str cval.
Definition get_flag (dest : string) (default : bool) : bool := match dget (tx dest : str) opts with Some (VBool b) => b | _ => default end.
Definition get_text (dest : string) : option str := match dget (tx dest : str) opts with Some (VStr s) => Some s | _ => None end.
(** main.py:174: one of the choices, in small or capital letters.  click compares with casefold,
    which differs from lower only in letters that no choice has *)
Definition choices : list (str * format) :=
  [(tx "table", FTable); (tx "text", FText); (tx "tree", FTree); (tx "csv", FCsv); (tx "json2", FJson2); (tx "raw", FRaw); (tx "dot", FDot)].
Definition get_format : option format := match get_text "format" with None => Some FTable | Some v => dget (lower v) choices end.
(** main.py:44-49 *)
Definition get_filter : option (list str) := match dget (tx "filter" : str) opts with Some (VList (x :: l)) => Some (x :: l) | _ => None end.

(** the dictionary given to [_run]; [env] is whether ESP_IDF_SIZE_FORCE_TERMINAL is set to a text
    that is not empty (main.py:297) *)
Definition get_cmd (env : bool) (f : format) (input : str) : cmd :=
  Cmd (Args f (get_flag "archives" false) (get_flag "archive_dependencies" false) (get_flag "dep_symbols" false) (get_flag "dep_reverse" false)
         (get_text "archive_details") (get_flag "files" false) (get_text "diff") (get_flag "no_abbrev" false) false
         (get_flag "unify" false) (get_flag "show_unused" false) (get_flag "show_unchanged" false) (get_flag "use_flash_size" false)
         (match dget (tx "use_dwarf" : str) opts with Some (VBool b) => Some b | _ => None end)
         (get_text "output_file") (match get_text "sort" with Some s => s | None => tx "1" end) get_filter
         (get_flag "sort_diff" false) (get_flag "sort_reverse" true))
    input (get_flag "quiet" false) (get_flag "no_color" false)
    (match dget (tx "force_terminal" : str) opts with Some (VBool b) => Some b | _ => if env then Some true else None end).
End Values.

(** ** The command *)

Inductive asked := AskRun (c : cmd) | AskHelp | AskDoc | AskNonsense.

(** the eager options come first, in the order in which they were first given
    (iter_params_for_processing) *)
Fixpoint eager (opts : dict str cval) : option asked :=
  match opts with
  | [] => None
  | (k, _) :: opts' => if k =?= tx "help" then Some AskHelp else if k =?= tx "doc" then Some AskDoc else eager opts'
  end.

(** Command.parse_args: AskNonsense is UsageError *)
Definition parse_command_line (env : bool) (words : list str) : asked :=
  match process_args words [] [] with
  | None => AskNonsense
  | Some (opts, largs) =>
    match eager opts with
    | Some a => a
    | None =>
      match get_format opts, largs with
      | Some f, [input] => AskRun (get_cmd opts env f input)
      | _, _ => AskNonsense
      end
    end
  end.

(** main.py:311-316: the help, the documentation (main.py:27-41) and the message about a wrong
    command line are shown by click, which then exits; here they are no messages of the program *)
Definition main_words (d : disk) (chips : str -> res (list chip_type)) (render : console -> list piece -> str) (encode : str -> str)
  (ord : set_order) (pf : pct_format) (env : bool) (words : list str) : prog unit :=
  match parse_command_line env words with
  | AskRun c => run_files d chips render encode ord pf c
  | _ => compute (Err SystemExit)
  end.
