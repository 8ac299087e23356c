(** * Model of the command (esp_idf_size/main.py:44-162) and of the [show] functions of the
    formats.  No proofs here.

    The program runs on a state: the file system, what was printed to the console (the
    standard output or, with --output-file, the buffer) and to the standard error output.
    Every elementary step first asks an oracle, which may raise an exception there or kill
    the process; so a theorem about all oracles covers every failure at every point.

    Not modelled: the texts of messages, debug messages, click, and how the console turns the
    printed values into text ([render], [encode] below are arbitrary functions). *)
From Coq Require Import Ascii String List ZArith Bool.
From Verif Require Import Base MemMap Filter Pipeline PyStr MapFile Deps Table Formats.
Import ListNotations.
Open Scope list_scope.
Open Scope Z_scope.

(** ** Values printed *)

(** one call of [log.print] *)
Inductive piece :=
| PTable (t : table)                 (* format_table.py:373-415 *)
| PLine (s : str)                    (* format_csv.py:27-28 *)
| PJson (s : jsummary)               (* format_json.py:36 *)
| PEntries (d : dict str sentry)     (* format_json.py:42, 48, 54 *)
| PDeps (d : dict str darch)         (* format_json.py:61, format_raw.py:14 *)
| PRaw (m : memmap)                  (* format_raw.py:16 *)
| PTree (l : list (nat * str))       (* format_tree.py:47, 77 *)
| PDot (l : list dot_line).          (* format_dot.py:50 *)

(** messages on the standard error output *)
Inductive note :=
| WarnNoAbbrev                       (* main.py:103 *)
| WarnDiff                           (* main.py:108 *)
| WarnTarget (cur ref : str)         (* main.py:133-136 *)
| DiffInfo (cur ref : str)           (* format_table.py:18-23 *)
| ImageInfo (size sdiff : Z)         (* format_table.py:26-30 *)
| SizeNote                           (* format_table.py:379-385 *)
| Died.                              (* log.die *)

(** options of the console, main.py:86-97 *)
Record console := Console { co_buffer : bool; co_no_color : bool; co_force_terminal : option bool; co_quiet : bool }.

(** ** State and steps *)

Record state := State {
  s_tick : nat;                      (* number of steps done *)
  s_files : dict str str;            (* regular files *)
  s_dirs : list str;                 (* directories made by the program *)
  s_console : console;
  s_printed : list piece;
  s_notes : list note }.

(** what happens at a step instead of its regular effect; the number is how much of the data
    a write operation has written *)
Inductive fault := FRaise (e : exn) | FKill.
Definition oracle := nat -> option (fault * nat).

Inductive result (A : Type) := Done (a : A) | Raised (e : exn) | Killed.
Arguments Done {A} a.
Arguments Raised {A} e.
Arguments Killed {A}.

Definition prog (A : Type) := oracle -> state -> result A * state.

Definition ret {A} (a : A) : prog A := fun _ s => (Done a, s).
Definition andthen {A B} (m : prog A) (f : A -> prog B) : prog B := fun o s =>
  match m o s with
  | (Done a, s') => f a o s'
  | (Raised e, s') => (Raised e, s')
  | (Killed, s') => (Killed, s')
  end.
Notation "'run' x <- m ; f" := (andthen m (fun x => f)) (at level 60, x pattern, m at level 50, right associativity).

(** a step without effect on the state *)
Definition next (s : state) : state := State (S (s_tick s)) (s_files s) (s_dirs s) (s_console s) (s_printed s) (s_notes s).
Definition tick : prog unit := fun o s =>
  match o (s_tick s) with
  | Some (FRaise e, _) => (Raised e, next s)
  | Some (FKill, _) => (Killed, next s)
  | None => (Done tt, next s)
  end.
(** a computation that may raise *)
Definition compute {A} (r : res A) : prog A := run _ <- tick; fun _ s => match r with Ok a => (Done a, s) | Err e => (Raised e, s) end.
(** log.print and the messages *)
Definition print (p : piece) : prog unit := run _ <- tick; fun _ s =>
  (Done tt, State (s_tick s) (s_files s) (s_dirs s) (s_console s) (s_printed s ++ [p]) (s_notes s)).
Definition tell (n : note) : prog unit := run _ <- tick; fun _ s =>
  (Done tt, State (s_tick s) (s_files s) (s_dirs s) (s_console s) (s_printed s) (s_notes s ++ [n])).
Definition set_console (c : console) : prog unit := run _ <- tick; fun _ s =>
  (Done tt, State (s_tick s) (s_files s) (s_dirs s) c (s_printed s) (s_notes s)).
(** log.die (log.py:23): a message, then SystemExit *)
Definition die {A} : prog A := run _ <- tell Died; compute (Err SystemExit).
Fixpoint print_all (l : list piece) : prog unit :=
  match l with [] => ret tt | p :: l' => run _ <- print p; print_all l' end.

(** [try: m except ...: h]; [h e] is [None] for exceptions that are not caught *)
Definition handle {A} (m : prog A) (h : exn -> option (prog A)) : prog A := fun o s =>
  match m o s with
  | (Raised e, s') => match h e with Some k => k o s' | None => (Raised e, s') end
  | r => r
  end.

(** ** Files *)

(** creation of one directory; nothing happens if it exists *)
Definition mkdir (d : str) : prog unit := run _ <- tick; fun _ s =>
  (Done tt, State (s_tick s) (s_files s) (if mem d (s_dirs s) then s_dirs s else s_dirs s ++ [d]) (s_console s) (s_printed s) (s_notes s)).
Fixpoint mkdirs (l : list str) : prog unit :=
  match l with [] => ret tt | d :: l' => run _ <- mkdir d; mkdirs l' end.
Definition set_file (fn text : str) (s : state) : state :=
  State (s_tick s) (dset fn text (s_files s)) (s_dirs s) (s_console s) (s_printed s) (s_notes s).
(** opening for writing empties the file *)
Definition open_truncate (fn : str) : prog unit := run _ <- tick; fun _ s => (Done tt, set_file fn [] s).
(** writing the data; a fault leaves a part of it *)
Definition write (fn text : str) : prog unit := fun o s =>
  match o (s_tick s) with
  | None => (Done tt, set_file fn text (next s))
  | Some (FRaise e, k) => (Raised e, set_file fn (firstn k text) (next s))
  | Some (FKill, k) => (Killed, set_file fn (firstn k text) (next s))
  end.

(** the directories above a path, outermost first ([Path.parent] and its parents);
    simplification: the path is not normalised *)
Fixpoint above (seen p : str) : list str :=
  match p with
  | [] => []
  | c :: p' => if (c =?= "/"%char) then (match seen with [] => [] | _ => [seen] end) ++ above (seen ++ [c]) p' else above (seen ++ [c]) p'
  end.

(** _write_output_file, main.py:62-71 *)
Definition write_output_file (fn data : str) : prog unit :=
  handle (run _ <- mkdirs (above [] fn); run _ <- open_truncate fn; write fn data)
    (fun e => match e with OSError => Some die | _ => None end).

(** ** The formats *)

(** everything [show] gets besides the memory map and the options *)
Record extras := Extras { x_crt : option crt_table; x_syms : option (list dsym); x_order : set_order; x_pct : pct_format }.

(** [log.die] inside the table functions *)
Definition table_result (t : tres table) : prog table :=
  match t with TOk t => ret t | TDie _ => die end.

(** a computation whose [SystemExit] comes from [log.die] *)
Definition compute_or_die {A} (r : res A) : prog A := match r with Err SystemExit => die | _ => compute r end.

(** format_table.show_diff_info, format_table.py:15-23 *)
Definition show_diff_info (m : memmap) (a : args) : prog unit :=
  if given (a_diff a) then tell (DiffInfo (m_project_path m) (m_project_path_diff m)) else ret tt.

(** the table chosen by format_table.show and format_csv.show (format_table.py:406-423,
    format_csv.py:59-69) *)
Definition table_of (x : extras) (m : memmap) (a : args) : prog table :=
  if a_archives a then table_result (get_archives_table m a)
  else if given (a_archive_details a) then (run t <- compute_or_die (get_symbols_table m a); table_result t)
  else if a_archive_dependencies a then compute_or_die (get_archives_dependencies_table (x_order x) (x_crt x) m (x_syms x) a)
  else if a_files a then table_result (get_object_files_table m a)
  else table_result (get_summary_table (x_pct x) m a).

(** is the report the summary of memory types? *)
Definition is_summary (a : args) : bool :=
  negb (a_archives a) && negb (given (a_archive_details a)) && negb (a_archive_dependencies a) && negb (a_files a).

(** format_table.show, format_table.py:373-423 *)
Definition table_show (x : extras) (m : memmap) (a : args) : prog unit :=
  run _ <- (if negb (a_archives a) && negb (given (a_archive_details a)) && a_archive_dependencies a then ret tt else show_diff_info m a);
  run t <- table_of x m a;
  run _ <- print (PTable t);
  if is_summary a then (run _ <- tell (ImageInfo (m_image_size m) (m_image_size_diff m)); tell SizeNote) else ret tt.

(** format_csv.show, format_csv.py:12-69 *)
Definition csv_show (x : extras) (m : memmap) (a : args) : prog unit :=
  run t <- table_of x m a; print_all (map PLine (csv_lines t)).

(** format_json.show, format_json.py:11-75 *)
Definition json_show (x : extras) (m : memmap) (a : args) : prog unit :=
  if a_archives a then print (PEntries (get_summary_sorted (get_archives_summary m a) a))
  else if given (a_archive_details a) then
    (run s <- compute_or_die (get_symbols_summary m a); print (PEntries (get_summary_sorted s a)))
  else if a_archive_dependencies a then
    (run d <- compute_or_die (get_archives_dependencies (x_order x) (x_crt x) m (x_syms x) a); print (PDeps d))
  else if a_files a then print (PEntries (get_summary_sorted (get_object_files_summary m a) a))
  else print (PJson (json_summary m a)).

(** format_raw.show, format_raw.py:11-16 *)
Definition raw_show (x : extras) (m : memmap) (a : args) : prog unit :=
  if a_archive_dependencies a then
    (run d <- compute_or_die (get_archives_dependencies (x_order x) (x_crt x) m (x_syms x) a); print (PDeps d))
  else print (PRaw m).

(** format_tree.show, format_tree.py:80-85 *)
Definition tree_show (x : extras) (m : memmap) (a : args) : prog unit :=
  if a_archive_dependencies a then
    (run d <- compute_or_die (get_archives_dependencies (x_order x) (x_crt x) m (x_syms x) a); print (PTree (tree_dependencies a d)))
  else print (PTree (tree_lines m a)).

(** format_dot.show, format_dot.py:53-57 *)
Definition dot_show_prog (x : extras) (m : memmap) (a : args) : prog unit :=
  run l <- compute_or_die (dot_show (x_order x) (x_crt x) m (x_syms x) a); print (PDot l).

(** main.py:141-152 *)
Definition show (x : extras) (m : memmap) (a : args) : prog unit :=
  match a_format a with
  | FTable | FText => table_show x m a
  | FJson2 => json_show x m a
  | FRaw => raw_show x m a
  | FCsv => csv_show x m a
  | FTree => tree_show x m a
  | FDot => dot_show_prog x m a
  end.

(** ** _run, main.py:74-162 *)

(** the files of a project as read through the path of its map file; [p_syms] are the ELF
    symbols as deps.py sees them *)
Record project := Project { p_world : world; p_crt : option crt_table; p_syms : list dsym }.

(** the command line *)
Record cmd := Cmd { c_args : args; c_input : str; c_quiet : bool; c_no_color : bool; c_force_terminal : option bool }.

Definition set_no_abbrev (b : bool) (a : args) : args :=
  Args (a_format a) (a_archives a) (a_archive_dependencies a) (a_dep_symbols a) (a_dep_reverse a) (a_archive_details a) (a_files a)
    (a_diff a) b (a_abbrev a) (a_unify a) (a_show_unused a) (a_show_unchanged a) (a_use_flash_size a) (a_use_dwarf a)
    (a_output_file a) (a_sort a) (a_filter a) (a_sort_diff a) (a_sort_reverse a).
Definition set_abbrev (b : bool) (a : args) : args :=
  Args (a_format a) (a_archives a) (a_archive_dependencies a) (a_dep_symbols a) (a_dep_reverse a) (a_archive_details a) (a_files a)
    (a_diff a) (a_no_abbrev a) b (a_unify a) (a_show_unused a) (a_show_unchanged a) (a_use_flash_size a) (a_use_dwarf a)
    (a_output_file a) (a_sort a) (a_filter a) (a_sort_diff a) (a_sort_reverse a).
Definition set_diff (d : option str) (a : args) : args :=
  Args (a_format a) (a_archives a) (a_archive_dependencies a) (a_dep_symbols a) (a_dep_reverse a) (a_archive_details a) (a_files a)
    d (a_no_abbrev a) (a_abbrev a) (a_unify a) (a_show_unused a) (a_show_unchanged a) (a_use_flash_size a) (a_use_dwarf a)
    (a_output_file a) (a_sort a) (a_filter a) (a_sort_diff a) (a_sort_reverse a).
Definition set_use_dwarf (d : option bool) (a : args) : args :=
  Args (a_format a) (a_archives a) (a_archive_dependencies a) (a_dep_symbols a) (a_dep_reverse a) (a_archive_details a) (a_files a)
    (a_diff a) (a_no_abbrev a) (a_abbrev a) (a_unify a) (a_show_unused a) (a_show_unchanged a) (a_use_flash_size a) d
    (a_output_file a) (a_sort a) (a_filter a) (a_sort_diff a) (a_sort_reverse a).

Definition is_raw (f : format) : bool := match f with FRaw => true | _ => false end.

(** main.py:99-110 *)
Definition normalise (a : args) : prog args :=
  run a <- (if a_no_abbrev a && a_unify a then (run _ <- tell WarnNoAbbrev; ret (set_no_abbrev false a)) else ret a);
  run a <- (if a_archive_dependencies a && given (a_diff a) then (run _ <- tell WarnDiff; ret (set_diff None a)) else ret a);
  ret (set_abbrev (negb (a_no_abbrev a)) a).

(** main.py:112 *)
Definition load_symbols (a : args) : bool := given (a_archive_details a) || is_raw (a_format a).

(** main.py:114-116; None is passed through *)
Definition dwarf_option (a : args) : option bool :=
  match a_use_dwarf a with
  | Some true => Some (given (a_archive_details a) || a_archives a || a_files a || is_raw (a_format a))
  | d => d
  end.

(** main.py:121-124 *)
Definition prepare (a : args) (m : memmap) : memmap :=
  let m := if a_show_unused a then m else remove_unused m in
  if a_use_flash_size a then m else ignore_flash_size m.

(** main.py:125-136: note that line 130 changes [memmap], not [memmap_ref] *)
Definition compare (ls : bool) (projects : str -> project) (a : args) (m : memmap) : prog memmap :=
  match a_diff a with
  | Some (c :: d) =>
    run (r, _) <- compute (get (p_world (projects (c :: d))) ls (a_use_dwarf a) None None);
    let r := if a_show_unused a then r else remove_unused r in
    let m := if a_use_flash_size a then m else ignore_flash_size m in
    let m := diff m r in
    run _ <- (if m_target m =?= m_target_diff m then ret tt else tell (WarnTarget (m_target m) (m_target_diff m)));
    ret m
  | _ => ret m
  end.

(** main.py:118-139: the memory map handed to the format, and the extras *)
Definition analyse (ls : bool) (ord : set_order) (pf : pct_format) (projects : str -> project) (input : str) (a : args)
  : prog (extras * memmap) :=
  let p := projects input in
  run mf <- compute (w_mapfile (p_world p));
  run e <- compute (w_elf (p_world p));
  run (m, _) <- compute (get (p_world p) ls (a_use_dwarf a) (Some mf) e);
  run m <- compare ls projects a (prepare a m);
  let m := if a_unify a then unify m else m in
  ret (Extras (p_crt p) (match e with Some _ => Some (p_syms p) | None => None end) ord pf, m).

(** main.py:82-97 *)
Definition console_of (c : cmd) : console :=
  let out := given (a_output_file (c_args c)) in
  Console out (c_no_color c) (if out then Some false else c_force_terminal c) (c_quiet c).

(** main.py:82-152: everything that produces the report; [ls] decides whether symbols are
    loaded (main.py:112: [load_symbols]) *)
Definition report (ls : args -> bool) (ord : set_order) (pf : pct_format) (projects : str -> project) (c : cmd) : prog unit :=
  run _ <- set_console (console_of c);
  run a <- normalise (c_args c);
  let a := set_use_dwarf (dwarf_option a) a in
  run (x, m) <- analyse (ls a) ord pf projects (c_input c) a;
  show x m a.

Section Run.
  (** text made by the console from the printed values (rich), and its encoding for the file *)
  Variable render : console -> list piece -> str.
  Variable encode : str -> str.

  (** main.py:153-157 *)
  Definition finish (c : cmd) : prog unit :=
    match a_output_file (c_args c) with
    | Some (h :: fn) => fun o s => write_output_file (h :: fn) (encode (render (s_console s) (s_printed s))) o s
    | _ => ret tt
    end.

  (** main.py:158-161 *)
  Definition on_exception (e : exn) : option (prog unit) :=
    match e with
    | MemMapException | MapFileException => Some die
    | KeyboardInterrupt => Some (compute (Err SystemExit))
    | _ => None
    end.

  Definition run_with (ls : args -> bool) (ord : set_order) (pf : pct_format) (projects : str -> project) (c : cmd) : prog unit :=
    handle (run _ <- report ls ord pf projects c; finish c) on_exception.

  (** main.py:74-162 *)
  Definition run_cmd := run_with load_symbols.
End Run.

(** state in which the program is started *)
Definition start (files : dict str str) : state := State 0 files [] (Console false false None false) [] [].
