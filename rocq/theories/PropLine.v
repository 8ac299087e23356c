(** * C110, C111: the command line *)
From Coq Require Import Ascii String List ZArith Lia Bool.
From Verif Require Import Base MemMap Pipeline PyStr Deps Table Project Main Command CommandLine SpecLetters SpecMain SpecLine
  ProofLine1 ProofLine2 ProofLine3 Fixtures Chips FixMain FixProject PropProject.
Import ListNotations.
Open Scope list_scope.
Local Notation tx := list_ascii_of_string.

(** ** C110 *)

(** a command line that is written as documented is understood as documented *)
Theorem c110_understood : forall env ws l, says ws l -> understood env l (parse_command_line env ws).
Proof. exact parse_says. Qed.
Print Assumptions c110_understood.

(** any other command line is refused *)
Theorem c110_nothing_else : forall env ws, parse_command_line env ws <> AskNonsense -> exists l, says ws l.
Proof. exact parse_said. Qed.
Print Assumptions c110_nothing_else.

(** esp-idf-size --format CSV -dqs-1 app.map -F 'lib*' --filter=a=b --no-lto --lto *)
Definition lx_words : list str := map tx ["--format"; "CSV"; "-dqs-1"; "app.map"; "-F"; "lib*"; "--filter=a=b"; "--no-lto"; "--lto"]%string.
Definition lx_items : list item :=
  [Set_ Format (tx "CSV"); Switch Debug; Switch Quiet; Set_ Sort (tx "-1"); File (tx "app.map"); Set_ Filter (tx "lib*"); Set_ Filter (tx "a=b"); Switch NoLto; Switch Lto].
Lemma lx_says : says lx_words lx_items.
Proof.
  apply (says_setting Format "--format"); [cbn; auto|].
  apply (says_letters (tx "dqs-1") [Switch Debug; Switch Quiet; Set_ Sort (tx "-1")]); [discriminate|repeat constructor; discriminate|].
  apply says_file; [left; discriminate|].
  apply (says_letters_value (tx "F") []); [repeat constructor|].
  apply (says_equals Filter "--filter" (tx "a=b")); [cbn; auto|].
  apply (says_switch NoLto "--no-lto"); [cbn; auto|]. apply (says_switch Lto "--lto"); [cbn; auto|]. constructor.
Qed.
Example c110_example : says lx_words lx_items /\
  exists c, parse_command_line false lx_words = AskRun c /\ a_format (c_args c) = FCsv /\ a_sort (c_args c) = tx "-1" /\
    a_filter (c_args c) = Some [tx "lib*"; tx "a=b"] /\ a_use_dwarf (c_args c) = Some true /\ c_quiet c = true /\ a_sort_reverse (c_args c) = true /\ c_input c = tx "app.map".
Proof. split; [exact lx_says|]. eexists. split; [vm_compute; reflexivity|]. vm_compute. repeat split. Qed.
(** an unknown option, no file, two files, a missing value, an unknown format, a value for a switch; help in between *)
Example c110_refused_example :
  Forall (fun ws => parse_command_line false (map tx ws) = AskNonsense)
    [["--sizes"; "a.map"]; []; ["a.map"; "b.map"]; ["a.map"; "--sort"]; ["a.map"; "--format"; "xml"]; ["a.map"; "--files=1"]; ["a.map"; "-x"]]%string /\
  parse_command_line false (map tx ["a.map"; "b.map"; "--help"; "--doc"]%string) = AskHelp.
Proof. split; [repeat constructor|reflexivity]. Qed.

(** ** C111 *)

(** the order of the options does not matter, except among values of one option, --lto and
    --no-lto, and --help and --doc *)
Theorem c111_order : forall env ws wt l m, says ws l -> says wt m -> reordered l m -> parse_command_line env ws = parse_command_line env wt.
Proof. exact parse_reordered. Qed.
Print Assumptions c111_order.

Example c111_order_example : says (map tx ["a.map"; "--files"; "-s"; "2"]%string) [File (tx "a.map"); Switch Files; Set_ Sort (tx "2")] /\
  says (map tx ["--files"; "--sort=2"; "a.map"]%string) [Switch Files; Set_ Sort (tx "2"); File (tx "a.map")] /\
  reordered [File (tx "a.map"); Switch Files; Set_ Sort (tx "2")] [Switch Files; Set_ Sort (tx "2"); File (tx "a.map")].
Proof.
  split; [|split].
  - apply says_file; [left; discriminate|]. apply (says_switch Files "--files"); [cbn; auto|]. apply (says_letters_value (tx "s") []); repeat constructor.
  - apply (says_switch Files "--files"); [cbn; auto|]. apply (says_equals Sort "--sort" (tx "2")); [cbn; auto|]. apply says_file; [left; discriminate|constructor].
  - apply (reordered_swap [] _ _ [Set_ Sort (tx "2")]); [exact I|]. apply (reordered_swap [Switch Files] _ _ []); [exact I|]. constructor.
Qed.

(** whatever the words and whatever happens, no file changes except the last one named with
    -o or --output-file *)
Theorem c111_files : forall d chips render encode ord pf env ws l o s r s', says ws l ->
  main_words d chips render encode ord pf env ws o s = (r, s') ->
  forall fn, last_value OutputFile l <> Some fn -> dget fn (s_files s') = dget fn (s_files s).
Proof. exact words_files. Qed.
Print Assumptions c111_files.

(** a command line that is refused or asks for help leaves everything as it is *)
Theorem c111_refused : forall d chips render encode ord pf env ws o s r s', (forall c, parse_command_line env ws <> AskRun c) ->
  main_words d chips render encode ord pf env ws o s = (r, s') ->
  r <> Done tt /\ s_files s' = s_files s /\ s_dirs s' = s_dirs s /\ s_printed s' = s_printed s /\ s_notes s' = s_notes s.
Proof. exact words_silent. Qed.
Print Assumptions c111_refused.

Example c111_refused_example : forall c, parse_command_line false (map tx ["a.map"; "-o"; "out"; "--sizes"]%string) <> AskRun c.
Proof. vm_compute. discriminate. Qed.

(** the JSON report of a project goes to the named file and nowhere else *)
Definition lx_report : list str := map tx ["/home/me/app/build/app.map"; "--format=json2"; "-o"; "old.txt"; "--output-file"; "out.txt"]%string.
Example c111_files_example : says lx_report [File (tx "/home/me/app/build/app.map"); Set_ Format (tx "json2"); Set_ OutputFile (tx "old.txt"); Set_ OutputFile (tx "out.txt")] /\
  exists s, main_words disk1 (get_memory_types chip_info) mx_render mx_encode mx_order mx_pct false lx_report no_faults (start [(tx "old.txt", tx "old")]) = (Done tt, s) /\
    s_files s = [(tx "old.txt", tx "old"); (tx "out.txt", tx "report 1")].
Proof.
  split.
  - apply says_file; [left; discriminate|]. apply (says_equals Format "--format" (tx "json2")); [cbn; auto|]. apply (says_letters_value (tx "o") []); [repeat constructor|].
    apply (says_setting OutputFile "--output-file"); [cbn; auto|constructor].
  - eexists. split; [vm_compute; reflexivity|]. reflexivity.
Qed.
