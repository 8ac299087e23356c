(** * Specifications for the command *)
From Coq Require Import Ascii String List ZArith Bool.
From Verif Require Import Base MemMap SpecTree SpecOps SpecTable Filter Pipeline PyStr MapFile Deps Table Formats Main.
From Verif Require Export SpecLetters.
Import ListNotations.
Open Scope list_scope.
Open Scope Z_scope.

(** nothing goes wrong from outside *)
Definition no_faults : oracle := fun _ => None.

Definition set_output (f : option str) (a : args) : args :=
  Args (a_format a) (a_archives a) (a_archive_dependencies a) (a_dep_symbols a) (a_dep_reverse a) (a_archive_details a) (a_files a)
    (a_diff a) (a_no_abbrev a) (a_abbrev a) (a_unify a) (a_show_unused a) (a_show_unchanged a) (a_use_flash_size a) (a_use_dwarf a)
    f (a_sort a) (a_filter a) (a_sort_diff a) (a_sort_reverse a).
Definition with_args (c : cmd) (a : args) : cmd := Cmd a (c_input c) (c_quiet c) (c_no_color c) (c_force_terminal c).
(** the command without --output-file *)
Definition to_stdout (c : cmd) : cmd := with_args c (set_output None (c_args c)).

(** console settings for a report that goes to a file *)
Definition file_console (c : cmd) : console := Console true (c_no_color c) (Some false) (c_quiet c).

(** --output-file is used *)
Definition output (c : cmd) (fn : str) : Prop := a_output_file (c_args c) = Some fn /\ fn <> [].

(** only symbols are below an object file: does the report show them? *)
Definition shows_symbols (a : args) : bool :=
  given (a_archive_details a) ||
  match a_format a with
  | FRaw => true
  | FTree => negb (a_archive_dependencies a) && negb (a_archives a) && negb (a_files a)
  | _ => false
  end.

(** the options after conflicting ones are dropped *)
Definition conflict_abbrev (a : args) : bool := a_no_abbrev a && a_unify a.
Definition conflict_diff (a : args) : bool := a_archive_dependencies a && given (a_diff a).
Definition without_conflicts (a : args) : args :=
  Args (a_format a) (a_archives a) (a_archive_dependencies a) (a_dep_symbols a) (a_dep_reverse a) (a_archive_details a) (a_files a)
    (if conflict_diff a then None else a_diff a)
    (if conflict_abbrev a then false else a_no_abbrev a) (a_abbrev a) (a_unify a) (a_show_unused a) (a_show_unchanged a) (a_use_flash_size a) (a_use_dwarf a)
    (a_output_file a) (a_sort a) (a_filter a) (a_sort_diff a) (a_sort_reverse a).
Definition conflict_warnings (a : args) : list note :=
  (if conflict_abbrev a then [WarnNoAbbrev] else []) ++ (if conflict_diff a then [WarnDiff] else []).

(** ** No difference *)

Definition zero_tree (T : mtype) : Prop := t_used_diff T = 0 /\ forall p e, In (p, e) (ents_type T) -> e_diff e = 0.
(** no difference anywhere; the sizes of memory types [t] with [skip t] are not looked at *)
Definition zero_diffs (skip : str -> bool) (m : memmap) : Prop :=
  m_image_size_diff m = 0 /\ m_target_diff m = m_target m /\ m_project_path_diff m = m_project_path m /\
  forall t T, In (t, T) (m_types m) -> zero_tree T /\ (skip t = false -> t_size_diff T = 0).

(** ** Reports without differences *)

Definition zero_sections (d : dict str ssect) : Prop := forall n s, In (n, s) d -> ss_diff s = 0.
Definition zero_entries (d : dict str sentry) : Prop :=
  forall n e, In (n, e) d -> se_diff e = 0 /\ forall t T, In (t, T) (se_types e) -> st_diff T = 0 /\ zero_sections (st_sections T).
(** a cell after the name: empty, a number with the difference 0, or a percentage compared with itself *)
Definition zero_cell (pf : pct_format) (c : str) : Prop :=
  c = [] \/ (exists z, cell_text true (z, 0) c) \/ exists q, c = pf true q (fsub q q).
Definition zero_table (pf : pct_format) (t : table) : Prop := Forall (fun r => Forall (zero_cell pf) (tl r)) (tb_rows t).
(** a line of the tree: the title, a name with a number, or a memory type with two numbers *)
Definition zero_line (l : nat * str) : Prop :=
  fst l = 0%nat \/
  exists name z c, cell_text true (z, 0) c /\
    (snd l = name ++ " "%char :: c \/
     exists z' c', cell_text true (z', 0) c' /\ snd l = name ++ " "%char :: c ++ list_ascii_of_string " / " ++ c').
Definition zero_piece (pf : pct_format) (skip : str -> bool) (p : piece) : Prop :=
  match p with
  | PTable t => zero_table pf t
  | PRaw m => zero_diffs skip m
  | PEntries d => zero_entries d
  | PTree l => Forall zero_line l
  | PJson _ | PDot _ => True
  | PLine _ | PDeps _ => False
  end.
Definition zero_report (pf : pct_format) (skip : str -> bool) (l : list piece) : Prop :=
  (exists t, zero_table pf t /\ l = map PLine (csv_lines t)) \/ Forall (zero_piece pf skip) l.
(** no message about a difference: [WarnTarget], [ImageInfo] *)
Definition zero_note (n : note) : Prop :=
  match n with WarnTarget _ _ => False | ImageInfo _ d => d = 0 | DiffInfo a b => a = b | _ => True end.

(** a directory on the way to a file *)
Definition on_the_way (d fn : str) : Prop := d <> [] /\ exists q, fn = d ++ "/"%char :: q.
(** Ctrl-C at a step *)
Definition interrupt_at (n k : nat) : oracle := fun j => if (j =? n)%nat then Some (FRaise KeyboardInterrupt, k) else None.
