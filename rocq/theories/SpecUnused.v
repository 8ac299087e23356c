(** * Specification vocabulary: the summary with and without unused memory types *)
From Coq Require Import Ascii String List ZArith Bool.
From Verif Require Import Base MemMap SpecTree SpecOps Filter Pipeline Deps Table SpecTable Formats Main SpecMain SpecCommand SpecReport.
Import ListNotations.
Open Scope list_scope.
Open Scope Z_scope.

(** the command with --show-unused, and with or without --use-flash-size *)
Definition with_unused (c : cmd) (flash : bool) : cmd :=
  let a := c_args c in
  Cmd (Args (a_format a) (a_archives a) (a_archive_dependencies a) (a_dep_symbols a) (a_dep_reverse a) (a_archive_details a) (a_files a)
    (a_diff a) (a_no_abbrev a) (a_abbrev a) (a_unify a) true (a_show_unchanged a) flash (a_use_dwarf a)
    (a_output_file a) (a_sort a) (a_filter a) (a_sort_diff a) (a_sort_reverse a)) (c_input c) (c_quiet c) (c_no_color c) (c_force_terminal c).
(** the size of a memory type is not affected by --use-flash-size *)
Definition size_kept (a : args) (flash : bool) (T : str) : Prop := flash = a_use_flash_size a \/ ~ flash_name T.
(** the summary with unused memory types has those of the other one, with the same used bytes and
    the same sections; the size is the same if the project has bytes there.  The others have no
    bytes, in the project or the reference, and no sections *)
Definition adds_unused (a : args) (flash : bool) (gs gs' : list pgroup) : Prop :=
  (forall g, In g gs -> exists g', In g' gs' /\ pg_type g' = pg_type g /\ pg_used g' = pg_used g /\ (forall x, In x (pg_sections g') <-> In x (pg_sections g)) /\
     (fst (pg_used g) <> 0 -> size_kept a flash (pg_type g) -> fst (pg_total g') = fst (pg_total g))) /\
  (forall g', In g' gs' -> ~ In (pg_type g') (map pg_type gs) -> pg_used g' = (0, 0) /\ pg_sections g' = []).
(** the same of the JSON summary, with the bytes of sections if each has a name of its own *)
Definition adds_unused_json (a : args) (flash : bool) (js js' : jsummary) : Prop :=
  (forall j, In j (js_layout js) -> exists j', In j' (js_layout js') /\ j_name j' = j_name j /\ j_used j' = j_used j /\
     (forall n, In n (map fst (j_parts j')) <-> In n (map fst (j_parts j))) /\
     (a_unify a = true \/ a_no_abbrev a = true -> forall x, In x (j_parts j') <-> In x (j_parts j)) /\
     (j_used j <> 0 -> size_kept a flash (j_name j) -> j_total j' = j_total j /\ j_free j' = j_free j)) /\
  (forall j', In j' (js_layout js') -> ~ In (j_name j') (map j_name (js_layout js)) -> j_used j' = 0 /\ j_parts j' = []).
