(** * Specification vocabulary: --unify adds up rows *)
From Coq Require Import Ascii String List ZArith Bool.
From Verif Require Import Base MemMap Filter Pipeline Deps Table SpecTable Formats Main SpecMain SpecReport SpecAdds.
Import ListNotations.
Open Scope list_scope.
Open Scope Z_scope.

(** the command with or without --unify *)
Definition unify_on (unify : bool) (c : cmd) : cmd :=
  let a := c_args c in
  with_args c (Args (a_format a) (a_archives a) (a_archive_dependencies a) (a_dep_symbols a) (a_dep_reverse a) (a_archive_details a) (a_files a)
    (a_diff a) (a_no_abbrev a) (a_abbrev a) unify (a_show_unused a) (a_show_unchanged a) (a_use_flash_size a) (a_use_dwarf a)
    (a_output_file a) (a_sort a) (a_filter a) (a_sort_diff a) (a_sort_reverse a)).
(** a row with --unify has the sums of the rows with this short name without it *)
Definition grouped (a : args) (plain unified : dict str sentry) : Prop :=
  forall y part, (forall e, part e = true <-> se_abbrev e = y) ->
    let rows := filter (fun kv => part (snd kv)) plain in
    (** the difference of all bytes *)
    (forall e, In (y, e) unified -> se_diff e = zsumf (fun kv => se_diff (snd kv)) rows) /\
    (~ In y (map fst unified) -> zsumf (fun kv => se_diff (snd kv)) rows = 0) /\
    (** every total and every figure of a memory type *)
    (shows_all a ->
       (forall e, In (y, e) unified -> (se_size e, se_diff e) = (zsumf (fun kv => se_size (snd kv)) rows, zsumf (fun kv => se_diff (snd kv)) rows)) /\
       (forall e T, In (y, e) unified -> col_value e (ColType T) =
          (zsumf (fun kv => fst (col_value (snd kv) (ColType T))) rows, zsumf (fun kv => snd (col_value (snd kv) (ColType T))) rows)) /\
       (In y (map fst unified) <-> rows <> [])).
