(** * Specification vocabulary: usual command lines *)
From Coq Require Import Ascii String List Bool.
From Verif Require Import Base MemMap Main.
Import ListNotations.
Open Scope list_scope.

Local Notation tx := list_ascii_of_string.

(** [esp-idf-size MAP]: the summary as a table, ordered by the first column with numbers, the
    greatest first, nothing hidden by a filter; [esp-idf-size --format json2 -o FILE MAP]: the
    same as JSON in the file *)
Definition summary_args (f : format) (out : option str) : args :=
  Args f false false false false None false None false false false false false false None out (tx "1") None false true.
(** [env]: the variable FORCE_TERMINAL is set *)
Definition summary_cmd (env : bool) (f : format) (out : option str) (path : str) : cmd := Cmd (summary_args f out) path false false (if env then Some true else None).
Definition json_words (fn path : str) : list str := [tx "--format"; tx "json2"; tx "-o"; fn; path].
(** [esp-idf-size --archives --format json2 -o FILE MAP], or with --files *)
Definition entries_args (files : bool) (out : option str) : args :=
  Args FJson2 (negb files) false false false None files None false false false false false false None out (tx "1") None false true.
Definition entries_cmd (env files : bool) (out : option str) (path : str) : cmd := Cmd (entries_args files out) path false false (if env then Some true else None).
Definition entries_words (files : bool) (fn path : str) : list str :=
  [tx (if files then "--files" else "--archives"); tx "--format"; tx "json2"; tx "-o"; fn; path].
