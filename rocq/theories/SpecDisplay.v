(** * Specification vocabulary: options of the console *)
From Coq Require Import Ascii String List.
From Verif Require Import Base MemMap Main SpecMain.
Import ListNotations.
Open Scope list_scope.

(** the same command but for --quiet, --no-color and --force-terminal *)
Definition same_but_display (c c' : cmd) : Prop := c_args c = c_args c' /\ c_input c = c_input c'.

(** the same but for the console and the contents of one file *)
Record alike (out : option str) (s t : state) : Prop := Alike {
  al_tick : s_tick s = s_tick t;
  al_names : map fst (s_files s) = map fst (s_files t);
  al_files : forall fn, out <> Some fn -> dget fn (s_files s) = dget fn (s_files t);
  al_dirs : s_dirs s = s_dirs t;
  al_printed : s_printed s = s_printed t;
  al_notes : s_notes s = s_notes t }.

(** a console with --quiet, which is documented as "Suppress all output.", shows nothing *)
Definition quiet_is_silent (render : console -> list piece -> str) : Prop := forall co l, co_quiet co = true -> render co l = [].

(** the command with --force-terminal changed *)
Definition with_terminal (f : option bool) (c : cmd) : cmd := Cmd (c_args c) (c_input c) (c_quiet c) (c_no_color c) f.
(** the command with --quiet given *)
Definition made_quiet (c : cmd) : cmd := Cmd (c_args c) (c_input c) true (c_no_color c) (c_force_terminal c).
(** what is wanted: the file has the same contents with --quiet *)
Definition quiet_keeps_file (size : cmd -> prog unit) : Prop :=
  forall c fn o files s s', output c fn -> size c o (start files) = (Done tt, s) -> size (made_quiet c) o (start files) = (Done tt, s') ->
  dget fn (s_files s') = dget fn (s_files s).
