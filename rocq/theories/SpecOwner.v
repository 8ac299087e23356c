(** * Specification vocabulary: the component a source file belongs to *)
From Coq Require Import Ascii String List ZArith Bool.
From Verif Require Import Base MemMap Pipeline PyStr Project SpecProject.
Import ListNotations.
Open Scope list_scope.
Open Scope Z_scope.

(** the file is in the directory or below *)
Definition within (dir file : str) : Prop := exists rest, file = in_dir dir rest.
(** the path only starts with the same characters *)
Definition same_start (dir file : str) : Prop := exists rest, file = dir ++ rest.
(** the innermost directory among those of the components that contains the file *)
Definition innermost (comps : list component) (file : str) (c : component) : Prop :=
  In c comps /\ within (comp_path c) file /\
  forall c', In c' comps -> within (comp_path c') file -> (length (comp_path c') <= length (comp_path c))%nat.

(** an entry of "build_component_info": a component with a library in the build directory,
    or one without *)
Inductive component_entry (build : str) : json -> list component -> Prop :=
| entry_library : forall o dir parts, dget (list_ascii_of_string "file") o = Some (JStr (under build parts)) ->
    dget (list_ascii_of_string "dir") o = Some (JStr dir) -> directory dir -> dir <> [] -> Forall proper parts -> parts <> [] ->
    component_entry build (JObj o) [Component dir (relative_path parts)]
| entry_none : forall o, dget (list_ascii_of_string "file") o = Some (JStr []) -> component_entry build (JObj o) [].
