(** * SpecDesc: project descriptions that lack something *)
From Coq Require Import Ascii String List ZArith Bool.
From Verif Require Import Base MemMap Filter Pipeline PyStr MapFile SpecMap ElfRead SpecElf Deps Table Formats Main Project SpecProject SpecPath.
Import ListNotations.
Open Scope list_scope.
Open Scope Z_scope.

Definition lacks (o : dict str json) (k : string) : Prop := ~ In (list_ascii_of_string k) (map fst o).
(** the entry of a component without its library, or with one but without its directory *)
Definition incomplete_component (j : json) : Prop :=
  exists o, j = JObj o /\ (lacks o "file" \/ (exists fn, entry_file j fn /\ fn <> [] /\ lacks o "dir")).
(** a description in which something on the components is missing; the entries before the
    incomplete one are complete *)
Inductive incomplete_components (o : dict str json) : Prop :=
| no_info : lacks o "build_component_info" -> incomplete_components o
| no_build_dir : forall info, dget (list_ascii_of_string "build_component_info") o = Some (JObj info) -> lacks o "build_dir" -> incomplete_components o
| no_entry : forall info1 kv info2 b ls, dget (list_ascii_of_string "build_component_info") o = Some (JObj (info1 ++ kv :: info2)) ->
    dget (list_ascii_of_string "build_dir") o = Some (JStr b) -> Forall2 (fun kv l => component_any b (snd kv) l) info1 ls ->
    incomplete_component (snd kv) -> incomplete_components o.
(** the configuration, if it is looked at, is one *)
Definition config_ok (d : disk) (dir : str) (use_dwarf : option bool) : Prop :=
  use_dwarf <> None \/ config d dir = None \/ exists c, config d dir = Some (JObj c).
(** the exception [x] ends the command: there is no report, no error message, and no file is changed *)
Definition escapes (x : exn) (files : dict str str) (r : result unit * state) : Prop :=
  fst r = Raised x /\ s_printed (snd r) = [] /\ s_files (snd r) = files /\ s_dirs (snd r) = [] /\ ~ In Died (s_notes (snd r)).
