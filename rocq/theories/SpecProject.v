(** * Specification vocabulary: the files of a project *)
From Coq Require Import Ascii String List ZArith Bool.
From Verif Require Import Base MemMap Pipeline PyStr MapFile SpecMap ElfRead SpecElf Project.
Import ListNotations.
Open Scope list_scope.
Open Scope Z_scope.

(** ** paths *)
(** a name that can stand between two slashes *)
Definition proper (p : str) : Prop := p <> [] /\ p <> "." /\ p <> ".." /\ ~ In "/"%char p.
(** [dir/p1/p2/...] *)
Definition under (dir : str) (parts : list str) : str := dir ++ flat_map (fun p => "/"%char :: p) parts.
(** the absolute path of a directory; that of the root directory is empty here *)
Definition directory (dir : str) : Prop := exists parts, Forall proper parts /\ dir = under [] parts.
Definition in_dir (dir : str) (name : str) : str := dir ++ "/"%char :: name.

(** the name of a directory itself *)
Definition shown_dir (dir : str) : str := match dir with [] => "/" | _ => dir end.

(** the last component of a path *)
Definition ends_in (path b : str) : Prop := ~ In "/"%char b /\ (path = b \/ exists dir, path = in_dir dir b).
(** a file name without its extension: a name of dots and a last part has no extension *)
Definition dots (s : str) : Prop := Forall (fun c => c = "."%char) s.
Inductive stem_of : str -> str -> Prop :=
| stem_plain : forall n, ~ In "."%char n -> stem_of n n
| stem_hidden : forall s e, dots s -> ~ In "."%char e -> stem_of (s ++ "."%char :: e) (s ++ "."%char :: e)
| stem_ext : forall s e, ~ dots s -> ~ In "."%char e -> stem_of (s ++ "."%char :: e) s.
Definition rooted (s : str) : Prop := exists r, s = "/"%char :: r.
(** the file a path means, looked up from a directory *)
Definition located (dir path file : str) : Prop := (rooted path /\ file = path) \/ (~ rooted path /\ file = in_dir dir path).

(** ** project_description.json *)
Definition description (d : disk) (dir : str) : option json := d_json d (in_dir dir "project_description.json").
Definition config (d : disk) (dir : str) : option json := d_json d (in_dir dir "config/sdkconfig.json").
(** it describes the executable of this map file *)
Definition describes_map (o : dict str json) (name app : str) : Prop :=
  dget (list_ascii_of_string "app_elf") o = Some (JStr app) /\
  exists b st, ends_in app b /\ stem_of b st /\ stem_of name st.

(** two file systems in which a map file of this name and what belongs to it are the same *)
Record same_files (d : disk) (dir : str) (d' : disk) (dir' : str) (name : str) (use_dwarf : option bool) : Prop := {
  sf_map : d_text d (in_dir dir name) = d_text d' (in_dir dir' name);
  sf_desc : description d dir = description d' dir';
  sf_config : use_dwarf = None -> config d dir = config d' dir';
  sf_elf : forall o app fn fn', description d dir = Some (JObj o) -> describes_map o name app ->
    located dir app fn -> located dir' app fn' ->
    d_isfile d fn = d_isfile d' fn' /\ (d_isfile d fn = true -> d_bytes d fn = d_bytes d' fn') }.

(** no description of this executable *)
Definition undescribed (d : disk) (dir name : str) : Prop :=
  description d dir = None \/ description d dir = Some JNull \/
  exists o app, description d dir = Some (JObj o) /\ dget (list_ascii_of_string "app_elf") o = Some (JStr app) /\ ~ describes_map o name app.

Definition set_path (p : str) (m : memmap) : memmap :=
  MemMap (m_target m) (m_target_diff m) (m_image_size m) (m_image_size_diff m) p (m_project_path_diff m) (m_types m).

(** a relative path: names between slashes *)
Fixpoint relative_path (parts : list str) : str :=
  match parts with [] => [] | [p] => p | p :: l => p ++ "/"%char :: relative_path l end.
