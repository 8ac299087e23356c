(** * Specification vocabulary: projects that cannot be reported, and those that always are *)
From Coq Require Import Ascii String List ZArith Bool.
From Verif Require Import Base MemMap SpecTree Filter Pipeline SpecPipe PyStr MapFile SpecMap ElfRead Project SpecProject SpecEnd Chips Deps Table SpecTable Formats Main SpecMain SpecCommand.
Import ListNotations.
Open Scope list_scope.
Open Scope Z_scope.

(** ** a failure that is reported to the user: a message and SystemExit; nothing is printed and
    no file is changed *)
Definition diagnosed (s : state) (r : result unit * state) : Prop :=
  fst r = Raised SystemExit /\ s_printed (snd r) = s_printed s /\ s_files (snd r) = s_files s /\ s_dirs (snd r) = s_dirs s /\
  exists l, s_notes (snd r) = s_notes s ++ l ++ [Died] /\ ~ In Died l.

(** the map file cannot be opened, is not text, or [MapFile] rejects it *)
Definition unreadable_map (d : disk) (fn : str) : Prop :=
  d_text d fn = None \/ exists text, d_text d fn = Some text /\ map_text text = Err MapFileException.
(** a text that lacks the table of memory regions *)
Definition starts_with (p s : str) : Prop := exists r, s = p ++ r.
Definition no_regions_table (text : str) : Prop :=
  (forall s, In s (splitlines text) -> ~ starts_with "Memory Configuration" s) \/
  (forall s, In s (splitlines text) -> ~ starts_with "Name" s).

(** the target the description of this executable gives; none without a description *)
Inductive described_target (d : disk) (dir name : str) : str -> Prop :=
| target_none : undescribed d dir name -> described_target d dir name []
| target_given : forall o app t, description d dir = Some (JObj o) -> describes_map o name app ->
    dget (list_ascii_of_string "target") o = Some (JStr t) -> described_target d dir name t.
(** the settings are absent or an object *)
Definition proper_config (d : disk) (dir : str) : Prop :=
  config d dir = None \/ config d dir = Some JNull \/ exists o, config d dir = Some (JObj o).

(** a project with a map the linker printed, [t] is its target: [] if that is not known *)
Record linked (d : disk) (dir name text : str) (rs : list region) (l : list printed) (crt : option (list SpecMap.entry))
    (im : option (list (str * xshdr))) (t : str) : Prop := {
  lk_dir : directory dir;
  lk_name : proper name;
  lk_text : d_text d (in_dir dir name) = Some text;
  lk_map : printed_map rs l crt (splitlines text);
  lk_regular : Forall regular l;
  lk_image : image_of d dir name im;
  lk_target : exists t1, described_target d dir name t1 /\ (t1 <> [] /\ t = t1 \/ t1 = [] /\ exists pm, map_text text = Ok pm /\ t = pm_target pm) }.

(** the report does not need symbols, debugging information or the cross reference table *)
Definition plain_report (a : args) : Prop :=
  given (a_archive_details a) = false /\ a_format a <> FRaw /\ a_format a <> FDot /\ a_archive_dependencies a = false.
(** nothing that needs debugging information is asked for *)
Definition without_dwarf (d : disk) (dir : str) (a : args) : Prop :=
  match a_use_dwarf a with
  | Some true => a_archives a = false /\ a_files a = false
  | u => no_dwarf d dir u
  end.

(** every address of the memory regions that count is in memory of the chip *)
Definition regions_mapped (rs : list region) (types : list chip_type) : Prop :=
  forall r a, In r rs -> r_name r <> "*default*" -> r_origin r <= a < r_origin r + r_length r -> covered types a.

(** the column to sort by exists: any column of the summary, the total size in other tables *)
Definition sortable (a : args) : Prop :=
  a_format a = FJson2 \/ a_format a = FTree \/
  (of_types a /\ exists i, names_column usage_headers (a_sort a) i) \/
  (~ of_types a /\ names_column (map list_ascii_of_string ["Name"; "Total Size"]%string) (a_sort a) 1).

(** no chip description for the target *)
Definition unknown_chip (t : str) : Prop := chip_info (t ++ list_ascii_of_string ".yaml") = None.
(** a project whose memory regions are those of its chip *)
Definition on_chip (rs : list region) (t : str) : Prop := exists types, get_memory_types chip_info t = Ok types /\ regions_mapped rs types.

(** a project that can be compared with: the reference *)
Definition comparable (d : disk) (a : args) : Prop := given (a_diff a) = false \/
  exists dir name text rs l crt im t, a_diff a = Some (in_dir dir name) /\ linked d dir name text rs l crt im t /\ without_dwarf d dir a /\ on_chip rs t.
(** a reference that cannot be used *)
Definition bad_reference (d : disk) (a : args) : Prop :=
  exists dir name, directory dir /\ proper name /\ a_diff a = Some (in_dir dir name) /\
    ((unreadable_map d (in_dir dir name) /\ (exists t, described_target d dir name t) /\ (a_use_dwarf a = None -> proper_config d dir)) \/
     exists text rs l crt im t, linked d dir name text rs l crt im t /\ without_dwarf d dir a /\ unknown_chip t).

(** the file system without a file *)
Definition without_file (d : disk) (fn : str) : disk :=
  Disk (d_cwd d) (d_text d) (d_json d) (fun f => if f =?= fn then false else d_isfile d f) (d_bytes d).
