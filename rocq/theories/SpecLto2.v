(** * Specification vocabulary: a project with link time optimisation and debugging information *)
From Coq Require Import Ascii String List ZArith Bool.
From Verif Require Import Base MemMap SpecTree Pipeline SpecPipe SpecBuild SpecBytes PyStr MapFile SpecMap ElfRead SpecElf Dwarf SpecDwarf SpecDebug Project SpecProject SpecPath SpecShape SpecOwner SpecEnd SpecLto.
Import ListNotations.
Open Scope list_scope.
Open Scope Z_scope.

(** a symbol of the ELF file with the path of its unit: of several symbols with the same address
    the last counts *)
Definition unit_symbol (e : xelf) (secs : list str) (us : list funit) (l : list xsym) (y : usym) : Prop :=
  exists s n r q, last_with (fun s => candidate s /\ x_value s = us_addr y) l s /\ us_size y = x_stsize s /\
    symbol_unit e secs us (us_addr y) (Some n) /\ n <> [] /\ starts n r /\ names n q /\ us_path y = spelled r q.

(** the components that the description lists *)
Definition components_of (o : list (str * json)) (comps : list component) : Prop :=
  exists b info ls, dget (list_ascii_of_string "build_component_info") o = Some (JObj info) /\ dget (list_ascii_of_string "build_dir") o = Some (JStr b) /\
    Forall2 (fun kv l => component_any b (snd kv) l) info ls /\ comps = concat ls.

(** the ELF file [file] of the project, which is described with components [comps] *)
Definition described_elf (d : disk) (dir name : str) (file : bytes) (comps : list component) : Prop :=
  exists o app fn, description d dir = Some (JObj o) /\ describes_map o name app /\ located dir app fn /\ d_isfile d fn = true /\ d_bytes d fn = Some file /\ components_of o comps.
(** it has these headers, these symbols with source files, and is opened as [e] *)
Definition debugged (file : bytes) (hs : list (str * xshdr)) (syms : list usym) : Prop :=
  named_headers file hs /\
  exists is64 big h phs shs ls e secs us, elf_image is64 big file h phs shs /\ Forall2 (symtab_image is64 big file) (filter is_symtab shs) ls /\
    elf_init file = Ok e /\ debug_image e secs us /\ ordinary e secs us /\
    forall y, In y syms <-> unit_symbol e secs us (concat ls) y.
(** the debugging information is to be used *)
Definition with_dwarf (d : disk) (dir : str) (use_dwarf : option bool) : Prop :=
  use_dwarf = Some true \/
  (use_dwarf = None /\ exists o, config d dir = Some (JObj o) /\ dget (list_ascii_of_string "COMPILER_LTO_LINKTIME") o = Some (JBool true)).
(** an output section of the map file that can be taken apart *)
Definition optimised_printed (rs : list region) (types : list chip_type) (comps : list component) (syms : list usym) (o : printed) : Prop :=
  section_mapped rs types (printed_section o) /\ unbroken rs types (printed_section o) /\ items_in o /\
  Forall (fun i => it_archive i = "(exe)" -> followed comps syms (item_section i)) (pr_items o).
