(** * Specification vocabulary: from the files of a project to its report *)
From Coq Require Import Ascii String List ZArith Bool.
From Verif Require Import Base MemMap SpecTree Pipeline SpecPipe SpecBuild SpecBytes MapFile SpecMap ElfRead SpecElf Project SpecProject.
Import ListNotations.
Open Scope list_scope.
Open Scope Z_scope.

(** ** what the map file prints *)
Definition item_section (i : item) : isection :=
  ISection (it_name i) (it_addr i) (it_size i) (pads_size (it_pads i)) (it_archive i) (it_object i) [].
Definition printed_section (o : printed) : osection := OSection (pr_name o) (pr_addr o) (pr_size o) (map item_section (pr_items o)).
Definition items_in (o : printed) : Prop :=
  Forall (fun i => pr_addr o <= it_addr i /\ it_addr i + it_size i <= pr_addr o + pr_size o) (pr_items o).

(** ** the ELF file: the section headers with their names *)
Definition named_headers (file : bytes) (l : list (str * xshdr)) : Prop :=
  exists is64 big h phs t, elf_image is64 big file h phs (map snd l) /\
    nth_error (map snd l) (Z.to_nat (e_shstrndx h)) = Some t /\
    Forall (fun nh => plain (fst nh) /\ string_at file t (x_name (snd nh)) (fst nh)) l.

(** the ELF file that goes with the map file: none, or one with these headers *)
Inductive image_of (d : disk) (dir name : str) : option (list (str * xshdr)) -> Prop :=
| image_undescribed : undescribed d dir name -> image_of d dir name None
| image_missing : forall o app fn, description d dir = Some (JObj o) -> describes_map o name app -> located dir app fn ->
    d_isfile d fn = false -> image_of d dir name None
| image_unreadable : forall o app fn, description d dir = Some (JObj o) -> describes_map o name app -> located dir app fn ->
    d_bytes d fn = None -> image_of d dir name None
| image_file : forall o app fn file l, description d dir = Some (JObj o) -> describes_map o name app -> located dir app fn ->
    d_isfile d fn = true -> d_bytes d fn = Some file -> named_headers file l -> image_of d dir name (Some l).

(** sections of the ELF file that have bytes in memory *)
Definition loaded (l : option (list (str * xshdr))) (n : str) : Prop :=
  exists hs h, l = Some hs /\ In (n, h) hs /\ x_size h <> 0 /\ Z.land (x_flags h) 2 <> 0.
(** the output sections that count *)
Definition counted (l : option (list (str * xshdr))) (o : printed) : Prop :=
  pr_size o <> 0 /\ ~ gap_section (pr_name o) /\
  ((exists n, loaded l n) -> loaded l (pr_name o)) /\ (~ (exists n, loaded l n) -> code_or_data (pr_name o)).

(** DWARF information is not asked for *)
Definition no_dwarf (d : disk) (dir : str) (use_dwarf : option bool) : Prop :=
  use_dwarf = Some false \/
  (use_dwarf = None /\
   (config d dir = None \/ exists o, config d dir = Some (JObj o) /\
      match dget (list_ascii_of_string "COMPILER_LTO_LINKTIME") o with None => True | Some v => v = JBool false end)).
