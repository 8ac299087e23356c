(** * SpecElf2: what an ELF file has to hold to be read *)
From Coq Require Import Ascii String List ZArith Bool.
From Verif Require Import Base ElfRead SpecElf.
Import ListNotations.
Open Scope list_scope.
Open Scope Z_scope.

(** the symbol table section [s] of [file] holds the symbols [l]; an empty one has no place *)
Definition symtab_holds (is64 big : bool) (file : bytes) (s : xshdr) (l : list xsym) : Prop :=
  (x_size s = 0 /\ l = []) \/ symtab_image is64 big file s l.
(** the string table with number [i] holds [n] at [index] *)
Definition name_at (e : xelf) (i index : Z) (n : str) : Prop :=
  exists t, nth_error (xe_shdrs e) (Z.to_nat i) = Some t /\ plain n /\ string_at (xe_file e) t index n.
(** entries of the header tables have the size of the standard *)
Definition standard_entries (is64 : bool) (h : ehdr) : Prop :=
  (e_phnum h <> 0 -> e_phentsize h = phdr_size is64) /\ (e_shnum h <> 0 -> e_shentsize h = shdr_size is64).
Definition sym_size (is64 : bool) : Z := if is64 then 24 else 16.
(** a section that goes beyond the end of the file *)
Definition beyond (file : bytes) (s : xshdr) : Prop := 0 < x_size s /\ blen file < x_offset s + x_size s.
