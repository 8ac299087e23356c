(** * SpecElf: encodings of numbers and ELF structures, written down from the ELF
    and DWARF standards and independently of the reading functions. *)
From Coq Require Import Ascii String List ZArith Bool.
From Verif Require Import Base ElfRead.
Import ListNotations.
Open Scope list_scope.
Open Scope Z_scope.

(** [l] stands in [data] at offset [off] *)
Definition occurs (data : bytes) (off : Z) (l : bytes) : Prop :=
  exists pre post, data = pre ++ l ++ post /\ off = blen pre.

(** ** LEB128 (DWARF 5, section 7.6): seven bits a byte, least significant first,
    the top bit set in all bytes but the last; padding is allowed *)
Inductive uleb_enc : Z -> list Z -> Prop :=
| ue_last b : 0 <= b < 128 -> uleb_enc b [b]
| ue_more b n l : 0 <= b < 128 -> uleb_enc n l -> uleb_enc (b + 128 * n) ((b + 128) :: l).

(** the same with a last byte in two's complement *)
Inductive sleb_enc : Z -> list Z -> Prop :=
| se_last b : 0 <= b < 128 -> sleb_enc (if b <? 64 then b else b - 128) [b]
| se_more b n l : 0 <= b < 128 -> sleb_enc n l -> sleb_enc (b + 128 * n) ((b + 128) :: l).

(** ** Integers of [n] bytes *)
Fixpoint le_enc (n : nat) (v : Z) : list Z :=
  match n with O => [] | S n' => v mod 256 :: le_enc n' (v / 256) end.
Definition int_enc (big : bool) (n : nat) (v : Z) : list Z := if big then rev (le_enc n v) else le_enc n v.

Definition fits (n : Z) (v : Z) : Prop := 0 <= v < 256 ^ n.
Definition fits_signed (n : Z) (v : Z) : Prop := - 256 ^ n <= 2 * v < 256 ^ n.

(** ** ELF structures (System V ABI, chapters 4 and 5).  Byte, Half, Word, and the
    types whose size depends on the class *)
Section Layout.
Variables (is64 big : bool).
Definition half (v : Z) := int_enc big 2 v.
Definition word (v : Z) := int_enc big 4 v.
Definition xword (v : Z) := int_enc big (if is64 then 8 else 4)%nat v.
Definition xfits (v : Z) : Prop := fits (if is64 then 8 else 4) v.

(** ElfN_Ehdr *)
Definition ehdr_bytes (h : ehdr) : list Z :=
  e_ident h ++ half (e_type h) ++ half (e_machine h) ++ word (e_version h) ++ xword (e_entry h) ++
  xword (e_phoff h) ++ xword (e_shoff h) ++ word (e_flags h) ++ half (e_ehsize h) ++ half (e_phentsize h) ++
  half (e_phnum h) ++ half (e_shentsize h) ++ half (e_shnum h) ++ half (e_shstrndx h).
Definition ehdr_ok (h : ehdr) : Prop :=
  (length (e_ident h) = 16%nat /\
   firstn 6 (e_ident h) = [127; 69; 76; 70; if is64 then 2 else 1; if big then 2 else 1]) /\
  fits 2 (e_type h) /\ fits 2 (e_machine h) /\ fits 4 (e_version h) /\ xfits (e_entry h) /\
  xfits (e_phoff h) /\ xfits (e_shoff h) /\ fits 4 (e_flags h) /\ fits 2 (e_ehsize h) /\ fits 2 (e_phentsize h) /\
  fits 2 (e_phnum h) /\ fits 2 (e_shentsize h) /\ fits 2 (e_shnum h) /\ fits 2 (e_shstrndx h).

(** ElfN_Phdr: the flags come second in a 64-bit file and seventh in a 32-bit file *)
Definition phdr_bytes (p : phdr) : list Z :=
  if is64 then
    word (p_type p) ++ word (p_flags p) ++ xword (p_offset p) ++ xword (p_vaddr p) ++ xword (p_paddr p) ++
    xword (p_filesz p) ++ xword (p_memsz p) ++ xword (p_align p)
  else
    word (p_type p) ++ word (p_offset p) ++ word (p_vaddr p) ++ word (p_paddr p) ++ word (p_filesz p) ++
    word (p_memsz p) ++ word (p_flags p) ++ word (p_align p).
Definition phdr_ok (p : phdr) : Prop :=
  fits 4 (p_type p) /\ fits 4 (p_flags p) /\ xfits (p_offset p) /\ xfits (p_vaddr p) /\ xfits (p_paddr p) /\
  xfits (p_filesz p) /\ xfits (p_memsz p) /\ xfits (p_align p).
Definition phdr_size : Z := if is64 then 56 else 32.

(** ElfN_Shdr *)
Definition shdr_bytes (s : xshdr) : list Z :=
  word (x_name s) ++ word (x_type s) ++ xword (x_flags s) ++ xword (x_addr s) ++ xword (x_offset s) ++
  xword (x_size s) ++ word (x_link s) ++ word (x_info s) ++ xword (x_addralign s) ++ xword (x_entsize s).
Definition shdr_ok (s : xshdr) : Prop :=
  fits 4 (x_name s) /\ fits 4 (x_type s) /\ xfits (x_flags s) /\ xfits (x_addr s) /\ xfits (x_offset s) /\
  xfits (x_size s) /\ fits 4 (x_link s) /\ fits 4 (x_info s) /\ xfits (x_addralign s) /\ xfits (x_entsize s).
Definition shdr_size : Z := if is64 then 64 else 40.

(** ElfN_Sym *)
Definition sym_bytes (y : xsym) : list Z :=
  if is64 then
    word (x_stname y) ++ [x_stinfo y] ++ [x_stother y] ++ half (x_shndx y) ++ xword (x_value y) ++ xword (x_stsize y)
  else
    word (x_stname y) ++ xword (x_value y) ++ xword (x_stsize y) ++ [x_stinfo y] ++ [x_stother y] ++ half (x_shndx y).
Definition sym_ok (y : xsym) : Prop :=
  fits 4 (x_stname y) /\ fits 1 (x_stinfo y) /\ fits 1 (x_stother y) /\ fits 2 (x_shndx y) /\
  xfits (x_value y) /\ xfits (x_stsize y).

(** [file] is an ELF file of this class and byte order with these headers, whose
    header tables have entries of the standard size *)
Record elf_file (file : bytes) (h : ehdr) (phs : list phdr) (shs : list xshdr) : Prop := {
  im_ehdr_ok : ehdr_ok h;
  im_ehdr : occurs file 0 (ehdr_bytes h);
  im_phnum : e_phnum h = Z.of_nat (length phs);
  im_phentsize : phs <> [] -> e_phentsize h = phdr_size;
  im_phdrs_ok : Forall phdr_ok phs;
  im_phdrs : phs <> [] -> occurs file (e_phoff h) (flat_map phdr_bytes phs);
  im_shnum : e_shnum h = Z.of_nat (length shs);
  im_shentsize : shs <> [] -> e_shentsize h = shdr_size;
  im_shdrs_ok : Forall shdr_ok shs;
  im_shdrs : shs <> [] -> occurs file (e_shoff h) (flat_map shdr_bytes shs) }.
(** the same, and it has at least 76 bytes: every file with a header table behind the ELF header
    has, see C120 *)
Record elf_image (file : bytes) (h : ehdr) (phs : list phdr) (shs : list xshdr) : Prop := {
  im_file :> elf_file file h phs shs;
  im_room : 76 <= blen file }.

(** the symbol table section [s] of [file] holds the symbols [l] *)
Record symtab_image (file : bytes) (s : xshdr) (l : list xsym) : Prop := {
  st_data : occurs file (x_offset s) (flat_map sym_bytes l);
  st_len : x_size s = blen (flat_map sym_bytes l);
  st_syms : Forall sym_ok l;
  st_link : Forall (fun y => x_strndx y = x_link s) l }.
End Layout.

(** the symbol tables of a file are its sections of type SHT_SYMTAB (2) and SHT_DYNSYM (11) *)
Definition is_symtab (s : xshdr) : bool := (x_type s =? 2) || (x_type s =? 11).

(** UTF-8 (RFC 3629): the encodings of Unicode scalar values one after the other *)
Definition scalar (c : Z) : Prop := 0 <= c < 55296 \/ 57344 <= c < 1114112.
Definition utf8_char (c : Z) : list Z :=
  if c <? 128 then [c]
  else if c <? 2048 then [192 + c / 64; 128 + c mod 64]
  else if c <? 65536 then [224 + c / 4096; 128 + c / 64 mod 64; 128 + c mod 64]
  else [240 + c / 262144; 128 + c / 4096 mod 64; 128 + c / 64 mod 64; 128 + c mod 64].
Definition utf8 (l : list Z) : Prop := exists cs, Forall scalar cs /\ l = flat_map utf8_char cs.

(** the bytes of a string; a string that can stand in a string table *)
Definition text (s : str) : list Z := map (fun c => Z.of_nat (nat_of_ascii c)) s.
Definition plain (s : str) : Prop := Forall (fun b => b <> 0) (text s) /\ utf8 (text s).

(** the string table section [t] of [file] holds the zero-terminated string [s] at [index] *)
Definition string_at (file : bytes) (t : xshdr) (index : Z) (s : str) : Prop :=
  exists data, occurs file (x_offset t) data /\ x_size t = blen data /\ occurs data index (text s ++ [0]).

Definition is_bytes (l : list Z) : Prop := Forall (fun b => 0 <= b < 256) l.
