(** * Specification vocabulary for [get]: kept sections, image size, symbols *)
From Coq Require Import Ascii String List ZArith Bool Permutation.
From Verif Require Import Base MemMap SpecTree Pipeline SpecPipe.
Import ListNotations.
Open Scope list_scope.
Open Scope Z_scope.

(** ** Kept sections *)
Definition has_suffix (n : str) (p : string) : Prop := exists pre, n = pre ++ p.
Definition has_substring (n : str) (p : string) : Prop := exists a b, n = a ++ p ++ b.

(** non-empty section that occupies memory at run time *)
Definition allocated (h : shdr) : Prop := sh_size h <> 0 /\ Z.land (sh_flags h) 2 <> 0.
Definition has_headers (e : option elf) : Prop := exists f h, e = Some f /\ In h (elf_shdrs f) /\ allocated h.
Definition in_headers (e : option elf) (n : str) : Prop :=
  exists f h, e = Some f /\ In h (elf_shdrs f) /\ allocated h /\ sh_name h = n.

Definition gap_section (n : str) : Prop :=
  has_suffix n "dummy" \/ has_suffix n "reserved_for_iram" \/ has_suffix n "noload".
Definition code_or_data (n : str) : Prop :=
  has_suffix n ".text" \/ has_suffix n ".data" \/ has_suffix n ".bss" \/ has_suffix n ".rodata" \/
  has_suffix n "noinit" \/ has_suffix n ".vectors" \/ has_substring n ".flash" \/ has_substring n ".eh_frame".

Definition kept (e : option elf) (s : osection) : Prop :=
  o_size s <> 0 /\ ~ gap_section (o_name s) /\
  (has_headers e -> in_headers e (o_name s)) /\ (~ has_headers e -> code_or_data (o_name s)).

(** the section without its empty input sections *)
Definition nonempty_isecs (s : osection) : osection :=
  OSection (o_name s) (o_addr s) (o_size s) (filter (fun i => negb (i_size i =? 0)) (o_isecs s)).

(** ** Image size *)
Definition alloc_b (h : shdr) : bool := negb (sh_size h =? 0) && negb (Z.land (sh_flags h) 2 =? 0).
Definition progbits_bytes (f : elf) : Z :=
  zsumf sh_size (filter (fun h => alloc_b h && (sh_type h =? 1)) (elf_shdrs f)).
Definition image_section (n : str) : Prop := ~ has_suffix n ".bss" /\ ~ has_suffix n "noinit".

(** ** Symbols *)

(** ELF symbols that are looked at: functions and objects of non-zero size *)
Definition wanted (y : elfsym) : bool := ((st_type y =? 2) || (st_type y =? 1)) && negb (st_symsize y =? 0).
(** how such a symbol is listed *)
Definition shown (y : elfsym) : symbol :=
  Symbol (if st_type y =? 2 then st_name y ++ "()" else st_name y) (st_value y) (st_symsize y).
Definition sym_inside (i : isection) (y : elfsym) : Prop :=
  i_addr i <= st_value y < i_addr i + i_size i /\ st_value y + st_symsize y <= i_addr i + i_size i.
Definition starts_in (i : isection) (y : elfsym) : Prop := i_addr i <= st_value y < i_addr i + i_size i.

(** same input section apart from the symbols *)
Definition same_isec (i j : isection) : Prop :=
  i_name i = i_name j /\ i_addr i = i_addr j /\ i_size i = i_size j /\ i_fill i = i_fill j /\
  i_archive i = i_archive j /\ i_object i = i_object j.
Definition same_osec (s t : osection) : Prop :=
  o_name s = o_name t /\ o_addr s = o_addr t /\ o_size s = o_size t /\ Forall2 same_isec (o_isecs s) (o_isecs t).

(** input section [i] lists the ELF symbols [g], or nothing or its own name if there
    are none *)
Definition lists (i : isection) (g : list elfsym) : Prop :=
  Forall (sym_inside i) g /\
  (i_symbols i = map shown g \/ (g = [] /\ i_symbols i = [Symbol (i_name i) (i_addr i) (i_size i)])).

Definition all_isecs (l : list osection) : list isection := flat_map o_isecs l.

(** ** Memory map without symbol entries *)
Definition strip_obj (o : obj) : obj := Node (n_abbrev o) (n_size o) (n_diff o) [].
Definition strip_arch (x : arch) : arch := Node (n_abbrev x) (n_size x) (n_diff x) (dmap strip_obj (n_sub x)).
Definition strip_sect (x : sect) : sect := Node (n_abbrev x) (n_size x) (n_diff x) (dmap strip_arch (n_sub x)).
Definition strip_type (t : mtype) : mtype :=
  MType (t_size t) (t_size_diff t) (t_used t) (t_used_diff t) (dmap strip_sect (t_sections t)).
Definition strip_map (m : memmap) : memmap :=
  MemMap (m_target m) (m_target_diff m) (m_image_size m) (m_image_size_diff m) (m_project_path m)
         (m_project_path_diff m) (dmap strip_type (m_types m)).

(** ** Expansion of '(exe)' input sections *)

(** the input section ends where or before some symbol starts, and the symbols
    starting in it end in it *)
Definition covered_by (symbols : dict Z asym) (i : isection) : Prop :=
  0 <= i_size i /\
  (exists a y, In (a, y) symbols /\ i_addr i + i_size i <= a) /\
  (forall a y, In (a, y) symbols -> i_addr i <= a < i_addr i + i_size i ->
     av_value y = a /\ 0 <= av_size y /\ a + av_size y <= i_addr i + i_size i).

(** ** Bytes of an archive in a memory map *)
Definition archive_size (a : str) (s : sect) : Z := match dget a (n_sub s) with Some x => n_size x | None => 0 end.
Definition map_archive_bytes (a : str) (m : memmap) : Z :=
  zsumf (fun kv => zsumf (fun se => archive_size a (snd se)) (t_sections (snd kv))) (m_types m).
Definition total_used (m : memmap) : Z := zsumf (fun kv => t_used (snd kv)) (m_types m).

(** adjacent input sections from [a] to [b] *)
Inductive isec_tiles : Z -> Z -> list isection -> Prop :=
| isec_tiles_nil : forall a, isec_tiles a a []
| isec_tiles_cons : forall p b ps, isec_tiles (i_addr p + i_size p) b ps -> isec_tiles (i_addr p) b (p :: ps).

(** a piece of the input section: either still without archive or the extent of a symbol *)
Definition piece_of (symbols : dict Z asym) (i p : isection) : Prop :=
  (i_archive p = "(exe)" /\ i_name p = i_name i /\ i_object p = i_object i) \/
  (exists a y, In (a, y) symbols /\ i_name p = av_name y /\ i_addr p = a /\ i_size p = av_size y /\
     i_archive p = av_archive y /\ i_object p = av_object y).

(** ** get *)

(** section part with its destination: no memory type is found *)
Definition lost (sd : osection * option (str * bool)) : bool := negb (is_some (snd sd)).

(** whether the debugging information is to be used: as the options say; without one,
    for projects with link time optimisation *)
Definition wants_dwarf (option : option bool) (w : world) (b : bool) : Prop :=
  option = Some b \/ (option = None /\ w_lto w = b).

(** the map file used by [get] *)
Definition map_file_of (w : world) (ma : option mapfile) (mf : mapfile) : Prop :=
  match ma with Some f => f = mf | None => w_mapfile w = Ok mf end.

(** a history of calls on one map file *)
Record call := Call { c_world : world; c_symbols : bool; c_dwarf : option bool; c_elf : option elf }.
Definition do_call (c : call) (mf : mapfile) : res (memmap * mapfile) :=
  get (c_world c) (c_symbols c) (c_dwarf c) (Some mf) (c_elf c).
Inductive history : mapfile -> list call -> mapfile -> Prop :=
| history_nil : forall mf, history mf [] mf
| history_cons : forall mf c m mf1 cs mf2, do_call c mf = Ok (m, mf1) -> history mf1 cs mf2 -> history mf (c :: cs) mf2.

