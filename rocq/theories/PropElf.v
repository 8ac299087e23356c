(** * Properties C59 to C65, C73, C74: reading ELF files and debugging information *)
From Coq Require Import Ascii String List ZArith Bool Lia.
From Verif Require Import Base ElfRead Dwarf SpecElf ProofElf1 ProofElf2 SpecDwarf ProofDwarf1 ProofDwarf2 FixElf.
Import ListNotations.
Open Scope list_scope.
Open Scope Z_scope.

(** ** C59 *)

(** the number and the offset after its encoding, padded or not, wherever it stands *)
Theorem c59_uleb128 : forall n l data off, uleb_enc n l -> occurs data off l ->
  get_uleb128 data off = Ok (n, off + blen l).
Proof. exact get_uleb128_enc. Qed.
Print Assumptions c59_uleb128.

(** every natural number has an encoding, and bytes encode at most one number *)
Theorem c59_encodings : (forall n, 0 <= n -> exists l, uleb_enc n l) /\
  (forall l n m, uleb_enc n l -> uleb_enc m l -> n = m).
Proof. exact (conj uleb_exists uleb_enc_fun). Qed.
Print Assumptions c59_encodings.

(** 624485 is the example of the DWARF standard *)
Example c59_example : uleb_enc 624485 [229; 142; 38] /\ occurs [7; 229; 142; 38; 9] 1 [229; 142; 38] /\
  get_uleb128 [7; 229; 142; 38; 9] 1 = Ok (624485, 4).
Proof.
  split; [|split; [exists [7], [9]; auto | reflexivity]].
  apply (ue_more 101 4878 [142; 38]); [lia|]. apply (ue_more 14 38 [38]); [lia|]. constructor. lia.
Qed.

(** ** C60 *)

(** the sign is taken from the byte before the number *)
Theorem c60_signed_refuted : exists n l data off, sleb_enc n l /\ occurs data off l /\
  get_sleb128 data off = Ok (127, off + blen l) /\ n = -1.
Proof.
  exists (-1), [127], [0; 127], 1. split; [exact (se_last 127 ltac:(lia))|].
  split; [exists [0], []; auto | split; reflexivity].
Qed.
Print Assumptions c60_signed_refuted.

(** exactly when the number is right; at offset 0 the byte before is the last byte of the data *)
Theorem c60_signed_partial : forall n l data off b, sleb_enc n l -> occurs data off l -> byte_before data off b ->
  (get_sleb128 data off = Ok (n, off + blen l) <-> (Z.land b 64 <> 0 <-> n < 0)).
Proof. exact get_sleb128_right. Qed.
Print Assumptions c60_signed_partial.

(** what is read otherwise; the length is always right *)
Theorem c60_read_partial : forall n l data off b, sleb_enc n l -> occurs data off l -> byte_before data off b ->
  get_sleb128 data off =
  Ok ((if Z.land b 64 =? 0 then n mod 2 ^ (7 * blen l) else n mod 2 ^ (7 * blen l) - 2 ^ (7 * blen l)),
      off + blen l).
Proof. exact get_sleb128_enc. Qed.
Print Assumptions c60_read_partial.

Theorem c60_encodings_partial : forall n, exists l, sleb_enc n l.
Proof. exact sleb_exists. Qed.
Print Assumptions c60_encodings_partial.

Example c60_example : sleb_enc (-129) [255; 126] /\ occurs [64; 255; 126] 1 [255; 126] /\ byte_before [64; 255; 126] 1 64 /\
  get_sleb128 [64; 255; 126] 1 = Ok (-129, 3) /\ get_sleb128 [63; 255; 126] 1 = Ok (16255, 3).
Proof.
  split; [|split; [exists [64], []; auto | split; [exists [], [255; 126]; auto | split; reflexivity]]].
  apply (se_more 127 (-2) [126]); [lia|]. exact (se_last 126 ltac:(lia)).
Qed.

(** ** C61 *)

Theorem c61_unsigned : forall big n data off v, fits (Z.of_nat n) v -> occurs data off (int_enc big n v) ->
  get_uint big (Z.of_nat n) data off = (v, off + Z.of_nat n).
Proof. exact get_uint_enc. Qed.
Print Assumptions c61_unsigned.

Theorem c61_signed : forall big n data off v, (0 < n)%nat -> fits_signed (Z.of_nat n) v ->
  occurs data off (int_enc big n (v mod 256 ^ Z.of_nat n)) ->
  get_sint big (Z.of_nat n) data off = (v, off + Z.of_nat n).
Proof. exact get_sint_enc. Qed.
Print Assumptions c61_signed.

Example c61_example :
  get_uint false 4 [9; 1; 2; 3; 4; 9] 1 = (67305985, 5) /\ get_uint true 4 [9; 1; 2; 3; 4; 9] 1 = (16909060, 5) /\
  get_sint true 2 [255; 254] 0 = (-2, 2) /\ int_enc true 2 (-2 mod 256 ^ 2) = [255; 254].
Proof. repeat split. Qed.

(** ** C62 *)

(** the headers; which files are opened is C120 *)
Theorem c62_headers : forall is64 big file h phs shs e, elf_file is64 big file h phs shs -> elf_init file = Ok e ->
  xe_file e = file /\ xe_is64 e = is64 /\ xe_big e = big /\ xe_ehdr e = h /\ xe_shdrs e = shs.
Proof. exact headers_read. Qed.
Print Assumptions c62_headers.

(** the symbols, given the symbols of each symbol table *)
Theorem c62_symbols : forall is64 big file h phs shs ls e, elf_file is64 big file h phs shs ->
  Forall2 (symtab_image is64 big file) (filter is_symtab shs) ls ->
  elf_init file = Ok e -> symbols e = Ok (concat ls).
Proof. exact symbols_read. Qed.
Print Assumptions c62_symbols.

(** the names of sections and of symbols *)
Theorem c62_section_name : forall e t s n, nth_error (xe_shdrs e) (Z.to_nat (e_shstrndx (xe_ehdr e))) = Some t ->
  plain n -> string_at (xe_file e) t (x_name s) n -> shdr_name e s = Ok n.
Proof. exact shdr_name_at. Qed.
Print Assumptions c62_section_name.
Theorem c62_symbol_name : forall e t y n, nth_error (xe_shdrs e) (Z.to_nat (x_strndx y)) = Some t ->
  plain n -> string_at (xe_file e) t (x_stname y) n -> xsym_name e y = Ok n.
Proof. exact xsym_name_at. Qed.
Print Assumptions c62_symbol_name.

(** a section is found by its name; of several the first *)
Theorem c62_lookup : forall e names name, Forall2 (fun s n => shdr_name e s = Ok n) (xe_shdrs e) names ->
  lookup_shdr e name = Ok (option_map fst (find (fun p => snd p =?= name) (combine (xe_shdrs e) names))).
Proof. exact lookup_shdr_first. Qed.
Print Assumptions c62_lookup.

Example c62_example : elf_file false false (fx_file false false) (fx_ehdr false false) fx_phdrs (fx_shdrs false false) /\
  Forall2 (symtab_image false false (fx_file false false)) (filter is_symtab (fx_shdrs false false)) [fx_syms] /\
  exists e, elf_init (fx_file false false) = Ok e /\ symbols e = Ok fx_syms /\
            map (xsym_name e) fx_syms = map Ok (map tx [""; "app_main"; "counter"; "log"; "other"; "vec"]%string) /\
            map (shdr_name e) (xe_shdrs e) = map Ok fx_names.
Proof.
  split; [apply fx_image|]. split.
  { constructor; [|constructor]. apply fx_symtab_image. reflexivity. }
  eexists. split; [vm_compute; reflexivity|]. split; [vm_compute; reflexivity|]. split; vm_compute; reflexivity.
Qed.
(** the same for a 64-bit big endian file *)
Example c62_example64 : exists e, elf_init (fx_file true true) = Ok e /\ symbols e = Ok fx_syms /\
  xe_shdrs e = fx_shdrs true true.
Proof. eexists. split; [vm_compute; reflexivity|]. split; vm_compute; reflexivity. Qed.
(** a name with characters outside ASCII *)
Example c62_example_utf8 : plain (map (fun b => ascii_of_nat (Z.to_nat b)) [195; 164; 226; 130; 172]) /\
  decode [195; 164; 226; 130; 172] = Ok (map (fun b => ascii_of_nat (Z.to_nat b)) [195; 164; 226; 130; 172]) /\
  decode [195] = Err ValueError.
Proof. split; [apply plain_ok; reflexivity | split; reflexivity]. Qed.

(** ** C63 *)

(** DW_FORM_ref_sig8 has eight bytes; one is read *)
Theorem c63_sizes_refuted : exists big c a v l data off, attr_enc big c a v l /\ ~ In (aa_form a) unsupported /\
  occurs data off l /\ 0 <= cu_address_size c /\ blen l = 8 /\ get_attr_value big c a data off = Ok (DInt 17, off + 1).
Proof.
  exists false, (fx_cu1 false false), (attr 105 32), (DInt 17), (int_enc false 8 17), (int_enc false 8 17), 0.
  split. { exists (FFixed 8), (DInt 17). split; [reflexivity|]. split; [constructor; numbers | reflexivity]. }
  split; [cbn; lia|]. split; [exists [], []; auto|]. split; [vm_compute; discriminate|]. split; reflexivity.
Qed.
Print Assumptions c63_sizes_refuted.

(** every other supported form has its standard size, and its value unless it is
    DW_FORM_sdata (see C60), DW_FORM_loclistx or DW_FORM_rnglistx *)
Theorem c63_sizes_partial : forall big c a v l data off,
  attr_enc big c a v l -> ~ In (aa_form a) unsupported -> aa_form a <> 32 -> 0 <= cu_address_size c ->
  occurs data off l ->
  exists v', get_attr_value big c a data off = Ok (v', off + blen l) /\ (exact_form (aa_form a) = true -> v' = v).
Proof. exact get_attr_value_enc. Qed.
Print Assumptions c63_sizes_partial.

(** the other forms are reported *)
Theorem c63_unsupported_partial : forall big c a data off, In (aa_form a) unsupported ->
  get_attr_value big c a data off = Err Elf_Exception.
Proof. exact get_attr_value_unsupported. Qed.
Print Assumptions c63_unsupported_partial.

Example c63_example : attr_enc true (fx_cu2 false true) (attr 49 19) (DInt (fx_off2 false true + 18)) [0; 0; 0; 18] /\
  get_attr_value true (fx_cu2 false true) (attr 49 19) [4; 0; 0; 0; 18] 1 = Ok (DInt (fx_off2 false true + 18), 5).
Proof.
  split; [|vm_compute; reflexivity].
  exists (FFixed 4), (DInt 18). split; [reflexivity|]. split; [exact (ce_fixed true _ 4 18 ltac:(numbers)) | reflexivity].
Qed.

(** ** C64 *)

(** the loops of the reader end: the number of turns the model allows for is enough.
    The limit of the Python stack is not modelled; reaching it ends the run as well *)
Theorem c64_terminates : forall e, is_bytes (xe_file e) -> add_cus_to_symbols e <> Err OutOfFuel.
Proof. exact add_cus_ends. Qed.
Print Assumptions c64_terminates.

Theorem c64_headers : forall file, is_bytes file -> elf_init file <> Err OutOfFuel.
Proof. exact elf_init_ends. Qed.
Print Assumptions c64_headers.

(** the whole file is read; cut off in the middle of the second unit, it is an error *)
Example c64_example : is_bytes (fx_file false true) /\
  match elf_init (fx_file false true) with
  | Ok e => match add_cus_to_symbols e with Ok d => map (fun p => snd (snd p)) d | Err _ => [] end
  | Err _ => []
  end = [Some (tx "main.c"); Some (tx "main.c"); Some (tx "log.c"); None].
Proof. split; [apply is_bytesb_ok; vm_compute; reflexivity | vm_compute; reflexivity]. Qed.

(** ** C65 *)

(** get_DIEs: a second query with another filter returns the entries of the first *)
Theorem c65_entries_refuted : exists big info table c tags tags' l cache,
  get_DIEs_call big info table c tags None = (Ok l, cache) /\
  fst (get_DIEs_call big info table c tags' cache) <> fst (get_DIEs_call big info table c tags' None).
Proof.
  exists false, (fx_info false false), (Ok fx_tbl1), (fx_cu1 false false), (Some [17]), (Some [46]).
  eexists _, _. split; [vm_compute; reflexivity|]. vm_compute. discriminate.
Qed.
Print Assumptions c65_entries_refuted.

(** get_attr_eval: a second evaluation of an attribute fails *)
Theorem c65_attributes_refuted : exists e a v cache, get_attr_eval_call e a None = (Ok (Some v), cache) /\
  fst (get_attr_eval_call e a cache) = Err KeyError.
Proof.
  exists (XElf [] false false (fx_ehdr false false) [] []), (DAttr 3 8 0 (DBytes [97; 98]) 3), (EStr (tx "ab")).
  eexists. split; reflexivity.
Qed.
Print Assumptions c65_attributes_refuted.

(** symbols: after a failure the next access returns the symbols read before it, as if they were all *)
Theorem c65_symbols_refuted : exists e x cache l, symbols_call e None = (Err x, cache) /\
  fst (symbols_call e cache) = Ok l.
Proof.
  exists (XElf (flat_map (sym_bytes false false) fx_syms) false false (fx_ehdr false false) []
           [XShdr 1 2 0 0 0 40 2 1 4 16]).
  eexists _, _, _. split; [vm_compute; reflexivity|]. reflexivity.
Qed.
Print Assumptions c65_symbols_refuted.

(** the same query without failures *)
Theorem c65_repeat_partial : forall big info table c tags l cache,
  get_DIEs_call big info table c tags None = (Ok l, cache) -> fst (get_DIEs_call big info table c tags cache) = Ok l.
Proof. exact get_DIEs_repeat. Qed.
Print Assumptions c65_repeat_partial.
Theorem c65_symbols_partial : forall e l cache, symbols_call e None = (Ok l, cache) -> fst (symbols_call e cache) = Ok l.
Proof. exact symbols_repeat. Qed.
Print Assumptions c65_symbols_partial.

Example c65_example : match get_DIEs_call false (fx_info false false) (Ok fx_tbl1) (fx_cu1 false false) (Some [46]) None with
  | (Ok l, _) => map d_off l | _ => [] end = [18].
Proof. vm_compute. reflexivity. Qed.

(** ** C73 *)

(** in a 64-bit file the second field is taken for the offset although it holds the flags *)
Theorem c73_program_headers_refuted : exists file h phs shs e, elf_image true false file h phs shs /\
  elf_init file = Ok e /\ xe_phdrs e <> phs.
Proof.
  exists (fx_file true false), (fx_ehdr true false), fx_phdrs, (fx_shdrs true false). eexists.
  split; [apply fx_image|]. split; [vm_compute; reflexivity|]. vm_compute. discriminate.
Qed.
Print Assumptions c73_program_headers_refuted.

Theorem c73_program_headers_partial : forall big file h phs shs, elf_image false big file h phs shs ->
  exists e, elf_init file = Ok e /\ xe_phdrs e = phs.
Proof. exact phdrs32. Qed.
Print Assumptions c73_program_headers_partial.

Example c73_example : elf_image false true (fx_file false true) (fx_ehdr false true) fx_phdrs (fx_shdrs false true) /\
  match elf_init (fx_file false true) with Ok e => xe_phdrs e | Err _ => [] end = fx_phdrs /\ fx_phdrs <> [].
Proof. split; [apply fx_image|]. split; [vm_compute; reflexivity | discriminate]. Qed.

(** ** C74 *)

(** a file whose section headers are larger than the standard ones: neither read nor
    reported as an error in the file *)
Theorem c74_errors_refuted : exists file, elf_init file = Err StructError.
Proof.
  exists (ehdr_bytes false false (Ehdr [127; 69; 76; 70; 1; 1; 1; 0; 0; 0; 0; 0; 0; 0; 0; 0] 2 243 1 0 0 52 0 52 0 0 44 1 0)
          ++ repeat 0 44).
  vm_compute. reflexivity.
Qed.
Print Assumptions c74_errors_refuted.

(** these are all the errors there are *)
Theorem c74_errors_partial : forall file x, elf_init file = Err x -> is_bytes file -> x = Elf_Exception \/ x = StructError.
Proof. exact elf_init_errors. Qed.
Print Assumptions c74_errors_partial.

(** StructError only if the header of the file states entries of another size *)
Theorem c74_standard_partial : forall file, elf_init file = Err StructError -> is_bytes file ->
  exists is64 big h, occurs file 0 (ehdr_bytes is64 big h) /\
    (e_phentsize h <> phdr_size is64 \/ e_shentsize h <> shdr_size is64).
Proof. exact elf_init_struct_error. Qed.
Print Assumptions c74_standard_partial.

Example c74_example : elf_init [1; 2; 3] = Err Elf_Exception /\ elf_init (firstn 700 (fx_file false false)) = Err Elf_Exception.
Proof. split; vm_compute; reflexivity. Qed.

(** ** C120 *)

(** the ELF header alone, which is all that this file is said to have: refused as too short *)
Theorem c120_opened_refuted : exists file h, elf_file false false file h [] [] /\ elf_init file = Err Elf_Exception.
Proof.
  exists (ehdr_bytes false false (Ehdr [127; 69; 76; 70; 1; 1; 1; 0; 0; 0; 0; 0; 0; 0; 0; 0] 2 243 1 0 0 0 0 52 0 0 0 0 0)), (Ehdr [127; 69; 76; 70; 1; 1; 1; 0; 0; 0; 0; 0; 0; 0; 0; 0] 2 243 1 0 0 0 0 52 0 0 0 0 0).
  split; [|vm_compute; reflexivity]. split; try congruence; try reflexivity; try (apply occursb_ok; vm_compute; reflexivity); try (repeat constructor; numbers).
Qed.
Print Assumptions c120_opened_refuted.

(** a file with a header table behind its ELF header is opened *)
Theorem c120_opened_partial : forall is64 big file h phs shs, elf_file is64 big file h phs shs ->
  (phs <> [] /\ e_ehsize h <= e_phoff h \/ shs <> [] /\ e_ehsize h <= e_shoff h) -> e_ehsize h = (if is64 then 64 else 52) ->
  exists e, elf_init file = Ok e.
Proof. exact opened_tables. Qed.
Print Assumptions c120_opened_partial.

(** exactly the files of 76 bytes or more are *)
Theorem c120_length_partial : forall is64 big file h phs shs, elf_file is64 big file h phs shs ->
  (exists e, elf_init file = Ok e) <-> 76 <= blen file.
Proof. exact opened_exactly. Qed.
Print Assumptions c120_length_partial.

Example c120_example : elf_file true true (fx_file true true) (fx_ehdr true true) fx_phdrs (fx_shdrs true true) /\
  fx_shdrs true true <> [] /\ e_ehsize (fx_ehdr true true) = 64 /\ 64 <= e_shoff (fx_ehdr true true) /\ 76 <= blen (fx_file true true).
Proof. split; [apply fx_image|]. split; [discriminate|]. split; [reflexivity|]. split; vm_compute; discriminate. Qed.
