(** * Property C130: what is read of an ELF file is in the file *)
From Coq Require Import Ascii String List ZArith Bool Lia.
From Verif Require Import Base ElfRead SpecElf ProofElf1 ProofElf2 FixElf SpecElf2 ProofElf3.
Import ListNotations.
Open Scope list_scope.
Open Scope Z_scope.

(** C130: a file that is opened is an ELF file with the headers that are listed (its header tables
    having entries of the standard size) *)
Theorem c130_opened : forall file e, is_bytes file -> elf_init file = Ok e -> standard_entries (xe_is64 e) (xe_ehdr e) ->
  exists phs, elf_image (xe_is64 e) (xe_big e) file (xe_ehdr e) phs (xe_shdrs e) /\ xe_phdrs e = map (phdr_read (xe_is64 e)) phs.
Proof. exact opened_made. Qed.
Print Assumptions c130_opened.

(** symbols are read exactly if all symbol tables are in the file as a whole; else it is an error *)
Theorem c130_symbols : forall is64 big file h phs shs e l, is_bytes file -> elf_file is64 big file h phs shs -> elf_init file = Ok e ->
  (symbols e = Ok l <-> exists ls, Forall2 (symtab_holds is64 big file) (filter is_symtab shs) ls /\ l = concat ls).
Proof. exact symbols_exactly. Qed.
Print Assumptions c130_symbols.
Theorem c130_no_symbols : forall is64 big file h phs shs e x, elf_file is64 big file h phs shs -> elf_init file = Ok e -> symbols e = Err x ->
  exists s, In s shs /\ is_symtab s = true /\ ((x = Elf_Exception /\ beyond file s) \/ (x = StructError /\ x_size s mod sym_size is64 <> 0)).
Proof. exact symbols_fails. Qed.
Print Assumptions c130_no_symbols.

(** names are read exactly if the string table has them, with a zero byte at the end *)
Theorem c130_section_name : forall is64 big file h phs shs e, is_bytes file -> elf_file is64 big file h phs shs -> elf_init file = Ok e ->
  forall s, In s shs ->
    (forall n, shdr_name e s = Ok n <-> name_at e (e_shstrndx h) (x_name s) n) /\
    (forall x, shdr_name e s = Err x ->
       (x = IndexError /\ nth_error shs (Z.to_nat (e_shstrndx h)) = None) \/
       (exists t, nth_error shs (Z.to_nat (e_shstrndx h)) = Some t /\ ((x = Elf_Exception /\ beyond file t) \/ (x = ValueError /\ ~ beyond file t)))).
Proof.
  intros is64 big file h phs shs e B F E s I.
  exact (conj (fun n => section_names is64 big file h phs shs e B F E s n I) (fun x => section_names_fail is64 big file h phs shs e B F E s x)).
Qed.
Print Assumptions c130_section_name.
Theorem c130_symbol_name : forall is64 big file h phs shs e, is_bytes file -> elf_file is64 big file h phs shs -> elf_init file = Ok e ->
  forall l y, symbols e = Ok l -> In y l ->
    (forall n, xsym_name e y = Ok n <-> name_at e (x_strndx y) (x_stname y) n) /\
    (forall x, xsym_name e y = Err x ->
       (x = IndexError /\ nth_error shs (Z.to_nat (x_strndx y)) = None) \/
       (exists t, nth_error shs (Z.to_nat (x_strndx y)) = Some t /\ ((x = Elf_Exception /\ beyond file t) \/ (x = ValueError /\ ~ beyond file t)))).
Proof.
  intros is64 big file h phs shs e B F E l y S I.
  exact (conj (fun n => symbol_names is64 big file h phs shs e B F E l y n S I) (fun x => symbol_names_fail is64 big file h phs shs e B F E y x)).
Qed.
Print Assumptions c130_symbol_name.

(** ** examples: a file, and the same with a damaged header of the symbol table or string table *)
Local Notation tx := (fun s => list_ascii_of_string s%string).
Definition dx_shdrs (symtab strtab shstr : Z) : list xshdr :=
  [ XShdr 0 0 0 0 0 0 0 0 0 0; XShdr 1 2 0 0 82 symtab 2 1 4 16; XShdr 9 3 0 0 79 strtab 0 0 1 0; XShdr 17 3 0 0 52 shstr 0 0 1 0 ].
Definition dx_shstr : list Z := bz "" ++ bz ".symtab" ++ bz ".strtab" ++ bz ".shstrtab".
Definition dx_ehdr : ehdr := Ehdr [127; 69; 76; 70; 1; 1; 1; 0; 0; 0; 0; 0; 0; 0; 0; 0] 2 94 1 0 0 (52 + 27 + 3 + 32) 0 52 (phdr_size false) 0 (shdr_size false) 4 3.
Definition dx_syms : list xsym := [XSym 2 0 0 0 0 0 0; XSym 2 1 4096 8 18 0 1].
Definition dx_file (symtab strtab shstr : Z) : list Z :=
  ehdr_bytes false false dx_ehdr ++ dx_shstr ++ [0; 97; 0] ++ flat_map (sym_bytes false false) dx_syms ++ flat_map (shdr_bytes false false) (dx_shdrs symtab strtab shstr).
Ltac t_elf := split;
  [ numbers | apply occursb_ok; vm_compute; reflexivity | reflexivity | contradiction | constructor | contradiction | reflexivity | reflexivity
  | repeat constructor; numbers | intros _; apply occursb_ok; vm_compute; reflexivity ].
Example c130_example : let file := dx_file 32 3 27 in exists e, is_bytes file /\ elf_file false false file dx_ehdr [] (dx_shdrs 32 3 27) /\ elf_init file = Ok e /\
  standard_entries (xe_is64 e) (xe_ehdr e) /\ symbols e = Ok dx_syms /\ map (shdr_name e) (xe_shdrs e) = map (fun s => Ok (tx s)) ["" ; ".symtab"; ".strtab"; ".shstrtab"]%string /\
  map (xsym_name e) dx_syms = [Ok []; Ok (tx "a")].
Proof.
  cbv zeta. eexists. split; [apply is_bytesb_ok; vm_compute; reflexivity|]. split; [t_elf|]. split; [vm_compute; reflexivity|]. split; [split; reflexivity|].
  split; [vm_compute; reflexivity|]. split; vm_compute; reflexivity.
Qed.
(** a symbol table of 1000 bytes, or of 20; a string table that ends before its zero byte *)
Example c130_example_damaged :
  (let file := dx_file 1000 3 27 in exists e, is_bytes file /\ elf_file false false file dx_ehdr [] (dx_shdrs 1000 3 27) /\ elf_init file = Ok e /\ symbols e = Err Elf_Exception) /\
  (let file := dx_file 20 3 27 in exists e, is_bytes file /\ elf_file false false file dx_ehdr [] (dx_shdrs 20 3 27) /\ elf_init file = Ok e /\ symbols e = Err StructError) /\
  (let file := dx_file 32 2 27 in exists e, is_bytes file /\ elf_file false false file dx_ehdr [] (dx_shdrs 32 2 27) /\ elf_init file = Ok e /\ symbols e = Ok dx_syms /\
     map (xsym_name e) dx_syms = [Ok []; Err ValueError]) /\
  (let file := dx_file 32 3 26 in exists e s, is_bytes file /\ elf_file false false file dx_ehdr [] (dx_shdrs 32 3 26) /\ elf_init file = Ok e /\ In s (dx_shdrs 32 3 26) /\ shdr_name e s = Err ValueError).
Proof.
  cbv zeta. split; [|split; [|split]].
  - eexists. split; [apply is_bytesb_ok; vm_compute; reflexivity|]. split; [t_elf|]. split; vm_compute; reflexivity.
  - eexists. split; [apply is_bytesb_ok; vm_compute; reflexivity|]. split; [t_elf|]. split; vm_compute; reflexivity.
  - eexists. split; [apply is_bytesb_ok; vm_compute; reflexivity|]. split; [t_elf|]. split; [vm_compute; reflexivity|]. split; vm_compute; reflexivity.
  - eexists. exists (XShdr 17 3 0 0 52 26 0 0 1 0). split; [apply is_bytesb_ok; vm_compute; reflexivity|]. split; [t_elf|]. split; [vm_compute; reflexivity|]. split; [cbn; auto 6|]. vm_compute; reflexivity.
Qed.
