(** * FixLto: a project with link time optimisation; map file of FixMap *)
From Coq Require Import Ascii String List ZArith Bool Lia.
From Verif Require Import Base MemMap Pipeline PyStr MapFile SpecMap FixMap ElfRead Dwarf SpecElf ProofElf1 ProofElf2 SpecDwarf SpecDebug FixElf FixDebug Project SpecProject SpecEnd SpecOwner SpecLto SpecLto2 FixProject ProofLto2 ProofLto3.
Import ListNotations.
Open Scope list_scope.
Open Scope Z_scope.
Local Notation tx := list_ascii_of_string.

(** ** debugging information: two units with one table; addresses of functions *)
Definition ox_cu : abbrev := Abbrev 1 17 1 [attr 3 8; no_more].
Definition ox_sub : abbrev := Abbrev 2 46 0 [attr 3 8; attr 17 1; no_more].
Definition ox_tbl : list abbrev := [ox_cu; ox_sub].
Definition ox_tree1 : tree :=
  Tree ox_cu [1] [vstr "/home/me/app/main/app.c"]
    [ Tree ox_sub [2] [vstr "app_main"; vaddr false false 0x4008040c] []; Tree ox_sub [2] [vstr "wait"; vaddr false false 0x4008041c] [] ].
Definition ox_tree2 : tree :=
  Tree ox_cu [1] [vstr "/home/me/app/components/log//log.c"] [ Tree ox_sub [2] [vstr "log"; vaddr false false 0x40080414] [] ].
Definition ox_len1 : Z := 8 + blen (tbytes ox_tree1).
Definition ox_off2 : Z := 4 + ox_len1.
Definition ox_len2 : Z := 8 + blen (tbytes ox_tree2).
Definition ox_cu1 : cu := Cu 0 4 ox_len1 false 5 (Some 1) 4 0 12.
Definition ox_cu2 : cu := Cu ox_off2 4 ox_len2 false 5 (Some 1) 4 0 (ox_off2 + 12).
Definition ox_info1 : list Z := int_enc false 4 ox_len1 ++ hdr_v5 1 ++ tbytes ox_tree1.
Definition ox_info2 : list Z := int_enc false 4 ox_len2 ++ hdr_v5 1 ++ tbytes ox_tree2.
Definition ox_info : list Z := ox_info1 ++ ox_info2.
Definition ox_abbrev : list Z := abbrevs_bytes ox_tbl.
Definition ox_u1 : funit := FUnit ox_cu1 ox_tbl ox_tree1 [].
Definition ox_u2 : funit := FUnit ox_cu2 ox_tbl ox_tree2 [].
Definition ox_units : list funit := [ox_u1; ox_u2].

(** ** the ELF file *)
Definition ox_shstr : list Z := bz "" ++ bz ".iram0.text" ++ bz ".shstrtab" ++ bz ".symtab" ++ bz ".strtab" ++ bz ".debug_abbrev" ++ bz ".debug_info".
Definition ox_strtab : list Z := bz "" ++ bz "app_main" ++ bz "wait" ++ bz "log".
Definition ox_symbols : list xsym :=
  [ XSym 4 0 0 0 0 0 0; XSym 4 1 0x4008040c 8 18 0 1; XSym 4 10 0x4008041c 4 2 0 1; XSym 4 15 0x40080414 4 18 0 1 ].
Definition ox_symtab : list Z := flat_map (sym_bytes false false) ox_symbols.
Definition ox_o1 := 52 + blen ox_shstr.        (* .strtab *)
Definition ox_o2 := ox_o1 + blen ox_strtab.    (* .symtab *)
Definition ox_o3 := ox_o2 + blen ox_symtab.    (* .debug_abbrev *)
Definition ox_o4 := ox_o3 + blen ox_abbrev.    (* .debug_info *)
Definition ox_shdrs : list xshdr :=
  [ XShdr 0 0 0 0 0 0 0 0 0 0;
    XShdr 1 8 6 0x40080400 52 32 0 0 4 0;
    XShdr 13 3 0 0 52 (blen ox_shstr) 0 0 1 0;
    XShdr 23 2 0 0 ox_o2 (blen ox_symtab) 4 1 4 16;
    XShdr 31 3 0 0 ox_o1 (blen ox_strtab) 0 0 1 0;
    XShdr 39 1 0 0 ox_o3 (blen ox_abbrev) 0 0 1 0;
    XShdr 53 1 0 0 ox_o4 (blen ox_info) 0 0 1 0 ].
Definition ox_names : list str := map tx [""; ".iram0.text"; ".shstrtab"; ".symtab"; ".strtab"; ".debug_abbrev"; ".debug_info"]%string.
Definition ox_ehdr : ehdr :=
  Ehdr [127; 69; 76; 70; 1; 1; 1; 0; 0; 0; 0; 0; 0; 0; 0; 0]
    2 94 1 0x40080400 0 (ox_o4 + blen ox_info) 0 52 (phdr_size false) 0 (shdr_size false) 7 2.
Definition ox_file : list Z :=
  ehdr_bytes false false ox_ehdr ++ ox_shstr ++ ox_strtab ++ ox_symtab ++ ox_abbrev ++ ox_info ++ flat_map (shdr_bytes false false) ox_shdrs.
Definition ox_headers : list (str * xshdr) := combine ox_names ox_shdrs.
Lemma ox_image : elf_image false false ox_file ox_ehdr [] ox_shdrs.
Proof.
  split; [split|vm_compute; discriminate].
  all: try (intros _).
  all: try (apply occursb_ok; vm_compute; reflexivity).
  all: try reflexivity.
  all: try (repeat constructor; numbers).
Qed.
Lemma ox_symtab_image : Forall2 (symtab_image false false ox_file) (filter is_symtab ox_shdrs) [ox_symbols].
Proof.
  constructor; [|constructor]. split.
  - apply occursb_ok; vm_compute; reflexivity.
  - reflexivity.
  - repeat constructor; numbers.
  - repeat constructor.
Qed.
Lemma ox_named : named_headers ox_file ox_headers.
Proof.
  exists false, false, ox_ehdr, [], (XShdr 13 3 0 0 52 (blen ox_shstr) 0 0 1 0). split; [exact ox_image|]. split; [reflexivity|].
  assert (G : forall (n : str) h, SpecElf.plain n -> occursb ox_shstr (x_name h) (SpecElf.text n ++ [0]) = true ->
    SpecElf.plain (fst (n, h)) /\ string_at ox_file (XShdr 13 3 0 0 52 (blen ox_shstr) 0 0 1 0) (x_name (snd (n, h))) (fst (n, h))).
  { intros n h Pn Oc. split; [exact Pn|]. exists ox_shstr. split; [apply occursb_ok; vm_compute; reflexivity|]. split; [reflexivity|]. now apply occursb_ok. }
  repeat (constructor; [apply G; [apply plain_ok; vm_compute; reflexivity|vm_compute; reflexivity]|]). constructor.
Qed.
Definition ox_elf : xelf := XElf ox_file false false ox_ehdr [] ox_shdrs.
Lemma ox_init : elf_init ox_file = Ok ox_elf.
Proof. vm_compute. reflexivity. Qed.
Lemma ox_tree1_ok : tree_ok false ox_cu1 ox_tbl ox_tree1.
Proof.
  unfold ox_tree1. node false ox_cu1; [attr_tac false ox_cu1|].
  repeat apply Forall_cons; try apply Forall_nil; (node false ox_cu1; [attr_tac false ox_cu1 .. | apply Forall_nil]).
Qed.
Lemma ox_tree2_ok : tree_ok false ox_cu2 ox_tbl ox_tree2.
Proof.
  unfold ox_tree2. node false ox_cu2; [attr_tac false ox_cu2|].
  repeat apply Forall_cons; try apply Forall_nil; (node false ox_cu2; [attr_tac false ox_cu2 .. | apply Forall_nil]).
Qed.
Lemma ox_debug_image : debug_image ox_elf ox_names ox_units.
Proof.
  split; [apply named_ok; vm_compute; reflexivity|]. exists ox_info, ox_abbrev.
  split; [apply section_ok; vm_compute; reflexivity|]. split; [apply section_ok; vm_compute; reflexivity|]. split.
  - unfold ox_info, ox_units. cbn [map u_cu u_tree u_pad ox_u1 ox_u2 ox_elf xe_big]. rewrite !app_nil_r.
    apply us_cons; [reflexivity | |].
    + unfold ox_info1. apply (ue_unit false ox_cu1 (tbytes ox_tree1) (hdr_v5 1)); [apply uh_full; auto|auto|numbers|vm_compute; reflexivity|numbers|reflexivity|vm_compute; reflexivity].
    + rewrite <- (app_nil_r ox_info2). apply us_cons; [vm_compute; reflexivity | | apply us_nil].
      unfold ox_info2. apply (ue_unit false ox_cu2 (tbytes ox_tree2) (hdr_v5 1)); [apply uh_full; auto|auto|numbers|vm_compute; reflexivity|numbers|reflexivity|vm_compute; reflexivity].
  - assert (U : exists b, abbrevs_enc ox_tbl b /\ occurs ox_abbrev 0 b).
    { exists (abbrevs_bytes ox_tbl). split; [apply uleb_tbl; vm_compute; reflexivity | apply occursb_ok; vm_compute; reflexivity]. }
    apply Forall_cons; [split | apply Forall_cons; [split | apply Forall_nil]].
    + right. left. reflexivity.
    + exact ox_tree1_ok.
    + exact U.
    + apply numbered_ok. reflexivity.
    + apply readable_ok. reflexivity.
    + right. left. reflexivity.
    + exact ox_tree2_ok.
    + exact U.
    + apply numbered_ok. reflexivity.
    + apply readable_ok. reflexivity.
Qed.
Lemma ox_ordinary : ordinary ox_elf ox_names ox_units.
Proof.
  split.
  - intros u [<-|[<-|[]]]; (split; [reflexivity|]).
    + exists (tx "/home/me/app/main/app.c"). eexists _, _, _. split; [reflexivity|]. split; [left; reflexivity|].
      apply tv_string; [reflexivity | reflexivity | apply accepted_utf8; reflexivity].
    + exists (tx "/home/me/app/components/log//log.c"). eexists _, _, _. split; [reflexivity|]. split; [left; reflexivity|].
      apply tv_string; [reflexivity | reflexivity | apply accepted_utf8; reflexivity].
  - apply entries_b_ok. vm_compute; reflexivity.
Qed.

(** the symbols with their source files *)
Definition ox_app : usym := USym 0x4008040c 8 (tx "/home/me/app/main/app.c").
Definition ox_wait : usym := USym 0x4008041c 4 (tx "/home/me/app/main/app.c").
Definition ox_log : usym := USym 0x40080414 4 (tx "/home/me/app/components/log/log.c").
Definition ox_syms : list usym := [ox_app; ox_wait; ox_log].
Lemma ox_view : exists r, view_cusyms ox_elf = Ok r /\ map usym_of r = ox_syms.
Proof. eexists. split; vm_compute; reflexivity. Qed.
Lemma ox_debugged : debugged ox_file ox_headers ox_syms.
Proof.
  split; [exact ox_named|]. exists false, false, ox_ehdr, [], ox_shdrs, [ox_symbols], ox_elf, ox_names, ox_units.
  split; [exact ox_image|]. split; [exact ox_symtab_image|]. split; [exact ox_init|]. split; [exact ox_debug_image|]. split; [exact ox_ordinary|].
  destruct ox_view as (r & V & <-).
  apply (view_is ox_elf ox_names ox_units (concat [ox_symbols]) ox_debug_image ox_ordinary); [|exact V].
  eapply symbols_image; [exact ox_image|exact ox_symtab_image|exact ox_init].
Qed.

(** ** the project: two components *)
Definition ox_component (dir file : string) : json := JObj [(tx "dir", JStr (tx dir)); (tx "file", JStr (tx file))].
Definition ox_object : list (str * json) :=
  [ (tx "target", JStr (tx "esp32")); (tx "app_elf", JStr (tx "app.elf")); (tx "build_dir", JStr (tx "/home/me/app/build"));
    (tx "build_component_info", JObj
       [ (tx "log", ox_component "/home/me/app/components/log" "/home/me/app/build/esp-idf/log/liblog.a");
         (tx "hal", ox_component "/home/me/idf/components/hal" "");
         (tx "main", ox_component "/home/me/app/main" "/home/me/app/build/esp-idf/main/libmain.a") ]) ].
Definition ox_comps : list component :=
  [ Component (tx "/home/me/app/components/log") (tx "esp-idf/log/liblog.a"); Component (tx "/home/me/app/main") (tx "esp-idf/main/libmain.a") ].
(** the option of link time optimisation is in the configuration *)
Definition ox_disk : disk :=
  let f (name : string) := (tx "/home/me/app/build" ++ "/"%char :: tx name)%list in
  {| d_cwd := tx "/tmp";
     d_text := fun fn => if fn =?= f "app.map" then Some px_text else None;
     d_json := fun fn => if fn =?= f "project_description.json" then Some (JObj ox_object)
                         else if fn =?= f "config/sdkconfig.json" then Some (JObj [(tx "COMPILER_LTO_LINKTIME", JBool true)]) else None;
     d_isfile := fun fn => fn =?= f "app.elf";
     d_bytes := fun fn => if fn =?= f "app.elf" then Some ox_file else None |}.
