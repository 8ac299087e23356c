(** * FixElf: a small ELF file with symbols and debugging information *)
From Coq Require Import Ascii String List ZArith Bool Lia.
From Verif Require Import Base ElfRead Dwarf SpecElf ProofElf1 ProofElf2 SpecDwarf.
Import ListNotations.
Open Scope list_scope.
Open Scope Z_scope.

(** ** deciding where bytes stand *)
Definition occursb (data : bytes) (off : Z) (l : bytes) : bool :=
  let n := Z.to_nat off in
  (0 <=? off) && (firstn n data ++ l ++ skipn (n + length l) data =?= data) && (off <=? blen data).
Lemma occursb_ok data off l : occursb data off l = true -> occurs data off l.
Proof.
  unfold occursb. rewrite !andb_true_iff, !Z.leb_le. intros [[P E] L]. apply keq_eq in E.
  exists (firstn (Z.to_nat off) data), (skipn (Z.to_nat off + length l) data). split; [now rewrite E|].
  unfold blen in *. rewrite firstn_length. lia.
Qed.
Definition utf8b_ok (s : str) : utf8_ok (text s) = true -> utf8 (text s) := accepted_utf8 _.
Lemma plain_ok s : forallb (fun b => negb (b =? 0)) (text s) && utf8_ok (text s) = true -> plain s.
Proof.
  rewrite andb_true_iff. intros [A B]. split; [|now apply accepted_utf8].
  rewrite forallb_forall in A. apply Forall_forall. intros b I E. specialize (A b I). subst. discriminate.
Qed.
Definition tx (s : string) : str := list_ascii_of_string s.
Definition bz (s : string) : list Z := text (tx s) ++ [0].

Section Fixture.
Variables (is64 big : bool).
Definition addr (z : Z) : list Z := int_enc big (if is64 then 8 else 4)%nat z.
Definition asize : Z := if is64 then 8 else 4.

(** ** Debugging information *)
Definition fx_str : list Z := bz "" ++ bz "main.c" ++ bz "app_main".
Definition attr (a f : Z) : abattr := AbAttr a f None.
Definition no_more : abattr := AbAttr 0 0 None.
(** compile unit with children: name strp, language data1; subprogram: name string,
    low_pc addr, inline data from the abbreviation; variable: name string, location exprloc *)
Definition ab_cu : abbrev := Abbrev 1 17 1 [attr 3 14; attr 19 11; no_more].
Definition ab_sub : abbrev := Abbrev 2 46 0 [attr 3 8; attr 17 1; AbAttr 32 33 (Some 3); no_more].
Definition ab_var : abbrev := Abbrev 3 52 0 [attr 3 8; attr 2 24; no_more].
Definition fx_tbl1 : list abbrev := [ab_cu; ab_sub; ab_var].
(** the table of the second unit: name string; a subprogram without address and with
    a child; an instance of it *)
Definition ab_cu2 : abbrev := Abbrev 1 17 1 [attr 3 8; no_more].
Definition ab_decl : abbrev := Abbrev 2 46 1 [attr 3 8; no_more].
Definition ab_par : abbrev := Abbrev 3 5 0 [attr 11 15; no_more].
Definition ab_inst : abbrev := Abbrev 4 46 0 [attr 49 19; attr 17 1; no_more].
Definition fx_tbl2 : list abbrev := [ab_cu2; ab_decl; ab_par; ab_inst].

Definition abattr_bytes (a : abattr) : list Z :=
  [aa_attr a; aa_form a] ++ match aa_value a with Some v => [v] | None => [] end.
Definition abbrev_bytes (a : abbrev) : list Z :=
  [ab_code a; ab_tag a; ab_children a] ++ flat_map abattr_bytes (ab_attrs a).
Definition abbrevs_bytes (l : list abbrev) : list Z := flat_map abbrev_bytes l ++ [0].
Definition fx_abbrev : list Z := abbrevs_bytes fx_tbl1 ++ abbrevs_bytes fx_tbl2.
Definition fx_aoff2 : Z := blen (abbrevs_bytes fx_tbl1).

Definition vstr (s : string) : dval * list Z := (DBytes (text (tx s)), bz s).
Definition vaddr (z : Z) : dval * list Z := (DInt z, addr z).
Definition fx_tree1 : tree :=
  Tree ab_cu [1] [(DInt 1, int_enc big 4 1); (DInt 29, [29])]
    [ Tree ab_sub [2] [vstr "app_main"; vaddr 4096; (DInt 3, [])] [];
      Tree ab_var [3] [vstr "counter"; (DBytes (3 :: addr 8192), (1 + asize) :: 3 :: addr 8192)] [];
      Tree ab_var [3] [vstr "local"; (DBytes [145; 4], [2; 145; 4])] [] ].
Definition fx_len1 : Z := 8 + blen (tbytes fx_tree1).
Definition fx_cu1 : cu := Cu 0 4 fx_len1 false 5 (Some 1) asize 0 12.
Definition fx_hdr1 : list Z := int_enc big 2 5 ++ [1] ++ [asize] ++ int_enc big 4 0.
Definition fx_off2 : Z := 4 + fx_len1.
(** offsets in the second unit: the unit entry after 11 bytes of header and its name *)
Definition fx_decl : Z := 11 + 1 + 6.
Definition fx_tree2 : tree :=
  Tree ab_cu2 [1] [vstr "log.c"]
    [ Tree ab_decl [2] [vstr "log"] [ Tree ab_par [3] [(DInt 300, [172; 2])] [] ];
      Tree ab_inst [4] [(DInt (fx_off2 + 18), int_enc big 4 18); vaddr 4112] [];
      Tree ab_inst [4] [(DInt (fx_off2 + 18), int_enc big 4 18); vaddr 20480] [] ].
Definition fx_len2 : Z := 7 + blen (tbytes fx_tree2) + 2.
Definition fx_cu2 : cu := Cu fx_off2 4 fx_len2 false 4 None asize fx_aoff2 (fx_off2 + 11).
Definition fx_hdr2 : list Z := int_enc big 2 4 ++ int_enc big 4 fx_aoff2 ++ [asize].
Definition fx_unit1 : list Z := int_enc big 4 fx_len1 ++ fx_hdr1 ++ tbytes fx_tree1.
Definition fx_unit2 : list Z := int_enc big 4 fx_len2 ++ fx_hdr2 ++ tbytes fx_tree2 ++ [0; 0].
Definition fx_info : list Z := fx_unit1 ++ fx_unit2.

(** ** The file *)
Definition fx_ehsize : Z := if is64 then 64 else 52.
Definition fx_shstr : list Z :=
  bz "" ++ bz ".symtab" ++ bz ".strtab" ++ bz ".shstrtab" ++ bz ".debug_abbrev" ++ bz ".debug_info" ++ bz ".debug_str".
Definition fx_strtab : list Z := bz "" ++ bz "app_main" ++ bz "counter" ++ bz "log" ++ bz "other" ++ bz "vec".
Definition fx_syms : list xsym :=
  [ XSym 2 0 0 0 0 0 0;
    XSym 2 1 4096 40 18 0 7;       (* app_main *)
    XSym 2 10 8192 4 17 0 7;       (* counter *)
    XSym 2 18 4112 24 2 0 7;       (* log *)
    XSym 2 22 4160 8 18 0 7;       (* other: not in the debugging information *)
    XSym 2 28 20480 8 18 0 65521   (* vec: absolute *) ].
Definition fx_symtab : list Z := flat_map (sym_bytes is64 big) fx_syms.
Definition fx_phdrs : list phdr := [Phdr 1 0 4096 4096 100 200 5 4096].
Definition fx_o1 := fx_ehsize.                         (* .shstrtab *)
Definition fx_o2 := fx_o1 + blen fx_shstr.             (* .strtab *)
Definition fx_o3 := fx_o2 + blen fx_strtab.            (* .symtab *)
Definition fx_o4 := fx_o3 + blen fx_symtab.            (* .debug_abbrev *)
Definition fx_o5 := fx_o4 + blen fx_abbrev.            (* .debug_info *)
Definition fx_o6 := fx_o5 + blen fx_info.              (* .debug_str *)
Definition fx_o7 := fx_o6 + blen fx_str.               (* program headers *)
Definition fx_o8 := fx_o7 + blen (flat_map (phdr_bytes is64 big) fx_phdrs).   (* section headers *)
Definition fx_shdrs : list xshdr :=
  [ XShdr 0 0 0 0 0 0 0 0 0 0;
    XShdr 1 2 0 0 fx_o3 (blen fx_symtab) 2 1 4 (if is64 then 24 else 16);
    XShdr 9 3 0 0 fx_o2 (blen fx_strtab) 0 0 1 0;
    XShdr 17 3 0 0 fx_o1 (blen fx_shstr) 0 0 1 0;
    XShdr 27 1 0 0 fx_o4 (blen fx_abbrev) 0 0 1 0;
    XShdr 41 1 0 0 fx_o5 (blen fx_info) 0 0 1 0;
    XShdr 53 1 0 0 fx_o6 (blen fx_str) 0 0 1 0 ].
Definition fx_names : list str :=
  map tx [""; ".symtab"; ".strtab"; ".shstrtab"; ".debug_abbrev"; ".debug_info"; ".debug_str"]%string.
Definition fx_ehdr : ehdr :=
  Ehdr [127; 69; 76; 70; if is64 then 2 else 1; if big then 2 else 1; 1; 0; 0; 0; 0; 0; 0; 0; 0; 0]
    2 243 1 4096 fx_o7 fx_o8 0 fx_ehsize (phdr_size is64) 1 (shdr_size is64) 7 3.
Definition fx_file : list Z :=
  ehdr_bytes is64 big fx_ehdr ++ fx_shstr ++ fx_strtab ++ fx_symtab ++ fx_abbrev ++ fx_info ++ fx_str ++
  flat_map (phdr_bytes is64 big) fx_phdrs ++ flat_map (shdr_bytes is64 big) fx_shdrs.
End Fixture.

Definition is_bytesb (l : list Z) : bool := forallb (fun b => (0 <=? b) && (b <? 256)) l.
Lemma is_bytesb_ok l : is_bytesb l = true -> is_bytes l.
Proof.
  unfold is_bytesb, is_bytes. rewrite forallb_forall. intros H. apply Forall_forall. intros b I.
  specialize (H b I). rewrite andb_true_iff, Z.leb_le, Z.ltb_lt in H. exact H.
Qed.

Ltac numbers := unfold fits, xfits; vm_compute; repeat split; try discriminate; try reflexivity.

Lemma fx_image : forall is64 big, elf_image is64 big (fx_file is64 big) (fx_ehdr is64 big) fx_phdrs (fx_shdrs is64 big).
Proof.
  intros [|] [|]; (split; [split|vm_compute; discriminate]).
  all: try (intros _).
  all: try (apply occursb_ok; vm_compute; reflexivity).
  all: try reflexivity.
  all: try (repeat constructor; numbers).
Qed.

Lemma fx_symtab_image : forall is64 big s, nth_error (fx_shdrs is64 big) 1 = Some s ->
  symtab_image is64 big (fx_file is64 big) s fx_syms.
Proof.
  intros is64 big s E. injection E as <-. split.
  - destruct is64, big; apply occursb_ok; vm_compute; reflexivity.
  - reflexivity.
  - destruct is64; repeat constructor; numbers.
  - repeat constructor.
Qed.
