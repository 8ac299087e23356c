(** * The component a symbol is charged to (C89) *)
From Coq Require Import Ascii String List ZArith Lia Bool.
From Verif Require Import Base MemMap Pipeline SpecPipe PyStr Project SpecProject SpecBuild SpecOwner ProofOwner FixPipe.
Import ListNotations.
Open Scope list_scope.
Open Scope Z_scope.

(** ** C89: with link time optimisation, code is charged to the component whose directory
    contains its source file.

    Full statement: in the map file that [get] leaves behind every input section is one
    of the map file, or one of a symbol, with the archive of the innermost component whose
    directory contains the source file of the symbol.

    It is false: directories are compared as strings, so that /p/led contains
    /p/led_strip/strip.c.  *)
Definition c89_claim : Prop := forall w ls ud m mf' mf e pd,
  get w ls ud None None = Ok (m, mf') -> w_mapfile w = Ok mf -> w_elf w = Ok (Some e) -> w_proj_desc w = Some pd -> wants_dwarf ud w true ->
  forall s i, In s (mf_sections mf') -> In i (o_isecs s) ->
    (exists s0 i0, In s0 (mf_sections mf) /\ o_name s0 = o_name s /\ In i0 (o_isecs s0) /\ i_archive i = i_archive i0 /\ i_object i = i_object i0) \/
    (exists a y c, In (a, y) (elf_cusyms e) /\ innermost (pd_components pd) (cu_name y) c /\ i_archive i = comp_archive c /\
       i_object i = basename (cu_name y) /\ i_name i = cu_sname y /\ i_addr i = cu_value y /\ i_size i = cu_size y).

Definition strip_elf : elf := ElfFile [] [] [ (0x42000030, mk_cusym "strip_on" 0x42000030 0x20 "/p/led_strip/strip.c"); (0x420000b0, mk_cusym "late" 0x420000b0 0x8 "/p/led/led.c") ].
Definition strip_desc : projdesc := ProjDesc "esp32s3" [Component "/p/led" "esp-idf/led/libled.a"].
Definition strip_mf : mapfile := MapFile "esp32s3" regions_s3 [ mk_osec ".flash.text" 0x42000020 0x60 [ mk_isec ".text" 0x42000020 0x60 0 "(exe)" "/tmp/ccA.ltrans0.o" [] ] ].
Definition strip_world : world := World "/p/build/app.map" (Some strip_desc) true (Ok strip_mf) (Ok (Some strip_elf)) (fun _ => Ok chip_s3).
Theorem c89_owner_refuted : ~ c89_claim /\
  exists m mf' s i, get strip_world false None None None = Ok (m, mf') /\ In s (mf_sections mf') /\ In i (o_isecs s) /\
    i_archive i = list_ascii_of_string "esp-idf/led/libled.a" /\ i_object i = list_ascii_of_string "strip.c" /\
    ~ within (list_ascii_of_string "/p/led") (list_ascii_of_string "/p/led_strip/strip.c").
Proof.
  assert (NW : ~ within (list_ascii_of_string "/p/led") (list_ascii_of_string "/p/led_strip/strip.c")) by (intros (r & R); discriminate R).
  assert (X : exists m mf' s i, get strip_world false None None None = Ok (m, mf') /\ In s (mf_sections mf') /\ In i (o_isecs s) /\
    i_archive i = list_ascii_of_string "esp-idf/led/libled.a" /\ i_object i = list_ascii_of_string "strip.c").
  { do 4 eexists. split; [vm_compute; reflexivity|]. split; [left; reflexivity|]. split; [right; left; reflexivity|]. split; reflexivity. }
  split.
  - intros C. destruct X as (m & mf' & s & i & E & Is & Ii & A & O).
    destruct (C strip_world false None m mf' strip_mf strip_elf strip_desc E eq_refl eq_refl eq_refl (or_intror (conj eq_refl eq_refl)) s i Is Ii)
      as [(s0 & i0 & I0 & _ & J0 & A0 & _)|(a & y & c & Iy & (Ic & Wc & _) & Ac & Oc & _)].
    + destruct I0 as [<-|[]]. destruct J0 as [<-|[]]. rewrite A in A0. discriminate A0.
    + destruct Ic as [<-|[]]. destruct Iy as [Iy|[Iy|[]]]; injection Iy as <- <-.
      * exact (NW Wc).
      * rewrite O in Oc. vm_compute in Oc. discriminate Oc.
  - destruct X as (m & mf' & s & i & E & Is & Ii & A & O). exists m, mf', s, i. auto 8.
Qed.
Print Assumptions c89_owner_refuted.

(** It holds when no component's directory is the start of the name of another directory
    with sources (missing: the general case, which is false) *)
Theorem c89_owner_partial : forall w ls ud m mf' mf e pd,
  get w ls ud None None = Ok (m, mf') -> w_mapfile w = Ok mf -> w_elf w = Ok (Some e) -> w_proj_desc w = Some pd -> wants_dwarf ud w true ->
  (forall a s c, In (a, s) (elf_cusyms e) -> In c (pd_components pd) -> same_start (comp_path c) (cu_name s) -> within (comp_path c) (cu_name s)) ->
  forall s i, In s (mf_sections mf') -> In i (o_isecs s) ->
    (exists s0 i0, In s0 (mf_sections mf) /\ o_name s0 = o_name s /\ In i0 (o_isecs s0) /\ i_archive i = i_archive i0 /\ i_object i = i_object i0) \/
    (exists a y c, In (a, y) (elf_cusyms e) /\ innermost (pd_components pd) (cu_name y) c /\ i_archive i = comp_archive c /\
       i_object i = basename (cu_name y) /\ i_name i = cu_sname y /\ i_addr i = cu_value y /\ i_size i = cu_size y).
Proof. exact get_owner. Qed.
Print Assumptions c89_owner_partial.

(** and every symbol of a file in some component is offered to the expansion, with the
    archive of the innermost one *)
Theorem c89_offered_partial : forall symbols comps a s,
  In (a, s) symbols -> cu_size s <> 0 -> cu_name s <> [] ->
  (forall c, In c comps -> same_start (comp_path c) (cu_name s) -> within (comp_path c) (cu_name s)) ->
  (exists c, In c comps /\ within (comp_path c) (cu_name s)) ->
  exists c, innermost comps (cu_name s) c /\
    In (a, ASym (cu_sname s) (cu_value s) (cu_size s) (comp_archive c) (basename (cu_name s))) (archive_symbols symbols comps).
Proof. exact owner_ok. Qed.
Print Assumptions c89_offered_partial.

(** the components are those of the description, with the path of the library in the
    build directory *)
Theorem c89_components : forall o info b ls, dget (list_ascii_of_string "build_component_info") o = Some (JObj info) ->
  dget (list_ascii_of_string "build_dir") o = Some (JStr b) -> directory b -> b <> [] ->
  Forall2 (fun kv l => component_entry b (snd kv) l) info ls -> load_components (JObj o) = Ok (concat ls).
Proof. exact load_components_ok. Qed.
Print Assumptions c89_components.
Example c89_example_components :
  load_components (JObj [ (list_ascii_of_string "build_dir", JStr "/p/build"); (list_ascii_of_string "build_component_info",
    JObj [ (list_ascii_of_string "led", JObj [(list_ascii_of_string "file", JStr "/p/build/esp-idf/led/libled.a"); (list_ascii_of_string "dir", JStr "/p/led")]);
           (list_ascii_of_string "cfg", JObj [(list_ascii_of_string "file", JStr ""); (list_ascii_of_string "dir", JStr "/p/cfg")]) ]) ]) =
  Ok [Component "/p/led" "esp-idf/led/libled.a"].
Proof. vm_compute. reflexivity. Qed.

(** two components, one inside the other: the inner one is charged *)
Definition nest_comps : list component := [Component "/p/main" "esp-idf/main/libmain.a"; Component "/p/main/sub" "esp-idf/sub/libsub.a"].
Definition nest_elf : elf := ElfFile [] [] [ (0x42000030, mk_cusym "go" 0x42000030 0x20 "/p/main/sub/x.c"); (0x420000b0, mk_cusym "late" 0x420000b0 0x8 "/p/main/m.c") ].
Definition nest_world : world := World "/p/build/app.map" (Some (ProjDesc "esp32s3" nest_comps)) true (Ok strip_mf) (Ok (Some nest_elf)) (fun _ => Ok chip_s3).
Example c89_example : exists m mf' s, get nest_world false None None None = Ok (m, mf') /\ In s (mf_sections mf') /\
  map (fun i => (i_archive i, i_size i)) (o_isecs s) =
    [(list_ascii_of_string "(exe)", 0x10); (list_ascii_of_string "esp-idf/sub/libsub.a", 0x20); (list_ascii_of_string "(exe)", 0x30)] /\
  (forall a s c, In (a, s) (elf_cusyms nest_elf) -> In c nest_comps -> same_start (comp_path c) (cu_name s) -> within (comp_path c) (cu_name s)).
Proof.
  do 3 eexists. split; [vm_compute; reflexivity|]. split; [left; reflexivity|]. split; [reflexivity|].
  intros a s c [Is|[Is|[]]] [<-|[<-|[]]] (r & R); injection Is as <- <-; cbn in R.
  - exists (list_ascii_of_string "sub/x.c"). reflexivity.
  - exists (list_ascii_of_string "x.c"). reflexivity.
  - exists (list_ascii_of_string "m.c"). reflexivity.
  - discriminate R.
Qed.
