(** * From the files of a project to its report (C88) *)
From Coq Require Import Ascii String List ZArith Lia Bool.
From Verif Require Import Base MemMap SpecTree Pipeline SpecPipe SpecBuild SpecBytes ProofBytes PyStr MapFile SpecMap ElfRead SpecElf Project SpecProject ProofProject1 ProofProject2 SpecEnd ProofEnd Chips SpecChips ProofChips FixMap FixElf FixProject PropProject.
Import ListNotations.
Open Scope list_scope.
Open Scope Z_scope.

(** ** C88: for a map file as the linker prints it, the used size of a memory type is the
    number of bytes of the printed output sections that belong to it by the chip description *)
Theorem c88_used_bytes : forall d dir name text rs l crt im ls ud m types,
  directory dir -> proper name -> d_text d (in_dir dir name) = Some text ->
  printed_map rs l crt (splitlines text) -> Forall regular l -> image_of d dir name im ->
  get_files d (get_memory_types chip_info) (in_dir dir name) ls ud = Ok m -> get_memory_types chip_info (m_target m) = Ok types ->
  Forall (fun o => counted im o -> section_mapped rs types (printed_section o)) l ->
  exists keep b, (forall o, keep o = true <-> counted im o) /\ (forall n a T, b n a T = true <-> byte_goes types n a T) /\
    forall T t, dget T (m_types m) = Some t ->
      t_used t = zsumf (fun o => bytes_with (fun a => b (pr_name o) a T) (pr_addr o) (pr_size o)) (filter keep l).
Proof. intros d dir name text rs l crt im ls ud m types D P T Pm R I. exact (used_end d dir name text rs l crt im D P T Pm R I ls ud m types). Qed.
Print Assumptions c88_used_bytes.

(** and what is listed for sections, archives and object files are their printed bytes *)
Theorem c88_section_bytes : forall d dir name text rs l crt im ls ud m types,
  directory dir -> proper name -> d_text d (in_dir dir name) = Some text ->
  printed_map rs l crt (splitlines text) -> Forall regular l -> image_of d dir name im -> no_dwarf d dir ud ->
  get_files d (get_memory_types chip_info) (in_dir dir name) ls ud = Ok m -> get_memory_types chip_info (m_target m) = Ok types ->
  Forall (fun o => counted im o -> section_mapped rs types (printed_section o) /\ unbroken rs types (printed_section o) /\ items_in o) l ->
  exists keep b, (forall o, keep o = true <-> counted im o) /\ (forall n a T, b n a T = true <-> byte_goes types n a T) /\
    (NoDup (map pr_name (filter keep l)) ->
     forall T t, dget T (m_types m) = Some t ->
      (forall o, In o l -> counted im o -> listed_as b T (printed_section o) (dget (pr_name o) (t_sections t))) /\
      (forall n x, dget n (t_sections t) = Some x -> exists o, In o l /\ counted im o /\ pr_name o = n)).
Proof. intros d dir name text rs l crt im ls ud m types D P T Pm R I. exact (sections_end d dir name text rs l crt im D P T Pm R I ls ud m types). Qed.
Print Assumptions c88_section_bytes.

(** ** example *)
Definition types_esp32 : list chip_type :=
  [ ChipType "DRAM" 1073405952 0 335872; ChipType "IRAM" 1074200576 0 327680; ChipType "Flash Code" 1074536448 0 11788288;
    ChipType "Flash Data" 1061158912 0 4194304; ChipType "SPI DRAM" 1065353216 0 4194304; ChipType "RTC FAST" 1073217536 1074528256 8192;
    ChipType "RTC SLOW" 1342177280 0 8192 ].
Lemma types_esp32_ok : get_memory_types chip_info "esp32" = Ok types_esp32.
Proof. vm_compute. reflexivity. Qed.
Lemma px_file_image : image_of disk1 dir1 (tx "app.map") (Some px_headers).
Proof.
  apply (image_file _ _ _ px_object (tx "app.elf") (in_dir dir1 (tx "app.elf")) px_elf).
  - vm_compute. reflexivity.
  - exact px_describes.
  - right. split; [|reflexivity]. intros (r & R). discriminate R.
  - vm_compute. reflexivity.
  - vm_compute. reflexivity.
  - exists false, false, px_ehdr, [], (XShdr 13 3 0 0 52 (blen px_shstr) 0 0 1 0). split; [exact px_image|]. split; [reflexivity|].
    assert (G : forall (n : str) h, SpecElf.plain n -> occursb px_shstr (x_name h) (SpecElf.text n ++ [0]) = true ->
      SpecElf.plain (fst (n, h)) /\ string_at px_elf (XShdr 13 3 0 0 52 (blen px_shstr) 0 0 1 0) (x_name (snd (n, h))) (fst (n, h))).
    { intros n h Pn Oc. split; [exact Pn|]. exists px_shstr. split; [apply occursb_ok; vm_compute; reflexivity|]. split; [reflexivity|]. now apply occursb_ok. }
    repeat (constructor; [apply G; [apply plain_ok; vm_compute; reflexivity|vm_compute; reflexivity]|]). constructor.
Qed.
Definition px_text_section : printed := Printed (fx ".iram0.text") 1074267136 32 [fx_item1; fx_item2].
Lemma px_counted o : In o fx_sections -> counted (Some px_headers) o -> o = px_text_section.
Proof.
  intros [<-|[<-|[]]] (_ & _ & C & _); [reflexivity|]. exfalso.
  destruct C as (hs & h & E & I & _).
  - exists (tx ".iram0.text"), px_headers. eexists. split; [reflexivity|]. split; [right; left; reflexivity|]. split; discriminate.
  - injection E as <-. destruct I as [I|[I|[I|[]]]]; injection I as I _; discriminate I.
Qed.
Lemma px_iram a : 0x40080400 <= a < 0x400a0000 -> exists t, In t types_esp32 /\ covers t a.
Proof.
  intros H. exists (ChipType "IRAM" 1074200576 0 327680). split; [right; left; reflexivity|].
  exists 1074200576, 1074528256. split; [left; split; reflexivity|lia].
Qed.
Lemma px_mapped : section_mapped fx_regions types_esp32 (printed_section px_text_section).
Proof.
  right. intros a (A & B). cbn in A, B. exists (Region (fx "iram0_0_seg") 1074267136 130048 (fx "xr")). split; [left; reflexivity|].
  split; [discriminate|]. cbn [r_origin r_length]. split; [lia|]. intros a' Ha'. apply px_iram. lia.
Qed.
Lemma px_unbroken : unbroken fx_regions types_esp32 (printed_section px_text_section).
Proof.
  intros a b T (A1 & A2) (B1 & B2) L _ _. cbn in A1, A2, B1, B2. split.
  - intros r [<-|[<-|[]]] N H; cbn [r_origin r_length r_name] in *; [lia|]. lia.
  - intros t lo hi It W H. apply windows_of_ok in W.
    destruct It as [<-|[<-|[<-|[<-|[<-|[<-|[<-|[]]]]]]]]; cbn in W; repeat (destruct W as [W|W]; [injection W as <- <-; lia|]); contradiction.
Qed.
Lemma px_items : items_in px_text_section.
Proof. repeat (constructor; [cbn; lia|]). constructor. Qed.

(** a map file, an ELF file and a description that meet all conditions; 32 bytes of IRAM are
    used, 8 of them by libmain.a *)
Example c88_example : exists m t x,
  d_text disk1 (in_dir dir1 (tx "app.map")) = Some px_text /\ printed_map fx_regions fx_sections (Some fx_entries) (splitlines px_text) /\
  Forall regular fx_sections /\ image_of disk1 dir1 (tx "app.map") (Some px_headers) /\ no_dwarf disk1 dir1 None /\
  get_files disk1 (get_memory_types chip_info) (in_dir dir1 (tx "app.map")) false None = Ok m /\ get_memory_types chip_info (m_target m) = Ok types_esp32 /\
  Forall (fun o => counted (Some px_headers) o -> section_mapped fx_regions types_esp32 (printed_section o) /\ unbroken fx_regions types_esp32 (printed_section o) /\ items_in o) fx_sections /\
  NoDup (map pr_name fx_sections) /\
  dget (list_ascii_of_string "IRAM") (m_types m) = Some t /\ t_used t = 32 /\ dget (list_ascii_of_string ".iram0.text") (t_sections t) = Some x /\
  archive_size "libmain.a" x = 0 /\ archive_size "esp-idf/main/libmain.a" x = 8.
Proof.
  do 3 eexists. split; [vm_compute; reflexivity|]. split; [rewrite px_lines; exact fx_map_ok|]. split; [exact fx_regular|]. split; [exact px_file_image|].
  split; [right; split; [reflexivity|]; right; exists []; split; [vm_compute; reflexivity|reflexivity]|].
  split; [vm_compute; reflexivity|]. split; [exact types_esp32_ok|]. split.
  { apply Forall_forall. intros o I C. rewrite (px_counted o I C). split; [exact px_mapped|]. split; [exact px_unbroken|exact px_items]. }
  split; [repeat (constructor; [intros X; repeat (destruct X as [X|X]; [discriminate X|]); exact X|]); constructor|].
  split; [vm_compute; reflexivity|]. split; [reflexivity|]. split; [vm_compute; reflexivity|]. split; vm_compute; reflexivity.
Qed.
