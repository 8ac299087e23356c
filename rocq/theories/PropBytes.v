(** * Every byte is reported once, under the memory type of its address (C85, C86) *)
From Coq Require Import Ascii String List ZArith Lia Bool.
From Verif Require Import Base MemMap SpecTree Pipeline SpecPipe SpecBuild SpecBytes ProofBytes ProofBytes2 ProofBytes3 Chips SpecChips ProofChips FixPipe.
Import ListNotations.
Open Scope list_scope.
Open Scope Z_scope.

(** ** C85: the used size of a memory type is the number of bytes of the kept output
    sections that belong to it *)
Theorem c85_used_bytes : forall w ls ud ma ea m mf' mf e types,
  get w ls ud ma ea = Ok (m, mf') -> map_file_of w ma mf -> w_elf w = Ok e -> w_memory_types w (m_target m) = Ok types ->
  windows_separate types -> Forall (fun r => 0 <= r_length r) (mf_regions mf) ->
  Forall (fun s => kept e s -> 0 <= o_size s /\ section_mapped (mf_regions mf) types s) (mf_sections mf) ->
  exists keep d, (forall s, keep s = true <-> kept e s) /\ (forall n a T, d n a T = true <-> byte_goes types n a T) /\
    forall T t, dget T (m_types m) = Some t ->
      t_used t = zsumf (fun s => bytes_with (fun a => d (o_name s) a T) (o_addr s) (o_size s)) (filter keep (mf_sections mf)).
Proof. exact used_bytes_ok. Qed.
Print Assumptions c85_used_bytes.

(** the shipped chip descriptions meet the condition on the windows *)
Theorem c85_used_bytes_shipped : forall w ls ud ma ea m mf' mf e types,
  (forall t, w_memory_types w t = get_memory_types chip_info t) ->
  get w ls ud ma ea = Ok (m, mf') -> map_file_of w ma mf -> w_elf w = Ok e -> get_memory_types chip_info (m_target m) = Ok types ->
  Forall (fun r => 0 <= r_length r) (mf_regions mf) ->
  Forall (fun s => kept e s -> 0 <= o_size s /\ section_mapped (mf_regions mf) types s) (mf_sections mf) ->
  exists keep d, (forall s, keep s = true <-> kept e s) /\ (forall n a T, d n a T = true <-> byte_goes types n a T) /\
    forall T t, dget T (m_types m) = Some t ->
      t_used t = zsumf (fun s => bytes_with (fun a => d (o_name s) a T) (o_addr s) (o_size s)) (filter keep (mf_sections mf)).
Proof.
  intros w ls ud ma ea m mf' mf e types Hw E Lm Le Ty. rewrite <- Hw in Ty. intros Rl F.
  refine (used_bytes_ok w ls ud ma ea m mf' mf e types E Lm Le Ty _ Rl F). rewrite Hw in Ty. exact (proj1 (chips_ok _ _ Ty)).
Qed.
Print Assumptions c85_used_bytes_shipped.

(** ** C86: and the same for every output section, archive and object file, when the
    section does not continue over the end of a region or window with the same memory type *)
Theorem c86_section_bytes : forall w ls ud ma ea m mf' mf e types,
  get w ls ud ma ea = Ok (m, mf') -> map_file_of w ma mf -> w_elf w = Ok e -> w_memory_types w (m_target m) = Ok types ->
  wants_dwarf ud w false -> windows_separate types -> Forall (fun r => 0 <= r_length r) (mf_regions mf) ->
  Forall (fun s => kept e s -> 0 <= o_size s /\ section_mapped (mf_regions mf) types s /\ unbroken (mf_regions mf) types s /\ isecs_in s) (mf_sections mf) ->
  exists keep d, (forall s, keep s = true <-> kept e s) /\ (forall n a T, d n a T = true <-> byte_goes types n a T) /\
    (NoDup (map o_name (filter keep (mf_sections mf))) ->
     forall T t, dget T (m_types m) = Some t ->
      (forall s, In s (mf_sections mf) -> kept e s -> listed_as d T s (dget (o_name s) (t_sections t))) /\
      (forall n x, dget n (t_sections t) = Some x -> exists s, In s (mf_sections mf) /\ kept e s /\ o_name s = n)).
Proof. exact section_bytes_ok. Qed.
Print Assumptions c86_section_bytes.

(** .iram0.text crosses from IRAM to DIRAM in the middle of an object file *)
Definition mf_bytes : mapfile := MapFile "esp32s3" regions_s3 [text_s3; data_s3].
Definition world_bytes : world := World "/p/build/app.map" None false (Ok mf_bytes) (Ok (Some elf_s3)) (get_memory_types chip_info).
Definition types_esp32s3 : list chip_type :=
  [ ChipType "IRAM" 0x40370000 0 0x8000; ChipType "DIRAM" 0x3FC88000 0x40378000 0x68000; ChipType "DRAM" 0x3FCF0000 0 0x10000;
    ChipType "Flash Code" 0x42000000 0 0x2000000; ChipType "Flash Data" 0x3C000000 0 0x2000000; ChipType "External RAM" 0x3C000000 0 0x2000000;
    ChipType "RTC FAST" 0x3ff80000 0x600FE000 0x2000; ChipType "RTC SLOW" 0x50000000 0 0x2000 ].
Lemma bytes_types : get_memory_types chip_info "esp32s3" = Ok types_esp32s3.
Proof. vm_compute. reflexivity. Qed.
Lemma bytes_separate : windows_separate types_esp32s3.
Proof. apply separate_ok. vm_compute. reflexivity. Qed.

Ltac addr := unfold byte_of, text_s3, data_s3, mk_osec in *; cbn [o_addr o_size o_name] in *.
Lemma bytes_iram a : 0x40370000 <= a < 0x40378000 -> first_covering types_esp32s3 a (ChipType "IRAM" 0x40370000 0 0x8000).
Proof.
  intros H. exists [], (tl types_esp32s3). split; [reflexivity|]. split; [|intros u []]. exists 0x40370000, 0x40378000. split; [left; split; reflexivity|lia].
Qed.
Lemma bytes_diram a : 0x40378000 <= a < 0x403e0000 -> first_covering types_esp32s3 a (ChipType "DIRAM" 0x3FC88000 0x40378000 0x68000).
Proof.
  intros H. exists [ChipType "IRAM" 0x40370000 0 0x8000], (tl (tl types_esp32s3)). split; [reflexivity|]. split.
  - exists 0x40378000, 0x403e0000. split; [right; split; [discriminate|split; reflexivity]|lia].
  - intros u [<-|[]] (lo & hi & W & B). apply windows_of_ok in W. cbn in W. destruct W as [W|[]]. injection W as <- <-. lia.
Qed.
Lemma bytes_mapped s : In s [text_s3; data_s3] -> section_mapped regions_s3 types_esp32s3 s.
Proof.
  intros [<-|[<-|[]]]; right; intros a Ha; addr.
  - exists (mk_region "iram0_0_seg" 0x40374000 0x57700 "xr"). split; [right; left; reflexivity|]. split; [discriminate|]. cbn [mk_region r_origin r_length].
    split; [lia|]. intros a' Ha'. destruct (Z.lt_ge_cases a' 0x40378000).
    + destruct (bytes_iram a') as (l1 & l2 & E & C & _); [lia|]. exists (ChipType "IRAM" 0x40370000 0 0x8000). split; [left; reflexivity|exact C].
    + destruct (bytes_diram a') as (l1 & l2 & E & C & _); [lia|]. exists (ChipType "DIRAM" 0x3FC88000 0x40378000 0x68000). split; [right; left; reflexivity|exact C].
  - exists (mk_region "dram0_0_seg" 0x3FC88000 0x53700 "rw"). split; [right; right; right; left; reflexivity|]. split; [discriminate|]. cbn [mk_region r_origin r_length].
    split; [lia|]. intros a' Ha'. exists (ChipType "DIRAM" 0x3FC88000 0x40378000 0x68000). split; [right; left; reflexivity|].
    exists 0x3FC88000, 0x3fcf0000. split; [left; split; reflexivity|lia].
Qed.
Lemma bytes_unbroken s : In s [text_s3; data_s3] -> unbroken regions_s3 types_esp32s3 s.
Proof.
  intros Is a b T Ha Hb L Ga Gb.
  assert (Same : (a < 0x40378000 <= b -> False)).
  { intros X. destruct Is as [<-|[<-|[]]]; addr; [|lia].
    assert (NE : ~ ext_ram_name ".iram0.text") by (intros (r & [R|R]); cbn in R; discriminate R).
    destruct Ga as [[N _]|[_ (t & Ft & Et)]]; [contradiction|]. destruct Gb as [[N _]|[_ (u & Fu & Eu)]]; [contradiction|].
    rewrite (first_covering_unique _ _ _ _ Ft (bytes_iram a ltac:(lia))) in Et. rewrite (first_covering_unique _ _ _ _ Fu (bytes_diram b ltac:(lia))) in Eu.
    cbn [ct_name] in *. rewrite <- Et in Eu. discriminate Eu. }
  assert (B : (0x40374400 <= a < 0x40378400 /\ b < 0x40378400) \/ (0x3FC88000 <= a < 0x3FC88010 /\ b < 0x3FC88010)).
  { destruct Is as [<-|[<-|[]]]; addr; lia. }
  clear Is Ha Hb Ga Gb. split.
  - intros r Ir Nd. destruct Ir as [<-|[<-|[<-|[<-|[]]]]]; cbn [mk_region r_name r_origin r_length] in *; lia.
  - intros t lo hi It W H. apply windows_of_ok in W.
    destruct It as [<-|[<-|[<-|[<-|[<-|[<-|[<-|[<-|[]]]]]]]]]; cbn in W; repeat (destruct W as [W|W]; [injection W as <- <-; lia|]); contradiction.
Qed.

Example c85_example : exists m mf, get world_bytes false None None None = Ok (m, mf) /\ map_file_of world_bytes None mf_bytes /\
  w_memory_types world_bytes (m_target m) = Ok types_esp32s3 /\ windows_separate types_esp32s3 /\
  Forall (fun r => 0 <= r_length r) (mf_regions mf_bytes) /\
  Forall (fun s => kept (Some elf_s3) s -> 0 <= o_size s /\ section_mapped (mf_regions mf_bytes) types_esp32s3 s) (mf_sections mf_bytes) /\
  option_map t_used (dget (list_ascii_of_string "IRAM") (m_types m)) = Some 0x3c00 /\ option_map t_used (dget (list_ascii_of_string "DIRAM") (m_types m)) = Some 0x410.
Proof.
  eexists. eexists. split; [vm_compute; reflexivity|]. split; [reflexivity|]. split; [exact bytes_types|]. split; [exact bytes_separate|].
  split; [repeat (constructor; [discriminate|]); constructor|]. split.
  - constructor; [intros _; split; [discriminate|apply bytes_mapped; left; reflexivity]|].
    constructor; [intros _; split; [discriminate|apply bytes_mapped; right; left; reflexivity]|constructor].
  - split; reflexivity.
Qed.
Example c86_example : exists m mf t u x y, get world_bytes false None None None = Ok (m, mf) /\ wants_dwarf None world_bytes false /\
  Forall (fun s => kept (Some elf_s3) s -> 0 <= o_size s /\ section_mapped regions_s3 types_esp32s3 s /\ unbroken regions_s3 types_esp32s3 s /\ isecs_in s) (mf_sections mf_bytes) /\
  NoDup (map o_name (mf_sections mf_bytes)) /\ dget (list_ascii_of_string "IRAM") (m_types m) = Some t /\ dget (list_ascii_of_string "DIRAM") (m_types m) = Some u /\
  dget (list_ascii_of_string ".iram0.text") (t_sections t) = Some x /\ dget (list_ascii_of_string ".iram0.text") (t_sections u) = Some y /\
  object_size "libfreertos.a" "queue.c.obj" x = 0xc /\ object_size "libfreertos.a" "queue.c.obj" y = 0x34.
Proof.
  do 6 eexists. split; [vm_compute; reflexivity|]. split; [right; split; reflexivity|]. split.
  - assert (K : forall s, In s [text_s3; data_s3] -> 0 <= o_size s -> isecs_in s -> kept (Some elf_s3) s ->
        0 <= o_size s /\ section_mapped regions_s3 types_esp32s3 s /\ unbroken regions_s3 types_esp32s3 s /\ isecs_in s).
    { intros s Is P Q _. split; [exact P|]. split; [apply bytes_mapped, Is|]. split; [apply bytes_unbroken, Is|exact Q]. }
    constructor; [apply K; [left; reflexivity|discriminate|]|constructor; [apply K; [right; left; reflexivity|discriminate|]|constructor]].
    + repeat (apply Forall_cons; [cbn [mk_isec mk_osec i_size i_fill i_addr o_addr o_size text_s3]; lia|]); apply Forall_nil.
    + repeat (apply Forall_cons; [cbn [mk_isec mk_osec i_size i_fill i_addr o_addr o_size data_s3]; lia|]); apply Forall_nil.
  - split; [|vm_compute; repeat split; reflexivity]. apply nodup_ok. vm_compute. reflexivity.
Qed.
