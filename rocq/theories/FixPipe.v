(** * Concrete inputs for the Examples about the construction of the memory map *)
From Coq Require Import Ascii String List ZArith Bool Lia.
From Verif Require Import Base MemMap SpecTree Pipeline SpecPipe.
Import ListNotations.
Open Scope list_scope.
Open Scope Z_scope.

Definition mk_region (n : string) (o l : Z) (a : string) : region :=
  Region (list_ascii_of_string n) o l (list_ascii_of_string a).
Definition mk_ctype (n : string) (p s l : Z) : chip_type := ChipType (list_ascii_of_string n) p s l.
Definition mk_sregion (n : string) (o l : Z) (t : chip_type) : sregion :=
  SRegion (list_ascii_of_string n) o l [] t.
Definition mk_symbol (n : string) (a s : Z) : symbol := Symbol (list_ascii_of_string n) a s.
Definition mk_isec (n : string) (a s f : Z) (ar o : string) (ys : list symbol) : isection :=
  ISection (list_ascii_of_string n) a s f (list_ascii_of_string ar) (list_ascii_of_string o) ys.
Definition mk_osec (n : string) (a s : Z) (l : list isection) : osection :=
  OSection (list_ascii_of_string n) a s l.

(** a chip like the esp32s3: IRAM, then memory reachable through both buses *)
Definition t_iram : chip_type := mk_ctype "IRAM" 0x40370000 0 0x8000.
Definition t_diram : chip_type := mk_ctype "DIRAM" 0x3FC88000 0x40378000 0x68000.
Definition t_flash : chip_type := mk_ctype "Flash Code" 0x42000000 0 0x2000000.
Definition chip_s3 : list chip_type := [t_iram; t_diram; t_flash].

Definition regions_s3 : list region :=
  [ mk_region "*default*" 0 0xffffffff "";
    mk_region "iram0_0_seg" 0x40374000 0x57700 "xr";
    mk_region "iram0_2_seg" 0x42000020 0x7fffe0 "xr";
    mk_region "dram0_0_seg" 0x3FC88000 0x53700 "rw" ].

Definition parts_s3 : list sregion :=
  [ SRegion "iram0_0_seg" 0x40374000 0x4000 "xr" t_iram;
    SRegion "iram0_0_seg" 0x40378000 0x53700 "xr" t_diram;
    SRegion "iram0_2_seg" 0x42000020 0x7fffe0 "xr" t_flash;
    SRegion "dram0_0_seg" 0x3FC88000 0x53700 "rw" t_diram ].

(** .iram0.text crosses the end of IRAM in the middle of a function *)
Definition text_s3 : osection :=
  mk_osec ".iram0.text" 0x40374400 0x4000
    [ mk_isec ".iram1.0" 0x40374400 0x3bf0 0x4 "libfreertos.a" "tasks.c.obj" [mk_symbol "vTaskSwitch()" 0x40374400 0x3bf0];
      mk_isec ".iram1.1" 0x40377ff4 0x40 0x8 "libfreertos.a" "queue.c.obj"
        [mk_symbol "xQueueSend()" 0x40377ff4 0x20; mk_symbol "xQueueRecv()" 0x40378014 0x20];
      mk_isec ".iram1.2" 0x4037803c 0x3c4 0 "libheap.a" "heap.c.obj" [mk_symbol "malloc()" 0x4037803c 0x3c4] ].
Definition data_s3 : osection :=
  mk_osec ".dram0.data" 0x3FC88000 0x10
    [ mk_isec ".data.a" 0x3FC88000 0x8 0 "libheap.a" "heap.c.obj" [mk_symbol "heap_lock" 0x3FC88000 0x8];
      mk_isec ".data.b" 0x3FC88008 0x8 0 "liblog.a" "log.c.obj" [] ].
(** .flash.text runs over the end of its region *)
Definition flash_s3 : osection :=
  mk_osec ".flash.text" 0x427fff00 0x200
    [ mk_isec ".text.main" 0x427fff00 0x200 0 "libmain.a" "main.c.obj" [mk_symbol "app_main()" 0x427fff00 0x200] ].
Definition sections_s3 : list osection := [text_s3; data_s3; flash_s3].

(** no fuel suffices for region B: it starts outside of the memory type and ends
    where region A ends *)
Definition chip_stuck : list chip_type := [mk_ctype "RAM" 0x150 0 0xb0].
Definition regions_stuck : list region := [mk_region "A" 0x150 0xb0 "rw"; mk_region "B" 0x100 0x100 "rw"].

(** ** an ELF file and a project for the fixture *)
Definition mk_shdr (n : string) (t f s : Z) : shdr := Shdr (list_ascii_of_string n) t f s.
Definition mk_elfsym (n : string) (v s t : Z) : elfsym := ElfSym (list_ascii_of_string n) v s t.
Definition mk_cusym (n : string) (v s : Z) (c : string) : cusym := CuSym (list_ascii_of_string n) v s (list_ascii_of_string c).

Definition elf_s3 : elf := ElfFile
  [ mk_shdr ".iram0.text" 1 6 0x4000; mk_shdr ".dram0.data" 1 3 0x10; mk_shdr ".flash.text" 1 6 0x200;
    mk_shdr ".dram0.bss" 8 3 0x40; mk_shdr ".comment" 1 0x30 0x80 ]
  [ mk_elfsym "xQueueRecv" 0x40378014 0x20 2; mk_elfsym "heap_lock" 0x3FC88000 0x8 1; mk_elfsym "vTaskSwitch" 0x40374400 0x3bf0 2;
    mk_elfsym "xQueueSend" 0x40377ff4 0x20 2; mk_elfsym "malloc" 0x4037803c 0x3c4 2; mk_elfsym "app_main" 0x427fff00 0x200 2;
    mk_elfsym "_start" 0x40374400 0 2; mk_elfsym "main.c" 0 0 4 ]
  [].

Definition mf_s3 : mapfile := MapFile "esp32s3" regions_s3 sections_s3.
Definition world_s3 : world := World "/p/build/app.map" None false (Ok mf_s3) (Ok (Some elf_s3)) (fun _ => Ok chip_s3).
Definition world_noelf : world := World "/p/build/app.map" None false (Ok mf_s3) (Ok None) (fun _ => Ok chip_s3).

(** an LTO project: the input sections have no archive *)
Definition lto_sections : list osection :=
  [ mk_osec ".flash.text" 0x42000020 0x90
      [ mk_isec ".text" 0x42000020 0x60 0x8 "(exe)" "/tmp/ccA.ltrans0.o" [];
        mk_isec ".text" 0x42000088 0x28 0 "libc.a" "memcpy.o" [] ] ].
Definition lto_elf : elf := ElfFile [] []
  [ (0x42000030, mk_cusym "app_main" 0x42000030 0x20 "/p/main/main.c");
    (0x42000058, mk_cusym "led_on" 0x42000058 0x28 "/p/components/led/led.c");
    (0x420000b0, mk_cusym "late" 0x420000b0 0x8 "/p/main/main.c") ].
Definition lto_desc : projdesc := ProjDesc "esp32s3"
  [Component "/p/main" "esp-idf/main/libmain.a"; Component "/p/components/led" "esp-idf/led/libled.a"].
Definition lto_mf : mapfile := MapFile "esp32s3" regions_s3 lto_sections.
Definition world_lto : world := World "/p/build/app.map" (Some lto_desc) true (Ok lto_mf) (Ok (Some lto_elf)) (fun _ => Ok chip_s3).
Definition lto_symbols : dict Z asym := archive_symbols (elf_cusyms lto_elf) (pd_components lto_desc).
