(** * FixProject: the files of a small project *)
From Coq Require Import Ascii String List ZArith Bool Lia.
From Verif Require Import Base MemMap Pipeline PyStr MapFile SpecMap FixMap ElfRead SpecElf FixElf Chips SpecBuild SpecBytes SpecChips ProofChips Project SpecProject SpecEnd.
Import ListNotations.
Open Scope list_scope.
Open Scope Z_scope.

(** the map file, with newlines between the lines *)
Definition px_text : str := flat_map (fun l => l ++ ["010"%char]) fx_lines.
Lemma px_lines : splitlines px_text = fx_lines.
Proof. vm_compute. reflexivity. Qed.

(** an ELF file with one section in memory *)
Definition px_shstr : list Z := bz "" ++ bz ".iram0.text" ++ bz ".shstrtab".
Definition px_shdrs : list xshdr :=
  [ XShdr 0 0 0 0 0 0 0 0 0 0;
    XShdr 1 8 6 0x40080400 52 32 0 0 4 0;
    XShdr 13 3 0 0 52 (blen px_shstr) 0 0 1 0 ].
Definition px_names : list str := map tx [""; ".iram0.text"; ".shstrtab"]%string.
Definition px_ehdr : ehdr :=
  Ehdr [127; 69; 76; 70; 1; 1; 1; 0; 0; 0; 0; 0; 0; 0; 0; 0]
    2 94 1 0x40080400 0 (52 + blen px_shstr) 0 52 (phdr_size false) 0 (shdr_size false) 3 2.
Definition px_elf : list Z := ehdr_bytes false false px_ehdr ++ px_shstr ++ flat_map (shdr_bytes false false) px_shdrs.
Lemma px_image : elf_image false false px_elf px_ehdr [] px_shdrs.
Proof.
  split; [split|vm_compute; discriminate].
  all: try (intros _).
  all: try (apply occursb_ok; vm_compute; reflexivity).
  all: try reflexivity.
  all: try (repeat constructor; numbers).
Qed.
Definition px_headers : list (str * xshdr) := combine px_names px_shdrs.

Definition px_desc : json := JObj
  [ (tx "target", JStr "esp32"); (tx "app_elf", JStr "app.elf"); (tx "build_dir", JStr "/home/me/app/build") ].

(** a file system with the project in a directory *)
Definition px_disk (cwd dir : string) : disk :=
  let f (name : string) := (tx dir ++ "/"%char :: tx name)%list in
  {| d_cwd := tx cwd;
     d_text := fun fn => if fn =?= f "app.map" then Some px_text else if fn =?= f "boot.map" then Some px_text else None;
     d_json := fun fn => if fn =?= f "project_description.json" then Some px_desc
                         else if fn =?= f "config/sdkconfig.json" then Some (JObj []) else None;
     d_isfile := fun fn => fn =?= f "app.elf";
     d_bytes := fun fn => if fn =?= f "app.elf" then Some px_elf else None |}.
