(** * Model of the whole command: main.py:74-162 on the files of Project.v *)
From Coq Require Import Ascii String List ZArith Bool.
From Verif Require Import Base MemMap Filter Pipeline PyStr MapFile Deps Table Formats ElfRead Dwarf Project Main.
Import ListNotations.
Open Scope list_scope.
Open Scope Z_scope.

Section Files.
Variable d : disk.
Variable chips : str -> res (list chip_type).

(** a symbol as deps.py:98 sees it: the name is read only of functions and objects that are
    not absolute *)
Definition dsym_of (e : xelf) (y : xsym) : res dsym :=
  if ((xsym_type y =? STT_FUNC) || (xsym_type y =? STT_OBJECT)) && negb (x_shndx y =? SHN_ABS) then
    do n <- xsym_name e y; Ok (DSym n (xsym_type y) (x_shndx y))
  else Ok (DSym [] (xsym_type y) (x_shndx y)).
Definition dep_symbols (map_fn : str) : res (list dsym) :=
  do pd <- get_proj_desc d map_fn;
  do e <- get_elf d map_fn pd;
  match e with
  | None => Ok []
  | Some e => do l <- symbols e; mapM (dsym_of e) l
  end.

(** what main.py:118-139 reads for an input file.  The paths it uses are relative to the working
    directory if the input file is; they are made absolute here, which is the same file.
    An error of the description or (if the dependencies are asked for) in the names of symbols
    is taken to be found when the ELF file is opened. *)
Definition load_project (load_symbols : bool) (use_dwarf : option bool) (deps : bool) (input : str) : project :=
  let map_fn := abspath (d_cwd d) input in
  let w := match load_world d chips input load_symbols use_dwarf with
           | Ok w => w
           | Err e => World map_fn None false (load_map d map_fn) (Err e) chips
           end in
  let syms := dep_symbols map_fn in
  let w := match syms with
           | Err e => if deps then World (w_map_fn w) (w_proj_desc w) (w_lto w) (w_mapfile w) (Err e) (w_memory_types w) else w
           | Ok _ => w
           end in
  Project w (match read_map d map_fn with Ok pm => pm_crt pm | Err _ => None end)
    (match syms with Ok l => l | Err _ => [] end).

Definition needs_deps (a : args) : bool := a_archive_dependencies a || match a_format a with FDot => true | _ => false end.
(** [load_symbols] and [dwarf_option] are not changed by the normalisation of the options *)
Definition projects_of (a : args) (input : str) : project := load_project (load_symbols a) (dwarf_option a) (needs_deps a) input.

(** the command [esp-idf-size] *)
Definition run_files (render : console -> list piece -> str) (encode : str -> str) (ord : set_order) (pf : pct_format) (c : cmd) : prog unit :=
  run_cmd render encode ord pf (projects_of (c_args c)) c.
End Files.
