(** * Model of how the files of a project are found and read
    (memorymap.py:198-232, 1081-1102, 1316-1335, 1597-1629; mapfile.py:20-36).

    A file is identified by the string given to [open].  What [json.load] makes of a file is
    part of the file system; the map file and the ELF file are read by the models of
    MapFile.v, ElfRead.v and Dwarf.v. *)
From Coq Require Import Ascii String List ZArith Bool.
From Verif Require Import Base MemMap Pipeline PyStr MapFile ElfRead Dwarf.
Import ListNotations.
Open Scope list_scope.
Open Scope Z_scope.

(** ** os.path for posix *)
Definition slash : ascii := "/"%char.

(** [s.split('/')] *)
Fixpoint pieces (s : str) : list str :=
  match s with
  | [] => [[]]
  | c :: s' =>
    if c =?= slash then [] :: pieces s'
    else match pieces s' with p :: l => (c :: p) :: l | [] => [[c]] end
  end.
(** ['/'.join(l)] *)
Fixpoint join_slash (l : list str) : str :=
  match l with
  | [] => []
  | [x] => x
  | x :: l' => x ++ slash :: join_slash l'
  end.
(** [s.lstrip('/')], [s.rstrip('/')] *)
Fixpoint lstrip_slash (s : str) : str :=
  match s with c :: s' => if c =?= slash then lstrip_slash s' else s | [] => [] end.
Definition rstrip_slash (s : str) : str := rev (lstrip_slash (rev s)).

(** posixpath.join of two paths *)
Definition path_join (a b : str) : str :=
  match b with
  | c :: _ => if c =?= slash then b
              else match rev a with [] => b | d :: _ => if d =?= slash then a ++ b else a ++ slash :: b end
  | [] => match rev a with [] => b | d :: _ => if d =?= slash then a ++ b else a ++ slash :: b end
  end.

(** posixpath.dirname: up to and with the last slash, the trailing slashes removed unless
    there is nothing else *)
Fixpoint head_part (s : str) : str :=
  match s with
  | [] => []
  | c :: s' => if mem slash (c :: s') then c :: head_part s' else []
  end.
Definition dirname (s : str) : str :=
  let h := head_part s in
  match lstrip_slash h with [] => h | _ => rstrip_slash h end.

(** the root of a path: none, one slash, or exactly two slashes *)
Definition path_root (s : str) : str :=
  match s with
  | a :: b :: c :: _ => if a =?= slash then (if (b =?= slash) && negb (c =?= slash) then [slash; slash] else [slash]) else []
  | [a; b] => if a =?= slash then (if b =?= slash then [slash; slash] else [slash]) else []
  | [a] => if a =?= slash then [slash] else []
  | [] => []
  end.
Definition dot : str := ["."%char].
Definition dotdot : str := ["."%char; "."%char].

(** posixpath.normpath; [acc] is new_comps reversed *)
Definition norm_step (rooted : bool) (acc : list str) (c : str) : list str :=
  if (c =?= []) || (c =?= dot) then acc
  else if negb (c =?= dotdot) || (negb rooted && match acc with [] => true | x :: _ => x =?= dotdot end) then c :: acc
  else match acc with _ :: acc' => acc' | [] => [] end.
Definition normpath (s : str) : str :=
  match s with
  | [] => dot
  | _ =>
    let root := path_root s in
    let comps := rev (fold_left (norm_step (negb (root =?= []))) (pieces s) []) in
    match root ++ join_slash comps with [] => dot | p => p end
  end.
(** os.path.abspath *)
Definition abspath (cwd s : str) : str := normpath (path_join cwd s).

(** os.path.splitext(s)[0] for a [s] without slashes: up to the last dot, which does not
    count if there are only dots before it *)
Fixpoint before_last_dot (s : str) : str :=
  match s with
  | [] => []
  | c :: s' => if mem "."%char s' then c :: before_last_dot s' else if c =?= "."%char then [] else c :: s'
  end.
Definition stem (s : str) : str :=
  if forallb (fun c => c =?= "."%char) (before_last_dot s) then s else before_last_dot s.

(** ** pathlib for posix: [Path(s).as_posix()], [Path(s).relative_to(b).as_posix()] *)
Definition path_parts (s : str) : list str :=
  filter (fun p => negb (p =?= []) && negb (p =?= dot)) (pieces (lstrip_slash s)).
Definition as_posix (s : str) : str :=
  match path_root s ++ join_slash (path_parts s) with [] => dot | p => p end.
Fixpoint strip_parts (b l : list str) : option (list str) :=
  match b, l with
  | [], _ => Some l
  | x :: b', y :: l' => if x =?= y then strip_parts b' l' else None
  | _ :: _, [] => None
  end.
Definition relative_to (s b : str) : res str :=
  if path_root s =?= path_root b then
    match strip_parts (path_parts b) (path_parts s) with
    | Some [] => Ok dot
    | Some l => Ok (join_slash l)
    | None => Err ValueError
    end
  else Err ValueError.

(** ** files *)
Inductive json := JNull | JBool (b : bool) | JNum (z : Z) | JStr (s : str) | JList (l : list json) | JObj (d : dict str json).

(** the truth value *)
Definition jtrue (j : json) : bool :=
  match j with
  | JNull => false
  | JBool b => b
  | JNum z => negb (z =? 0)
  | JStr s => negb (s =?= [])
  | JList l => match l with [] => false | _ => true end
  | JObj d => match d with [] => false | _ => true end
  end.

(** [d_text]: the text of a file opened as UTF-8, [None] if that fails with OSError or
    ValueError.  [d_json]: what [json.load] returns, [None] if opening or reading fails
    with OSError or ValueError.  [d_bytes]: the bytes of a file that can be opened *)
Record disk := Disk {
  d_cwd : str;
  d_text : str -> option str;
  d_json : str -> option json;
  d_isfile : str -> bool;
  d_bytes : str -> option bytes }.

(** [_load_json_file], memorymap.py:1081-1089; null is None *)
Definition load_json (d : disk) (fn : str) : option json :=
  match d_json d fn with Some JNull => None | r => r end.

(** [j.get(k, default)] and [j[k]] of what should be a dict *)
Definition jget (j : json) (k : string) (default : json) : res json :=
  match j with
  | JObj d => Ok (match dget (list_ascii_of_string k) d with Some v => v | None => default end)
  | _ => Err AttributeError
  end.
Definition jindex (j : json) (k : string) : res json :=
  match j with
  | JObj d => match dget (list_ascii_of_string k) d with Some v => Ok v | None => Err KeyError end
  | _ => Err TypeError
  end.
(** use as a path or text *)
Definition jstr (j : json) : res str := match j with JStr s => Ok s | _ => Err TypeError end.

Section Files.
Variable d : disk.

(** get_proj_desc, memorymap.py:1597-1614 *)
Definition get_proj_desc (map_fn : str) : res (option json) :=
  match load_json d (path_join (dirname map_fn) "project_description.json") with
  | None => Ok None
  | Some pd =>
    do v <- jget pd "app_elf" (JStr []);
    do app_elf <- jstr v;
    Ok (if stem (basename map_fn) =?= stem (basename app_elf) then Some pd else None)
  end.

(** _load_elf_file, memorymap.py:1092-1102 *)
Definition load_elf_file (fn : str) : res (option xelf) :=
  match d_bytes d fn with
  | None => Ok None
  | Some b => match elf_init b with
              | Ok e => Ok (Some e)
              | Err ValueError | Err OSError | Err Elf_Exception => Ok None
              | Err x => Err x
              end
  end.

(** get_elf, memorymap.py:1617-1629; [pd] is the description if that is available.  An empty
    description is looked up again, with the same result *)
Definition get_elf (map_fn : str) (pd : option json) : res (option xelf) :=
  match pd with
  | None => Ok None
  | Some pd =>
    do v <- jindex pd "app_elf";
    do app_elf <- jstr v;
    let fn := path_join (dirname map_fn) app_elf in
    if d_isfile d fn then load_elf_file fn else Ok None
  end.

(** memorymap.py:206-215 *)
Definition lto_flag (map_fn : str) : res bool :=
  match load_json d (path_join (path_join (dirname map_fn) "config") "sdkconfig.json") with
  | None => Ok false
  | Some j => do v <- jget j "COMPILER_LTO_LINKTIME" (JBool false); Ok (jtrue v)
  end.

(** memorymap.py:217-218; a target that is neither a string nor falsy is not modelled, it
    is an error here *)
Definition desc_target (pd : option json) : res str :=
  match pd with
  | None => Ok []
  | Some j => if jtrue j then do v <- jindex j "target"; if jtrue v then jstr v else Ok [] else Ok []
  end.

(** ** the map file *)
(** addresses and sizes that are None belong to entries without size, which are dropped
    before they are used *)
Definition number_of (z : option Z) : Z := match z with Some n => n | None => 0 end.
Definition isec_of (i : pisec) : isection :=
  ISection (pi_name i) (number_of (pi_addr i)) (number_of (pi_size i)) (pi_fill i) (pi_archive i) (pi_object i) [].
Definition osec_of (o : posec) : osection :=
  OSection (po_name o) (number_of (po_addr o)) (number_of (po_size o)) (map isec_of (po_isecs o)).

(** mapfile.py:20-36 *)
Definition read_map (map_fn : str) : res pmap :=
  match d_text d map_fn with None => Err MapFileException | Some t => map_text t end.
(** memorymap.py:221-231: reading, and validation of which a MapFileException is only shown *)
Definition usable_map (pm : pmap) : res mapfile :=
  match validate_sections (pm_sections pm) with
  | Ok _ | Err MapFileException => Ok (MapFile (pm_target pm) (pm_regions pm) (map osec_of (pm_sections pm)))
  | Err x => Err x
  end.
Definition load_map (map_fn : str) : res mapfile :=
  match read_map map_fn with
  | Ok pm => usable_map pm
  | Err x => Err x
  end.

(** ** the ELF file *)
(** the names are read of the sections that form the image (memorymap.py:1203-1211) *)
Definition view_shdr (e : xelf) (s : xshdr) : res shdr :=
  if (x_size s =? 0) || (Z.land (x_flags s) SHF_ALLOC =? 0) then Ok (Shdr [] (x_type s) (x_flags s) (x_size s))
  else do n <- shdr_name e s; Ok (Shdr n (x_type s) (x_flags s) (x_size s)).
(** and of the symbols that are placed (memorymap.py:1121-1123, 1172); the model reads the
    name of every symbol that may be placed *)
Definition view_symbol (e : xelf) (y : xsym) : res elfsym :=
  if ((xsym_type y =? STT_FUNC) || (xsym_type y =? STT_OBJECT)) && negb (x_stsize y =? 0) then
    do n <- xsym_name e y; Ok (ElfSym n (x_value y) (x_stsize y) (xsym_type y))
  else Ok (ElfSym [] (x_value y) (x_stsize y) (xsym_type y)).
(** memorymap.py:1316-1320, 1337-1339: symbols with size and compilation unit, with the
    path of the unit as pathlib gives it *)
Definition view_cusyms (e : xelf) : res (dict Z cusym) :=
  do l <- add_cus_to_symbols e;
  do r <- mapM (fun kv : Z * (xsym * option str) =>
    let '(a, (y, cu)) := kv in
    match cu with
    | Some (c :: n) =>
      if x_stsize y =? 0 then Ok [] else do s <- xsym_name e y; Ok [(a, CuSym s (x_value y) (x_stsize y) (as_posix (c :: n)))]
    | _ => Ok []
    end) l;
  Ok (concat r).

(** what is read of the ELF file, depending on what it is needed for *)
Definition view_elf (load_symbols dwarf : bool) (e : xelf) : res elf :=
  do cus <- (if dwarf then view_cusyms e else Ok []);
  do hdrs <- mapM (view_shdr e) (xe_shdrs e);
  do syms <- (if load_symbols then (do l <- symbols e; mapM (view_symbol e) l) else Ok []);
  Ok (ElfFile hdrs syms cus).

(** ** the components, memorymap.py:1322-1329 *)
Definition load_component (build_dir : str) (j : json) : res (list component) :=
  do f <- jindex j "file";
  if jtrue f then
    do fn <- jstr f;
    do dj <- jindex j "dir";
    do dir <- jstr dj;
    do ar <- relative_to fn build_dir;
    Ok [Component (as_posix dir) ar]
  else Ok [].
Definition load_components (pd : json) : res (list component) :=
  do info <- jindex pd "build_component_info";
  match info with
  | JObj l =>
    do bj <- jindex pd "build_dir";
    do b <- jstr bj;
    do r <- mapM (fun kv => load_component (as_posix b) (snd kv)) l;
    Ok (concat r)
  | _ => Err AttributeError
  end.

(** ** everything that [get] reads

    Errors inside the ELF file and the components are taken to be found when the ELF file is
    opened; Python finds some of them later, so that another error may come first. *)
Variable chips : str -> res (list chip_type).

Definition load_world (input : str) (load_symbols : bool) (use_dwarf : option bool) : res world :=
  let map_fn := abspath (d_cwd d) input in
  do pd <- get_proj_desc map_fn;
  do flag <- match use_dwarf with Some b => Ok b | None => lto_flag map_fn end;
  do target <- desc_target pd;
  let xe := get_elf map_fn pd in
  let comps := match pd, xe with Some j, Ok (Some _) => if flag then load_components j else Ok [] | _, _ => Ok [] end in
  let e := (do x <- xe;
            match x with
            | None => Ok None
            | Some x => do v <- view_elf load_symbols flag x; do _ <- comps; Ok (Some v)
            end) in
  Ok (World map_fn
        (option_map (fun _ => ProjDesc target (match comps with Ok l => l | Err _ => [] end)) pd)
        flag (load_map map_fn) e chips).

(** memorymap.get(input_fn, load_symbols, use_dwarf) *)
Definition get_files (input : str) (load_symbols : bool) (use_dwarf : option bool) : res memmap :=
  do w <- load_world input load_symbols use_dwarf;
  do r <- get w load_symbols (Some (w_lto w)) None None;
  Ok (fst r).
End Files.
