(** * Model of deps.py and of format_dot.py.

    Python iterates over a [set] of strings in an order that depends on the hash seed; the
    order is an argument of the model: [ord sym l] is the order in which the set of the
    strings [l], built for the symbol [sym], is iterated over. *)
From Coq Require Import Ascii String List ZArith Bool.
From Verif Require Import Base MemMap Filter Pipeline PyStr MapFile.
Import ListNotations.
Open Scope list_scope.
Open Scope Z_scope.

(** the fields of an ELF symbol that are used *)
Record dsym := DSym { ds_name : str; ds_type : Z; ds_shndx : Z }.
Definition SHN_ABS : Z := 65521.  (* elf.py:1306, 0xfff1 *)

(** the dictionaries of deps.py:11-24 and 52-65 *)
Record dent := DEnt { de_abbrev : str; de_size : Z; de_symbols : list str }.
Record darch := DArch { da_abbrev : str; da_size : Z; da_archives : dict str dent }.
Definition set_order := str -> list str -> list str.

Definition set_da_archives (l : dict str dent) (d : darch) : darch := DArch (da_abbrev d) (da_size d) l.
Definition add_de_symbol (y : str) (e : dent) : dent := DEnt (de_abbrev e) (de_size e) (de_symbols e ++ [y]).

(** [if name not in archives: archives[name] = {...}] (deps.py:34-39, 75-80) *)
Definition dep_archive (sizes : dict str sentry) (name : str) (acc : dict str darch) : res (dict str darch) :=
  if dmem name acc then Ok acc
  else match dget name sizes with
       | Some e => Ok (dset name (DArch (basename name) (se_size e) []) acc)
       | None => Err KeyError
       end.

(** [if inner not in archives[outer]['archives']: ...; ...['symbols'].append(sym)] (deps.py:41-48, 82-90) *)
Definition dep_symbol (sizes : dict str sentry) (outer inner sym : str) (acc : dict str darch) : res (dict str darch) :=
  match dget outer acc with
  | None => Err KeyError
  | Some d =>
    do l <- (if dmem inner (da_archives d) then Ok (da_archives d)
             else match dget inner sizes with
                  | Some e => Ok (dset inner (DEnt (basename inner) (se_size e) []) (da_archives d))
                  | None => Err KeyError
                  end);
    Ok (dset outer (set_da_archives (dupd inner (add_de_symbol sym) l) d) acc)
  end.

(** deps.py:10-50 *)
Definition get_archives_deps (ord : set_order) (crt : crt_table) (sizes : dict str sentry) : res (dict str darch) :=
  foldM (fun acc kv =>
    match snd kv with
    | [] => Err IndexError
    | def :: refs =>
      foldM (fun acc ref =>
        do acc1 <- dep_archive sizes ref acc;
        dep_symbol sizes ref (fst def) (fst kv) acc1) acc (ord (fst kv) (map fst refs))
    end) [] crt.

(** deps.py:53-92 *)
Definition get_archives_revdeps (ord : set_order) (crt : crt_table) (sizes : dict str sentry) : res (dict str darch) :=
  foldM (fun acc kv =>
    match snd kv with
    | [] => Err IndexError
    | def :: refs =>
      do acc1 <- dep_archive sizes (fst def) acc;
      foldM (fun acc ref => dep_symbol sizes (fst def) ref (fst kv) acc) acc1 (ord (fst kv) (map fst refs))
    end) [] crt.

(** deps.py:98, the names kept *)
Definition sym_names (syms : list dsym) : list str :=
  map ds_name (filter (fun y => ((ds_type y =? STT_FUNC) || (ds_type y =? STT_OBJECT)) && negb (ds_shndx y =? SHN_ABS)) syms).

(** deps.py:95-119; [None] for a missing ELF file *)
Definition filter_crt (crt : crt_table) (archives : dict str sentry) (elf : option (list dsym)) : res crt_table :=
  match elf with
  | None => Err SystemExit
  | Some syms =>
    let names := sym_names syms in
    foldM (fun acc kv =>
      match snd kv with
      | [] => Err IndexError
      | def :: refs =>
        if negb (dmem (fst def) archives) then Ok acc
        else
          match filter (fun r => dmem (fst r) archives && negb (fst r =?= fst def)) refs with
          | [] => Ok acc
          | l => Ok (dset (fst kv) (def :: l) acc)
          end
      end) [] (filter (fun kv => mem (fst kv) names) crt)
  end.

(** deps.py:122-140 *)
Definition get_archives_dependencies (ord : set_order) (crt : option crt_table) (m : memmap) (elf : option (list dsym)) (a : args)
  : res (dict str darch) :=
  match crt with
  | None => Err SystemExit
  | Some crt =>
    let archives := get_archives_summary m a in
    do crt1 <- filter_crt crt archives elf;
    if a_dep_reverse a then get_archives_revdeps ord crt1 archives else get_archives_deps ord crt1 archives
  end.

(** ** format_dot.py *)

(** a line of the graph between the braces, before it is formatted as text: a node with
    name, label, size and whether it is in [arch_deps] (shape and colour), or an edge with
    the symbols of its label *)
Inductive dot_line :=
| DotNode (name label : str) (size : Z) (outer : bool)
| DotEdge (from to : str) (symbols : option (list str)).

(** add_node, format_dot.py:22-29; the state is [lines] and [seen] *)
Definition add_node (deps : dict str darch) (st : list dot_line * list str) (name label : str) (size : Z) : list dot_line * list str :=
  if mem name (snd st) then st
  else (fst st ++ [DotNode name label size (dmem name deps)], snd st ++ [name]).

(** format_dot.py:35-46 *)
Definition dot_dep (a : args) (deps : dict str darch) (outer : str) (st : list dot_line * list str) (kv : str * dent) : list dot_line * list str :=
  let st1 := add_node deps st (fst kv) (if a_abbrev a then de_abbrev (snd kv) else fst kv) (de_size (snd kv)) in
  let syms := if a_dep_symbols a then Some (de_symbols (snd kv)) else None in
  (fst st1 ++ [if a_dep_reverse a then DotEdge (fst kv) outer syms else DotEdge outer (fst kv) syms], snd st1).

(** format_dot.py:31-46 *)
Definition dot_arch (a : args) (deps : dict str darch) (st : list dot_line * list str) (kv : str * darch) : list dot_line * list str :=
  let st1 := add_node deps st (fst kv) (if a_abbrev a then da_abbrev (snd kv) else fst kv) (da_size (snd kv)) in
  fold_left (dot_dep a deps (fst kv)) (da_archives (snd kv)) st1.

(** format_dot.py:10-50: the lines between the braces *)
Definition dot_lines (a : args) (deps : dict str darch) : list dot_line :=
  fst (fold_left (dot_arch a deps) deps ([], [])).
Definition dot_show (ord : set_order) (crt : option crt_table) (m : memmap) (elf : option (list dsym)) (a : args) : res (list dot_line) :=
  if negb (a_archive_dependencies a) then Err SystemExit
  else
    do deps <- get_archives_dependencies ord crt m elf a;
    Ok (dot_lines a (summary_filtered da_abbrev deps a)).
