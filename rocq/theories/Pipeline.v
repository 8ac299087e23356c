(** * Model of the construction of the memory map
    (esp_idf_size/memorymap.py, lines 92-291 and 851-1594).  No proofs here. *)
From Coq Require Import Ascii String List ZArith Bool.
From Verif Require Import Base MemMap.
Import ListNotations.
Open Scope list_scope.
Open Scope Z_scope.

(** ** Data *)

(** row of the Memory Configuration table, mapfile.py:38-81 *)
Record region := Region { r_name : str; r_origin : Z; r_length : Z; r_attrs : str }.

(** memory type of the chip after loading, memorymap.py:1442-1451 ('name' is the
    alias, 'secondary_address' is 0 if there is none) *)
Record chip_type := ChipType { ct_name : str; ct_primary : Z; ct_secondary : Z; ct_length : Z }.

(** region part with its memory type, memorymap.py:887-893 *)
Record sregion := SRegion { sr_name : str; sr_origin : Z; sr_length : Z; sr_attrs : str; sr_type : chip_type }.

(** symbol of an input section, memorymap.py:1111-1115 *)
Record symbol := Symbol { sy_name : str; sy_addr : Z; sy_size : Z }.

(** input section, mapfile.py:148-157.  [i_symbols] is the key 'symbols' added by
    memorymap.py:1110, 1127 or 272; it is set before it is read. *)
Record isection := ISection {
  i_name : str; i_addr : Z; i_size : Z; i_fill : Z; i_archive : str; i_object : str;
  i_symbols : list symbol }.

(** output section, mapfile.py:320-330 *)
Record osection := OSection { o_name : str; o_addr : Z; o_size : Z; o_isecs : list isection }.

(** ELF section header and symbol as far as used here *)
Record shdr := Shdr { sh_name : str; sh_type : Z; sh_flags : Z; sh_size : Z }.
Record elfsym := ElfSym { st_name : str; st_value : Z; st_symsize : Z; st_type : Z }.

(** symbol with the name of its compilation unit (elf.py add_cus_to_symbols) *)
Record cusym := CuSym { cu_sname : str; cu_value : Z; cu_size : Z; cu_name : str }.

(** [elf_cusyms]: result of [add_cus_to_symbols], keyed by address *)
Record elf := ElfFile { elf_shdrs : list shdr; elf_symbols : list elfsym; elf_cusyms : dict Z cusym }.

Definition SHF_ALLOC : Z := 2.     (* elf.py *)
Definition SHT_PROGBITS : Z := 1.  (* elf.py *)
Definition STT_OBJECT : Z := 1.    (* elf.py *)
Definition STT_FUNC : Z := 2.      (* elf.py *)

(** [s.endswith(p)] *)
Definition endswith (p s : str) : bool := startswith (rev p) (rev s).

(** ** _filter_memory_regions, memorymap.py:851-861 *)
Definition filter_memory_regions (regions : list region) : list region :=
  filter (fun r => negb (r_name r =?= "*default*")) regions.

(** ** _split_memory_regions, memorymap.py:864-926 *)

(** memorymap.py:876-880: does the type cover the address, and from which base? *)
Definition type_base (t : chip_type) (a : Z) : option Z :=
  if (ct_primary t <=? a) && (a <? ct_primary t + ct_length t) then Some (ct_primary t)
  else if negb (ct_secondary t =? 0) && ((ct_secondary t <=? a) && (a <? ct_secondary t + ct_length t))
       then Some (ct_secondary t) else None.

(** memorymap.py:872-883, the search loop *)
Fixpoint find_type (types : list chip_type) (a : Z) : option (chip_type * Z) :=
  match types with
  | [] => None
  | t :: types' => match type_base t a with Some b => Some (t, b) | None => find_type types' a end
  end.

(** memorymap.py:871-921, the [while True] loop for one region; [acc] is
    memory_regions_splitted.  [OutOfFuel]: the loop is still running. *)
Fixpoint split_region (fuel : nat) (types : list chip_type) (r : region) (origin length : Z)
    (acc : list sregion) : res (list sregion) :=
  match fuel with
  | O => Err OutOfFuel
  | S fuel' =>
    match find_type types origin with
    | Some (t, base) =>
      let used := Z.min length (ct_length t - (origin - base)) in
      let acc := acc ++ [SRegion (r_name r) origin used (r_attrs r) t] in
      if length - used =? 0 then Ok acc
      else split_region fuel' types r (origin + used) (length - used) acc
    | None =>
      match find (fun s => origin + length =? sr_origin s + sr_length s) acc with
      | Some s =>
        let acc := acc ++ [SRegion (r_name r) origin length (r_attrs r) (sr_type s)] in
        if length =? 0 then Ok acc
        else split_region fuel' types r origin length acc
      | None => Ok acc
      end
    end
  end.

(** memorymap.py:864-926 *)
Definition split_memory_regions (fuel : nat) (regions : list region) (types : list chip_type) : res (list sregion) :=
  foldM (fun acc r => split_region fuel types r (r_origin r) (r_length r) acc) [] regions.

(** ** _filter_map_sections, memorymap.py:929-975 *)
Definition drop_empty (s : osection) : osection :=
  OSection (o_name s) (o_addr s) (o_size s) (filter (fun i => negb (i_size i =? 0)) (o_isecs s)).

Definition ends_with_any (l : list string) (s : str) : bool := existsb (fun p => endswith (list_ascii_of_string p) s) l.

(** [elf_sections] is [None] or an empty dict: use the names, memorymap.py:956-969 *)
Definition keep_section (elf_sections : option (dict str shdr)) (s : osection) : bool :=
  negb (o_size s =? 0) &&
  negb (ends_with_any ["dummy"; "reserved_for_iram"] (o_name s)) &&
  negb (ends_with_any ["noload"] (o_name s)) &&
  match elf_sections with
  | Some ((_ :: _) as hdrs) => dmem (o_name s) hdrs
  | _ => ends_with_any [".text"; ".data"; ".bss"; ".rodata"; "noinit"; ".vectors"] (o_name s)
         || contains ".flash" (o_name s) || contains ".eh_frame" (o_name s)
  end.

Definition filter_map_sections (sections : list osection) (elf_sections : option (dict str shdr)) : list osection :=
  map drop_empty (filter (keep_section elf_sections) sections).

(** ** _get_elf_sections_headers, memorymap.py:1197-1214 *)
Definition get_elf_sections_headers (e : option elf) : option (dict str shdr) :=
  match e with
  | None => None
  | Some e => Some (fold_left (fun hdrs h =>
      if sh_size h =? 0 then hdrs
      else if Z.land (sh_flags h) SHF_ALLOC =? 0 then hdrs
      else dset (sh_name h) h hdrs) (elf_shdrs e) [])
  end.

(** ** _get_image_size, memorymap.py:1217-1233 *)
Definition get_image_size (elf_sections : option (dict str shdr)) (sections : list osection) : Z :=
  match elf_sections with
  | Some ((_ :: _) as hdrs) =>
    fold_left (fun size kv => if negb (sh_type (snd kv) =? SHT_PROGBITS) then size else size + sh_size (snd kv)) hdrs 0
  | _ => fold_left (fun size s => if ends_with_any [".bss"; "noinit"] (o_name s) then size else size + o_size s) sections 0
  end.

(** ** _split_map_sections, memorymap.py:978-1073 *)

(** symbol at a cut, memorymap.py:1025-1044 *)
Definition split_symbol (cut : Z) (y : symbol) : list symbol * list symbol :=
  if sy_addr y + sy_size y <=? cut then ([y], [])
  else if cut <? sy_addr y then ([], [y])
  else let s1 := cut - sy_addr y in
       ([Symbol (sy_name y) (sy_addr y) s1], [Symbol (sy_name y) cut (sy_size y - s1)]).

Definition split_symbols (cut : Z) (l : list symbol) : list symbol * list symbol :=
  (flat_map (fun y => fst (split_symbol cut y)) l, flat_map (fun y => snd (split_symbol cut y)) l).

(** input section at a cut, memorymap.py:1004-1047 *)
Definition split_isec (cut : Z) (i : isection) : list isection * list isection :=
  if i_addr i + i_size i + i_fill i <=? cut then ([i], [])
  else if cut <? i_addr i then ([], [i])
  else
    let size1 := Z.min (cut - i_addr i) (i_size i) in
    let fill1 := cut - (i_addr i + size1) in
    let ys := split_symbols cut (i_symbols i) in
    ([ISection (i_name i) (i_addr i) size1 fill1 (i_archive i) (i_object i) (fst ys)],
     [ISection (i_name i) cut (i_size i - size1) (i_fill i - fill1) (i_archive i) (i_object i) (snd ys)]).

(** output section at a cut, memorymap.py:991-1047 *)
Definition cut_section (cut : Z) (s : osection) : osection * osection :=
  let size1 := cut - o_addr s in
  (OSection (o_name s) (o_addr s) size1 (flat_map (fun i => fst (split_isec cut i)) (o_isecs s)),
   OSection (o_name s) cut (o_size s - size1) (flat_map (fun i => snd (split_isec cut i)) (o_isecs s))).

(** memorymap.py:985-988: the first region containing the start *)
Definition region_at (regions : list sregion) (a : Z) : option sregion :=
  find (fun r => negb ((a <? sr_origin r) || (sr_origin r + sr_length r <=? a))) regions.

(** The parts of one section, memorymap.py:983-1070: the second half of a cut is
    pushed on the stack and is the next one popped. *)
Fixpoint split_section (fuel : nat) (regions : list sregion) (s : osection) : res (list osection) :=
  match fuel with
  | O => Err OutOfFuel
  | S fuel' =>
    match region_at regions (o_addr s) with
    | None => Ok [s]
    | Some r =>
      if o_addr s + o_size s <=? sr_origin r + sr_length r then Ok [s]
      else
        let c := cut_section (sr_origin r + sr_length r) s in
        do rest <- split_section fuel' regions (snd c);
        Ok (fst c :: rest)
    end
  end.

(** memorymap.py:978-1073; [sections.pop()] takes the last section first *)
Definition split_map_sections (fuel : nat) (sections : list osection) (regions : list sregion) : res (list osection) :=
  do l <- mapM (split_section fuel regions) (rev sections);
  Ok (concat l).

(** ** _abbrev, memorymap.py:1076-1078 *)
Fixpoint after_last_dot (s : str) : str :=
  match s with
  | [] => []
  | c :: s' => if mem "."%char s' then after_last_dot s' else if c =?= "."%char then s' else c :: s'
  end.
Definition abbrev (s : str) : str := "."%char :: after_last_dot s.

(** ** _add_symbols_to_sections, memorymap.py:1105-1194 *)

Definition set_symbols (i : isection) (l : list symbol) : isection :=
  ISection (i_name i) (i_addr i) (i_size i) (i_fill i) (i_archive i) (i_object i) l.
Definition set_isecs (s : osection) (l : list isection) : osection :=
  OSection (o_name s) (o_addr s) (o_size s) l.
Definition own_symbol (i : isection) : symbol := Symbol (i_name i) (i_addr i) (i_size i).

(** memorymap.py:1106-1117, no ELF *)
Definition add_symbols_no_elf (sections : list osection) : list osection :=
  map (fun s => set_isecs s (map (fun i => set_symbols i [own_symbol i]) (o_isecs s))) sections.

(** An input section together with its number in the list of all input sections;
    the number stands for the identity of the Python dict. *)
Definition slot := (nat * isection)%type.

Definition add_symbol (c : slot) (y : symbol) : slot :=
  (fst c, set_symbols (snd c) (i_symbols (snd c) ++ [y])).
(** memorymap.py:1144-1162: placeholder for a section without symbols *)
Definition close_slot (c : slot) : slot :=
  match i_symbols (snd c) with [] => add_symbol c (own_symbol (snd c)) | _ => c end.

(** memorymap.py:1139-1165, the [while] loop.  State: current input section, the
    following ones, the finished ones *)
Fixpoint advance (addr : Z) (cur : slot) (rest done : list slot) : res (slot * list slot * list slot) :=
  if i_addr (snd cur) + i_size (snd cur) <=? addr then
    match rest with
    | [] => Err MemMapException
    | nxt :: rest' => advance addr nxt rest' (done ++ [close_slot cur])
    end
  else Ok (cur, rest, done).

(** memorymap.py:1135-1192, one symbol *)
Definition place_symbol (st : slot * list slot * list slot) (y : elfsym) : res (slot * list slot * list slot) :=
  let '(cur, rest, done) := st in
  do st' <- advance (st_value y) cur rest done;
  let '(cur, rest, done) := st' in
  if i_addr (snd cur) + i_size (snd cur) <? st_value y + st_symsize y then Err MemMapException
  else if st_value y <? i_addr (snd cur) then Ok (cur, rest, done)
  else
    let name := if st_type y =? STT_FUNC then st_name y ++ "()" else st_name y in
    Ok (add_symbol cur (Symbol name (st_value y) (st_symsize y)), rest, done).

(** memorymap.py:1121-1123 *)
Definition wanted_symbols (l : list elfsym) : list elfsym :=
  filter (fun y => ((st_type y =? STT_FUNC) || (st_type y =? STT_OBJECT)) && negb (st_symsize y =? 0))
         (py_sorted st_value false l).

(** memorymap.py:1127-1131 *)
Definition all_slots (sections : list osection) : list slot :=
  let l := flat_map (fun s => map (fun i => set_symbols i []) (o_isecs s)) sections in
  combine (seq 0 (length l)) l.

(** put the symbols back into the sections the input sections came from *)
Fixpoint put_isecs (n : nat) (l : list isection) (d : dict nat (list symbol)) : list isection :=
  match l with
  | [] => []
  | i :: l' => set_symbols i (match dget n d with Some ys => ys | None => [] end) :: put_isecs (S n) l' d
  end.
Fixpoint put_symbols (n : nat) (sections : list osection) (d : dict nat (list symbol)) : list osection :=
  match sections with
  | [] => []
  | s :: l => set_isecs s (put_isecs n (o_isecs s) d) :: put_symbols (n + length (o_isecs s)) l d
  end.

(** memorymap.py:1105-1194.  [isections.pop(0)] of an empty list is IndexError. *)
Definition add_symbols_to_sections (e : option elf) (sections : list osection) : res (list osection) :=
  match e with
  | None => Ok (add_symbols_no_elf sections)
  | Some e =>
    match py_sorted (fun c => i_addr (snd c)) false (all_slots sections) with
    | [] => Err IndexError
    | cur :: rest =>
      do st <- foldM place_symbol (cur, rest, []) (wanted_symbols (elf_symbols e));
      let '(cur, rest, done) := st in
      Ok (put_symbols 0 sections (map (fun c => (fst c, i_symbols (snd c))) (done ++ cur :: rest)))
    end
  end.

(** memorymap.py:269-272 *)
Definition clear_symbols (sections : list osection) : list osection :=
  map (fun s => set_isecs s (map (fun i => set_symbols i []) (o_isecs s))) sections.

(** ** _add_archives_to_sections, memorymap.py:1236-1278 *)

(** memorymap.py:1268-1273 *)
Definition add_object_symbols (d : dict str sym) (l : list symbol) : dict str sym :=
  fold_left (fun d y => dset (sy_name y) (Sym (sy_name y) (sy_size y) 0 false) d) l d.

(** memorymap.py:1253-1273 *)
Definition add_object (objs : dict str obj) (i : isection) : dict str obj :=
  let objs := if dmem (i_object i) objs then objs else dset (i_object i) (Node (basename (i_object i)) 0 0 []) objs in
  dupd (i_object i) (fun o => Node (n_abbrev o) (n_size o + i_size i) (n_diff o) (add_object_symbols (n_sub o) (i_symbols i))) objs.

(** memorymap.py:1239-1273 *)
Definition add_archive (archs : dict str arch) (i : isection) : dict str arch :=
  let archs := if dmem (i_archive i) archs then archs else dset (i_archive i) (Node (basename (i_archive i)) 0 0 []) archs in
  dupd (i_archive i) (fun x => Node (n_abbrev x) (n_size x + i_size i) (n_diff x) (add_object (n_sub x) i)) archs.

(** output section with its archives *)
Record asection := ASection { as_name : str; as_addr : Z; as_size : Z; as_abbrev : str; as_archives : dict str arch }.

Definition add_archives (s : osection) : asection :=
  ASection (o_name s) (o_addr s) (o_size s) (abbrev (o_name s)) (fold_left add_archive (o_isecs s) []).
Definition add_archives_to_sections (l : list osection) : list asection := map add_archives l.

(** ** _get_mem_type_map, memorymap.py:1458-1594 *)

Definition EXT_RAM_TYPE_NAMES : list string := ["External RAM"; "SPI DRAM"].        (* memorymap.py:73 *)
Definition EXT_RAM_SECTION_NAMES : list string := [".ext_ram.bss"; ".ext_ram_noinit"].  (* memorymap.py:83 *)

(** memorymap.py:1467-1477 *)
Definition initial_map (types : list chip_type) : dict str mtype :=
  fold_left (fun d t => dset (ct_name t) (MType 0 0 0 0 []) d) types [].

(** distance of the two address windows, memorymap.py:1492-1494 *)
Definition window_distance (t : chip_type) : Z :=
  if negb (ct_secondary t =? 0) then Z.abs (ct_primary t - ct_secondary t) else 0.

(** memorymap.py:1480-1516.  State: the map and, per alias, the regions seen;
    KeyError for an alias missing in the map cannot occur as region parts get their
    type from the same table ([dupd] does nothing in this case). *)
Definition add_region (st : dict str mtype * dict str (list sregion)) (r : sregion)
    : dict str mtype * dict str (list sregion) :=
  let '(m, seen) := st in
  let alias := ct_name (sr_type r) in
  let before := match dget alias seen with Some l => l | None => [] end in
  let grow (f : Z -> Z) := dupd alias (fun t => MType (f (t_size t)) (t_size_diff t) (t_used t) (t_used_diff t) (t_sections t)) m in
  let seen' := dset alias (before ++ [r]) seen in
  match before with
  | [] => (grow (fun _ => sr_length r), seen')
  | _ =>
    if existsb (fun b => (window_distance (sr_type r) =? Z.abs (sr_origin b - sr_origin r)) && (sr_length b =? sr_length r)) before
    then (m, seen')
    else (grow (fun z => z + sr_length r), seen')
  end.
Definition add_regions (types : list chip_type) (regions : list sregion) : dict str mtype :=
  fst (fold_left add_region regions (initial_map types, [])).

(** memorymap.py:1523-1526 *)
Definition ext_ram_alias (types : list chip_type) : option str :=
  option_map ct_name (find (fun t => existsb (fun n => ct_name t =?= list_ascii_of_string n) EXT_RAM_TYPE_NAMES) types).

(** where a section goes: memory type and whether it is an overflow part,
    memorymap.py:1540-1587 *)
Fixpoint locate (prev : option sregion) (sorted : list sregion) (a : Z) : option (str * bool) :=
  match sorted with
  | [] => None
  | r :: sorted' =>
    if (sr_origin r <=? a) && (a <? sr_origin r + sr_length r) then Some (ct_name (sr_type r), false)
    else match prev with
         | Some p => if a <? sr_origin r then Some (ct_name (sr_type p), true) else locate (Some r) sorted' a
         | None => locate (Some r) sorted' a
         end
  end.

(** [if ext_ram_alias and ...startswith]: an empty alias is falsy, but is none of
    the names looked for *)
Definition route (ext : option str) (sorted : list sregion) (s : asection) : option (str * bool) :=
  match ext with
  | Some alias =>
    if existsb (fun p => startswith (list_ascii_of_string p) (as_name s)) EXT_RAM_SECTION_NAMES
    then Some (alias, false) else locate None sorted (as_addr s)
  | None => locate None sorted (as_addr s)
  end.

(** memorymap.py:1527-1592 for one section *)
Definition add_section (ext : option str) (sorted : list sregion) (m : dict str mtype) (s : asection) : dict str mtype :=
  match route ext sorted s with
  | None => m
  | Some (alias, overflow) =>
    let name := if overflow then as_name s ++ "_overflow" else as_name s in
    let ab := if overflow then abbrev name else as_abbrev s in
    dupd alias (fun t => MType (t_size t) (t_size_diff t) (t_used t + as_size s) (t_used_diff t)
      (dset name (Node ab (as_size s) 0 (as_archives s)) (t_sections t))) m
  end.

(** memorymap.py:1458-1594 *)
Definition get_mem_type_map (types : list chip_type) (regions : list sregion) (sections : list asection) : dict str mtype :=
  fold_left (add_section (ext_ram_alias types) (py_sorted sr_origin false regions)) sections (add_regions types regions).

(** ** _expand_input_sections, memorymap.py:1281-1428 *)

(** component of project_description.json with posix paths, memorymap.py:1322-1329 *)
Record component := Component { comp_path : str; comp_archive : str }.

(** symbol with its archive *)
Record asym := ASym { av_name : str; av_value : Z; av_size : Z; av_archive : str; av_object : str }.

(** memorymap.py:1294-1303; [components] sorted by length of path *)
Definition find_symbol_component (components : list component) (cu : str) : option component :=
  find (fun c => startswith (comp_path c) cu) components.

(** memorymap.py:1316-1349.  [cu_path] is taken to be [cu_name] (no normalisation
    by pathlib), [Path(...).name] to be the base name. *)
Definition archive_symbols (symbols : dict Z cusym) (components : list component) : dict Z asym :=
  let comps := py_sorted (fun c => Z.of_nat (length (comp_path c))) true components in
  let kept := filter (fun kv => negb (cu_size (snd kv) =? 0) && negb (cu_name (snd kv) =?= [])) symbols in
  py_sorted fst false
    (flat_map (fun kv =>
       match find_symbol_component comps (cu_name (snd kv)) with
       | Some c => [(fst kv, ASym (cu_sname (snd kv)) (cu_value (snd kv)) (cu_size (snd kv)) (comp_archive c)
                                  (basename (cu_name (snd kv))))]
       | None => []
       end) kept).

Definition isec_of_asym (y : asym) : isection :=
  ISection (av_name y) (av_value y) (av_size y) 0 (av_archive y) (av_object y) [].
Definition move_isec (i : isection) (n : Z) : isection :=
  ISection (i_name i) (i_addr i + n) (i_size i - n) (i_fill i) (i_archive i) (i_object i) (i_symbols i).
Definition resize_isec (i : isection) (n : Z) (archive : str) : isection :=
  ISection (i_name i) (i_addr i) n 0 archive (i_object i) [].
(** [isecs_new[-1]['fill'] = fill] *)
Definition set_last_fill (f : Z) (l : list isection) : list isection :=
  match rev l with
  | [] => []
  | i :: l' => rev l' ++ [ISection (i_name i) (i_addr i) (i_size i) f (i_archive i) (i_object i) (i_symbols i)]
  end.

Definition EXE : str := "(exe)".

(** memorymap.py:1361-1423, the loop over the symbols for one '(exe)' input section;
    [acc] is isecs_new.  When the symbols run out the section is dropped. *)
Fixpoint expand_isec (symbols : dict Z asym) (i : isection) (acc : list isection) : list isection :=
  match symbols with
  | [] => acc
  | (addr, y) :: symbols' =>
    if addr <? i_addr i then expand_isec symbols' i acc
    else if (addr =? i_addr i) && negb (i_size i =? 0) then
      expand_isec symbols' (move_isec i (av_size y)) (acc ++ [isec_of_asym y])
    else if addr <? i_addr i + i_size i then
      let gap := av_value y - i_addr i in
      expand_isec symbols' (move_isec (move_isec i gap) (av_size y)) (acc ++ [resize_isec i gap EXE; isec_of_asym y])
    else if negb (i_size i =? 0) || match acc with [] => true | _ => false end then acc ++ [i]
    else set_last_fill (i_fill i) acc
  end.

(** memorymap.py:1353-1426 *)
Definition expand_osec (symbols : dict Z asym) (s : osection) : osection :=
  set_isecs s (fold_left (fun acc i => if negb (i_archive i =?= EXE) then acc ++ [i] else expand_isec symbols i acc)
                         (o_isecs s) []).
Definition expand_input_sections (sections : list osection) (components : list component) (e : elf) : list osection :=
  map (expand_osec (archive_symbols (elf_cusyms e) components)) sections.

(** ** get, memorymap.py:92-291 *)

(** the parts of a parsed map file that are used *)
Record mapfile := MapFile { mf_target : str; mf_regions : list region; mf_sections : list osection }.

(** project_description.json, memorymap.py:1597-1614 *)
Record projdesc := ProjDesc { pd_target : str; pd_components : list component }.

(** everything read from files: the absolute path of the map file, the project
    description if it matches, sdkconfig.json's COMPILER_LTO_LINKTIME (absent file
    or key: false), the parsed map file, the ELF file of the project if there is one,
    the chip descriptions *)
Record world := World {
  w_map_fn : str;
  w_proj_desc : option projdesc;
  w_lto : bool;
  w_mapfile : res mapfile;
  w_elf : res (option elf);
  w_memory_types : str -> res (list chip_type) }.

(** fuel with which region and section splitting are run *)
Definition region_fuel (types : list chip_type) : nat := 2 * length types + 2.
Definition section_fuel (regions : list sregion) : nat := length regions + 1.

(** memorymap.py:221-224: MapFileException becomes MemMapException *)
Definition load_mapfile (arg : option mapfile) (r : res mapfile) : res mapfile :=
  match arg with
  | Some m => Ok m
  | None => match r with Err MapFileException => Err MemMapException | _ => r end
  end.

(** [if not target: raise] *)
Definition pick_target (pd : option projdesc) (mf : mapfile) : res str :=
  let t := match pd with Some p => pd_target p | None => [] end in
  let t := match t with [] => mf_target mf | _ => t end in
  match t with [] => Err MemMapException | _ => Ok t end.

(** memorymap.py:241-286: from sections to memory types; also returns the sections
    of the map file as changed in place *)
Definition build (load_symbols : bool) (types : list chip_type) (e : option elf) (regions : list region)
    (sections : list osection) : res (Z * dict str mtype) :=
  let hdrs := get_elf_sections_headers e in
  do parts <- split_memory_regions (region_fuel types) (filter_memory_regions regions) types;
  let kept := filter_map_sections sections hdrs in
  let image := get_image_size hdrs kept in
  do withsyms <- (if load_symbols then add_symbols_to_sections e kept else Ok (clear_symbols kept));
  do cut <- split_map_sections (section_fuel parts) withsyms parts;
  Ok (image, get_mem_type_map types parts (add_archives_to_sections cut)).

(** In-place changes that [get] leaves in the map file's sections: zero-size input
    sections of the kept sections are dropped (memorymap.py:971), symbols are
    attached (not modelled here: they are overwritten before being read again). *)
Definition after_filter (hdrs : option (dict str shdr)) (sections : list osection) : list osection :=
  map (fun s => if keep_section hdrs s then drop_empty s else s) sections.

(** the DWARF flag, memorymap.py:206-215 *)
Definition dwarf_flag (use_dwarf : option bool) (w : world) : bool :=
  match use_dwarf with Some b => b | None => w_lto w end.

(** memorymap.py:92-291.  [elf_arg] is the parameter [elf]; line 198 overwrites it
    with None before it is used.  Returns the memory map and the map file object as
    left behind. *)
Definition get (w : world) (load_symbols : bool) (use_dwarf : option bool) (map_arg : option mapfile)
    (elf_arg : option elf) : res (memmap * mapfile) :=
  let e_arg : option elf := None in
  do mf <- load_mapfile map_arg (w_mapfile w);
  do e <- match e_arg with Some x => Ok (Some x) | None => w_elf w end;
  let sections :=
    if dwarf_flag use_dwarf w then
      match w_proj_desc w, e with
      | Some pd, Some ef => expand_input_sections (mf_sections mf) (pd_components pd) ef
      | _, _ => mf_sections mf
      end
    else mf_sections mf in
  do target <- pick_target (w_proj_desc w) mf;
  do types <- w_memory_types w target;
  do r <- build load_symbols types e (mf_regions mf) sections;
  Ok (MemMap target [] (fst r) 0 (w_map_fn w) [] (snd r),
      MapFile (mf_target mf) (mf_regions mf) (after_filter (get_elf_sections_headers e) sections)).
