(** * Model of the memory map data structure and of the operations on it
    (esp_idf_size/memorymap.py, lines 294-848).  No proofs in this file. *)
From Verif Require Import Base.
From Coq Require Import List ZArith Bool Ascii String.
Import ListNotations.
Open Scope list_scope.
Open Scope Z_scope.

(** ** Data (memorymap.py:141-175, the documented example)

    A section, an archive and an object file have the same shape
    [{'abbrev_name', 'size', 'size_diff', <children>}]; only the name of the
    children key differs ('archives', 'object_files', 'symbols'). *)

(** symbol entry, memorymap.py:172-175.  [y_null] says whether the entry has the
    additional key [None] (printed as "null" in JSON) that [unify] adds, see
    memorymap.py:446-465 with [sublevel = None]. *)
Record sym := Sym { y_abbrev : str; y_size : Z; y_diff : Z; y_null : bool }.

(** common shape of section, archive and object file, memorymap.py:157-171 *)
Record node (C : Type) := Node {
  n_abbrev : str; n_size : Z; n_diff : Z; n_sub : dict str C }.
Arguments Node {C}.
Arguments n_abbrev {C}.
Arguments n_size {C}.
Arguments n_diff {C}.
Arguments n_sub {C}.

Definition obj := node sym.      (* object file, memorymap.py:167-171 *)
Definition arch := node obj.     (* archive, memorymap.py:162-166 *)
Definition sect := node arch.    (* section, memorymap.py:157-161 *)

(** memory type, memorymap.py:151-156 *)
Record mtype := MType {
  t_size : Z; t_size_diff : Z; t_used : Z; t_used_diff : Z;
  t_sections : dict str sect }.

(** memory map, memorymap.py:142-150 ('version' is a constant and left out) *)
Record memmap := MemMap {
  m_target : str; m_target_diff : str;
  m_image_size : Z; m_image_size_diff : Z;
  m_project_path : str; m_project_path_diff : str;
  m_types : dict str mtype }.

(** ** diff, memorymap.py:294-423 *)

Section DiffLevel.
  Context {C : Type}.

  (** One of the nested merge loops, memorymap.py:329-360: entries of [ref] that
      are missing in the copy of [cur] are copied, others are merged level by
      level. *)
  Definition merge_level (merge_child : C -> C -> C) (dst ref : dict str C) : dict str C :=
    fold_left
      (fun acc kv =>
         match dget (fst kv) acc with
         | None => dset (fst kv) (snd kv) acc
         | Some v => dset (fst kv) (merge_child v (snd kv)) acc
         end) ref dst.

  (** an entry of both maps: keep the values of the copy, merge the children,
      memorymap.py:334-360 *)
  Definition merge_node (merge_child : C -> C -> C) (d r : node C) : node C :=
    Node (n_abbrev d) (n_size d) (n_diff d) (merge_level merge_child (n_sub d) (n_sub r)).

  (** [cur.get(...)] one level down, memorymap.py:378-420 *)
  Definition sub_get (k : str) (o : option (node C)) : option C :=
    match o with Some n => dget k (n_sub n) | None => None end.

  (** Second phase for one section/archive/object entry, memorymap.py:378-409.
      The case without [cur] and [ref] entry would be a [KeyError]; it cannot
      occur, see [diff_union] in the proofs. *)
  Definition fix_node (fix_child : option C -> option C -> C -> C)
      (cur ref : option (node C)) (d : node C) : node C :=
    let subs := map (fun kv => (fst kv, fix_child (sub_get (fst kv) cur) (sub_get (fst kv) ref) (snd kv))) (n_sub d) in
    match cur, ref with
    | Some c, Some r => Node (n_abbrev d) (n_size d) (n_size c - n_size r) subs
    | Some c, None => Node (n_abbrev d) (n_size d) (n_size c) subs
    | None, Some r => Node (n_abbrev d) 0 (0 - n_size r) subs
    | None, None => Node (n_abbrev d) 0 0 subs
    end.
End DiffLevel.

(** memorymap.py:357-360: a symbol in both maps is left alone *)
Definition merge_sym (d r : sym) : sym := d.
Definition merge_obj : obj -> obj -> obj := merge_node merge_sym.       (* memorymap.py:350-360 *)
Definition merge_arch : arch -> arch -> arch := merge_node merge_obj.   (* memorymap.py:343-360 *)
Definition merge_sect : sect -> sect -> sect := merge_node merge_arch.  (* memorymap.py:336-360 *)

(** memorymap.py:334-360 *)
Definition merge_type (d r : mtype) : mtype :=
  MType (t_size d) (t_size_diff d) (t_used d) (t_used_diff d)
        (merge_level merge_sect (t_sections d) (t_sections r)).

(** memorymap.py:411-420 *)
Definition fix_sym (cur ref : option sym) (d : sym) : sym :=
  match cur, ref with
  | Some c, Some r => Sym (y_abbrev d) (y_size d) (y_size c - y_size r) (y_null d)
  | Some c, None => Sym (y_abbrev d) (y_size d) (y_size c) (y_null d)
  | None, Some r => Sym (y_abbrev d) 0 (0 - y_size r) (y_null d)
  | None, None => Sym (y_abbrev d) 0 0 (y_null d)
  end.
Definition fix_obj := fix_node fix_sym.    (* memorymap.py:400-420 *)
Definition fix_arch := fix_node fix_obj.   (* memorymap.py:389-420 *)
Definition fix_sect := fix_node fix_arch.  (* memorymap.py:378-420 *)

(** section of a memory type if both exist, memorymap.py:378-385 *)
Definition type_get (k : str) (o : option mtype) : option sect :=
  match o with Some t => dget k (t_sections t) | None => None end.

(** memorymap.py:363-420 *)
Definition fix_type (cur ref : option mtype) (d : mtype) : mtype :=
  let subs := map (fun kv => (fst kv, fix_sect (type_get (fst kv) cur) (type_get (fst kv) ref) (snd kv))) (t_sections d) in
  match cur, ref with
  | Some c, Some r => MType (t_size d) (t_size c - t_size r) (t_used d) (t_used c - t_used r) subs
  | Some c, None => MType (t_size d) (t_size c) (t_used d) (t_used c) subs
  | None, Some r => MType 0 (0 - t_size r) 0 (0 - t_used r) subs
  | None, None => MType 0 0 0 0 subs
  end.

(** memorymap.py:294-423 *)
Definition diff (cur ref : memmap) : memmap :=
  let merged := merge_level merge_type (m_types cur) (m_types ref) in
  MemMap (m_target cur) (m_target ref)
         (m_image_size cur) (m_image_size cur - m_image_size ref)
         (m_project_path cur) (m_project_path ref)
         (map (fun kv => (fst kv, fix_type (dget (fst kv) (m_types cur)) (dget (fst kv) (m_types ref)) (snd kv))) merged).

(** ** unify, memorymap.py:426-488 *)

(** [unify_items], memorymap.py:453-475, for one level.  [abbrev] reads
    'abbrev_name'; [new] creates the unified entry for the first item with this
    abbreviated name (lines 459-466) and processes its children; [add] adds an
    item to an existing unified entry (lines 467-475). *)
Definition unify_items {C} (abbrev : C -> str) (new : C -> C) (add : C -> C -> C)
    (original unified : dict str C) : dict str C :=
  fold_left
    (fun acc kv =>
       match dget (abbrev (snd kv)) acc with
       | None => dset (abbrev (snd kv)) (new (snd kv)) acc
       | Some u => dset (abbrev (snd kv)) (add u (snd kv)) acc
       end) original unified.

(** memorymap.py:459-466: first item with this abbreviated name *)
Definition unify_new_node {C} (items : dict str C -> dict str C -> dict str C) (n : node C) : node C :=
  Node (n_abbrev n) (n_size n) (n_diff n) (items (n_sub n) []).
(** memorymap.py:467-475: further item with this abbreviated name *)
Definition unify_add_node {C} (items : dict str C -> dict str C -> dict str C) (u n : node C) : node C :=
  Node (n_abbrev u) (n_size u + n_size n) (n_diff u + n_diff n) (items (n_sub n) (n_sub u)).

(** leaf level: [sublevel] is [None], so the new entry gets the key [None] *)
Definition unify_new_sym (y : sym) : sym := Sym (y_abbrev y) (y_size y) (y_diff y) true.
Definition unify_add_sym (u y : sym) : sym :=
  Sym (y_abbrev u) (y_size u + y_size y) (y_diff u + y_diff y) (y_null u).

(** memorymap.py:453-475 for each level *)
Definition unify_syms := unify_items y_abbrev unify_new_sym unify_add_sym.
Definition unify_objs : dict str obj -> dict str obj -> dict str obj :=
  unify_items n_abbrev (unify_new_node unify_syms) (unify_add_node unify_syms).
Definition unify_archs : dict str arch -> dict str arch -> dict str arch :=
  unify_items n_abbrev (unify_new_node unify_objs) (unify_add_node unify_objs).
Definition unify_sects : dict str sect -> dict str sect -> dict str sect :=
  unify_items n_abbrev (unify_new_node unify_archs) (unify_add_node unify_archs).

(** memorymap.py:477-488 *)
Definition unify_type (t : mtype) : mtype :=
  MType (t_size t) (t_size_diff t) (t_used t) (t_used_diff t) (unify_sects (t_sections t) []).

(** assignment to memory_map['memory_types'] *)
Definition with_types (m : memmap) (d : dict str mtype) : memmap :=
  MemMap (m_target m) (m_target_diff m) (m_image_size m) (m_image_size_diff m)
         (m_project_path m) (m_project_path_diff m) d.

(** memorymap.py:477-488 *)
Definition unify (m : memmap) : memmap := with_types m (dmap unify_type (m_types m)).

(** ** walk, memorymap.py:491-543 *)

(** the [depth] argument, memorymap.py:491-497 *)
Inductive depth := DTypes | DSections | DArchives | DObjects | DAll.

(** the ten values yielded, memorymap.py:498-543 *)
Record wtuple := WTuple {
  w_type : str * mtype;
  w_sect : option (str * sect);
  w_arch : option (str * arch);
  w_obj : option (str * obj);
  w_sym : option (str * sym) }.

(** memorymap.py:491-543 *)
Definition walk (m : memmap) (d : depth) : list wtuple :=
  flat_map (fun t =>
    match d with
    | DTypes => [WTuple t None None None None]
    | _ =>
      flat_map (fun s =>
        match d with
        | DSections => [WTuple t (Some s) None None None]
        | _ =>
          flat_map (fun a =>
            match d with
            | DArchives => [WTuple t (Some s) (Some a) None None]
            | _ =>
              flat_map (fun o =>
                match d with
                | DObjects => [WTuple t (Some s) (Some a) (Some o) None]
                | _ => map (fun y => WTuple t (Some s) (Some a) (Some o) (Some y)) (n_sub (snd o))
                end) (n_sub (snd a))
            end) (n_sub (snd s))
        end) (t_sections (snd t))
    end) (m_types m).

(** ** remove_unused, memorymap.py:546-559 *)
(** memorymap.py:550-559 *)
Definition remove_unused_type (t : mtype) : mtype :=
  let secs := filter (fun kv => match n_sub (snd kv) with [] => false | _ => true end) (t_sections t) in
  MType (t_size t) (t_size_diff t) (fold_left (fun u kv => u + n_size (snd kv)) secs 0) (t_used_diff t) secs.

(** memorymap.py:546-559 *)
Definition remove_unused (m : memmap) : memmap :=
  with_types m (dmap remove_unused_type (filter (fun kv => negb (t_used (snd kv) =? 0)) (m_types m))).

(** ** ignore_flash_size, memorymap.py:562-572 *)

(** [str.lower] on code points 0..255 *)
Definition lower_char (c : ascii) : ascii :=
  let n := nat_of_ascii c in
  if ((65 <=? n) && (n <=? 90) || (192 <=? n) && (n <=? 222) && negb (n =? 215))%nat%bool
  then ascii_of_nat (n + 32) else c.
Definition lower (s : str) : str := map lower_char s.

(** [s.startswith(p)] *)
Fixpoint startswith (p s : str) : bool :=
  match p, s with
  | [], _ => true
  | c :: p', d :: s' => (c =?= d) && startswith p' s'
  | _, [] => false
  end.
(** [sub in s] *)
Fixpoint contains (sub s : str) : bool :=
  startswith sub s || match s with [] => false | _ :: s' => contains sub s' end.

(** memorymap.py:571 *)
Definition is_flash (name : str) : bool := contains "flash" (lower name).

(** memorymap.py:562-572 *)
Definition ignore_flash_size (m : memmap) : memmap :=
  with_types m (dmapk (fun k t =>
    if is_flash k
    then MType 0 (t_size_diff t) (t_used t) (t_used_diff t) (t_sections t)
    else t) (m_types m)).

(** ** Command line options (main.py:165-311) as far as the modelled code uses them *)

(** --format, main.py:168-178 *)
Inductive format := FTable | FText | FTree | FCsv | FJson2 | FRaw | FDot.

Record args := Args {
  a_format : format;
  a_archives : bool;
  a_archive_dependencies : bool;
  a_dep_symbols : bool;
  a_dep_reverse : bool;
  a_archive_details : option str;
  a_files : bool;
  a_diff : option str;
  a_no_abbrev : bool;
  a_abbrev : bool;          (* derived, main.py:110 *)
  a_unify : bool;
  a_show_unused : bool;
  a_show_unchanged : bool;
  a_use_flash_size : bool;
  a_use_dwarf : option bool;
  a_output_file : option str;
  a_sort : str;
  a_filter : option (list str);
  a_sort_diff : bool;
  a_sort_reverse : bool }.

(** truth value of an optional string option *)
Definition given (o : option str) : bool :=
  match o with Some (_ :: _) => true | _ => false end.

(** ** trim, memorymap.py:575-627 *)

(** memorymap.py:585 *)
Inductive trim_depth := TArchiveDetails | TArchives | TObjects | TAll.

(** memorymap.py:580-583 *)
Definition changed (a : args) (d : Z) : bool :=
  if negb (given (a_diff a)) || a_show_unchanged a then true else negb (d =? 0).

(** memorymap.py:587-594 *)
Definition trim_depth_of (a : args) : trim_depth :=
  if given (a_archive_details a) then TArchiveDetails
  else if a_archives a then TArchives
  else if a_files a then TObjects
  else TAll.

(** memorymap.py:620-627 *)
Definition trim_obj (a : args) (o : obj) : obj :=
  Node (n_abbrev o) (n_size o) (n_diff o)
    (match trim_depth_of a with
     | TObjects => []
     | _ => filter (fun kv => changed a (y_diff (snd kv))) (n_sub o)
     end).

(** memorymap.py:612-618 *)
Definition trim_arch (a : args) (x : arch) : arch :=
  Node (n_abbrev x) (n_size x) (n_diff x)
    (match trim_depth_of a with
     | TArchives => []
     | _ => dmap (trim_obj a) (filter (fun kv => changed a (n_diff (snd kv))) (n_sub x))
     end).

(** memorymap.py:600-610 *)
Definition trim_sect (a : args) (s : sect) : sect :=
  Node (n_abbrev s) (n_size s) (n_diff s)
    (dmap (trim_arch a)
       (filter (fun kv =>
          match trim_depth_of a with
          | TArchiveDetails =>
            (match a_archive_details a with Some n => n_abbrev (snd kv) =?= n | None => false end)
            && changed a (n_diff (snd kv))
          | _ => changed a (n_diff (snd kv))
          end) (n_sub s))).

(** memorymap.py:598-599 *)
Definition trim_type (a : args) (t : mtype) : mtype :=
  MType (t_size t) (t_size_diff t) (t_used t) (t_used_diff t)
    (dmap (trim_sect a) (filter (fun kv => changed a (n_diff (snd kv))) (t_sections t))).

(** memorymap.py:575-627 *)
Definition trim (m : memmap) (a : args) : memmap :=
  with_types m (dmap (trim_type a) (filter (fun kv => changed a (t_used_diff (snd kv))) (m_types m))).

(** ** sort, memorymap.py:630-647 and sort_dict_by_key, 670-671
    (the values are ints, so [int()] is the identity) *)
Definition sort_dict_by_key {V} (key : V -> Z) (reverse : bool) (d : dict str V) : dict str V :=
  py_sorted (fun kv => key (snd kv)) reverse d.

(** memorymap.py:631-633 *)
Definition node_key (a : args) {C} (n : node C) : Z := if a_sort_diff a then n_diff n else n_size n.
Definition sym_key (a : args) (y : sym) : Z := if a_sort_diff a then y_diff y else y_size y.
Definition type_key (a : args) (t : mtype) : Z := if a_sort_diff a then t_used_diff t else t_used t.

(** memorymap.py:636-647, one definition per level *)
Definition sort_obj (a : args) (o : obj) : obj :=
  Node (n_abbrev o) (n_size o) (n_diff o) (sort_dict_by_key (sym_key a) (a_sort_reverse a) (n_sub o)).
Definition sort_arch (a : args) (x : arch) : arch :=
  Node (n_abbrev x) (n_size x) (n_diff x)
    (dmap (sort_obj a) (sort_dict_by_key (node_key a) (a_sort_reverse a) (n_sub x))).
Definition sort_sect (a : args) (s : sect) : sect :=
  Node (n_abbrev s) (n_size s) (n_diff s)
    (dmap (sort_arch a) (sort_dict_by_key (node_key a) (a_sort_reverse a) (n_sub s))).
Definition sort_type (a : args) (t : mtype) : mtype :=
  MType (t_size t) (t_size_diff t) (t_used t) (t_used_diff t)
    (dmap (sort_sect a) (sort_dict_by_key (node_key a) (a_sort_reverse a) (t_sections t))).
Definition sort (m : memmap) (a : args) : memmap :=
  with_types m (dmap (sort_type a) (sort_dict_by_key (type_key a) (a_sort_reverse a) (m_types m))).

(** ** Summaries, memorymap.py:650-848 *)

(** rows of a summary, memorymap.py:653-665 and 745-751 *)
Record ssect := SSect { ss_size : Z; ss_diff : Z; ss_abbrev : str }.
Record stype := SType { st_size : Z; st_diff : Z; st_sections : dict str ssect }.
Record sentry := SEntry { se_abbrev : str; se_size : Z; se_diff : Z; se_types : dict str stype }.

(** memorymap.py:650-667 *)
Definition get_summary_memory_types (m : memmap) : dict str stype :=
  fold_left (fun acc t =>
    dset (fst t)
      (SType 0 0 (fold_left (fun acc' s => dset (fst s) (SSect 0 0 (n_abbrev (snd s))) acc')
                            (t_sections (snd t)) []))
      acc) (m_types m) [].

(** The common body of the three summary loops, memorymap.py:745-765, 793-813 and
    826-846: look up or create the entry, overwrite the section value, add to the
    totals.  [symbol['memory_types'][t]] and [['sections'][s]] always exist, see
    [summary_keys] in the proofs; [dupd] does nothing where Python would raise
    [KeyError]. *)
Definition summary_add (mts : dict str stype) (acc : dict str sentry)
    (name abbrev tname sname : str) (size sdiff : Z) : dict str sentry :=
  let acc := if dmem name acc then acc else dset name (SEntry abbrev 0 0 mts) acc in
  dupd name (fun e =>
    SEntry (se_abbrev e) (se_size e + size) (se_diff e + sdiff)
      (dupd tname (fun t =>
         SType (st_size t + size) (st_diff t + sdiff)
           (dupd sname (fun s => SSect size sdiff (ss_abbrev s)) (st_sections t)))
         (se_types e))) acc.

(** memorymap.py:711-716 *)
Definition rem_summary_unchanged (a : args) (entries : dict str sentry) : dict str sentry :=
  if negb (given (a_diff a)) || a_show_unchanged a then entries
  else filter (fun kv => negb (se_diff (snd kv) =? 0)) entries.

(** [os.path.basename] (posix): the part after the last '/' *)
Fixpoint basename (s : str) : str :=
  match s with
  | [] => []
  | c :: s' => if mem "/"%char s' then basename s' else if c =?= "/"%char then s' else c :: s'
  end.

Definition colon (l : list str) : str :=   (* ':'.join(l) *)
  match l with
  | [] => []
  | x :: l' => x ++ flat_map (fun y => ":"%char :: y) l'
  end.

(** memorymap.py:818-848 *)
Definition archives_summary_raw (m : memmap) : dict str sentry :=
  let mts := get_summary_memory_types m in
  fold_left (fun acc w =>
    match w_sect w, w_arch w with
    | Some s, Some x =>
      summary_add mts acc (fst x) (n_abbrev (snd x)) (fst (w_type w)) (fst s) (n_size (snd x)) (n_diff (snd x))
    | _, _ => acc
    end) (walk m DArchives) [].
Definition get_archives_summary (m : memmap) (a : args) : dict str sentry :=
  rem_summary_unchanged a (archives_summary_raw m).

(** memorymap.py:773-815 *)
Definition object_files_summary_raw (m : memmap) (a : args) : dict str sentry :=
  let mts := get_summary_memory_types m in
  fold_left (fun acc w =>
    match w_sect w, w_arch w, w_obj w with
    | Some s, Some x, Some o =>
      let full := if a_unify a then n_abbrev (snd o) else colon [fst x; fst o] in
      summary_add mts acc full (basename (fst o)) (fst (w_type w)) (fst s) (n_size (snd o)) (n_diff (snd o))
    | _, _, _ => acc
    end) (walk m DObjects) [].
Definition get_object_files_summary (m : memmap) (a : args) : dict str sentry :=
  rem_summary_unchanged a (object_files_summary_raw m a).

(** memorymap.py:725-765 *)
Definition symbols_walk (m : memmap) (details : str) : list wtuple :=
  filter (fun w => match w_arch w with Some x => n_abbrev (snd x) =?= details | None => false end)
         (walk m DAll).
Definition symbols_summary_raw (m : memmap) (a : args) (details : str) : dict str sentry :=
  let mts := get_summary_memory_types m in
  fold_left (fun acc w =>
    match w_sect w, w_arch w, w_obj w, w_sym w with
    | Some s, Some x, Some o, Some y =>
      let full := if a_unify a then y_abbrev (snd y) else colon [fst x; fst o; fst y] in
      summary_add mts acc full (fst y) (fst (w_type w)) (fst s) (y_size (snd y)) (y_diff (snd y))
    | _, _, _, _ => acc
    end) (symbols_walk m details) [].
(** memorymap.py:719-770; [log.die] raises [SystemExit] *)
Definition get_symbols_summary (m : memmap) (a : args) : res (dict str sentry) :=
  let details := match a_archive_details a with Some n => n | None => [] end in
  match symbols_walk m details with
  | [] => Err SystemExit
  | _ => Ok (rem_summary_unchanged a (symbols_summary_raw m a details))
  end.

(** memorymap.py:674-686 *)
Definition get_summary_sorted (entries : dict str sentry) (a : args) : dict str sentry :=
  let r := a_sort_reverse a in
  let ek e := if a_sort_diff a then se_diff e else se_size e in
  let tk t := if a_sort_diff a then st_diff t else st_size t in
  let sk s := if a_sort_diff a then ss_diff s else ss_size s in
  dmap (fun e => SEntry (se_abbrev e) (se_size e) (se_diff e)
    (dmap (fun t => SType (st_size t) (st_diff t) (sort_dict_by_key sk r (st_sections t)))
       (sort_dict_by_key tk r (se_types e))))
    (sort_dict_by_key ek r entries).
