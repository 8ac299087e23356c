(** * Dwarf: model of the DWARF part of elf.py.

    Simplifications:
    - Python's recursion limit (debugging entries nested about a thousand deep) is
      not modelled, and neither is what a cache holds after an exception;
    - the dictionary of debugging entries of one unit is the list of its entries in
      the order in which they are inserted; that its keys are distinct is proved. *)
From Coq Require Import Ascii String List ZArith Bool.
From Verif Require Import Base ElfRead.
Import ListNotations.
Open Scope list_scope.
Open Scope Z_scope.

(** ** Abbreviations *)

(** Dwarf_Abbrev_Attr, elf.py:1475-1500; [aa_value] only with DW_FORM_implicit_const *)
Record abattr := AbAttr { aa_attr : Z; aa_form : Z; aa_value : option Z }.
Definition DW_FORM_implicit_const : Z := 33.  (* elf.py:668 *)

(** elf.py:1485-1500: the attribute and its size *)
Definition read_abattr (data : bytes) (offset : Z) : res (abattr * Z) :=
  do (attr, o1) <- get_uleb128 data offset;
  do (form, o2) <- get_uleb128 data o1;
  if form =? DW_FORM_implicit_const then
    do (v, o3) <- get_uleb128 data o2; Ok (AbAttr attr form (Some v), o3 - offset)
  else Ok (AbAttr attr form None, o2 - offset).

(** Dwarf_Abbrev_Entry, elf.py:1511-1539; [ab_attrs] includes the final (0, 0) *)
Record abbrev := Abbrev { ab_code : Z; ab_tag : Z; ab_children : Z; ab_attrs : list abattr }.

(** the loop of elf.py:1530-1537: attributes and the offset after them *)
Fixpoint read_abattrs (fuel : nat) (data : bytes) (offset : Z) : res (list abattr * Z) :=
  match fuel with
  | O => Err OutOfFuel
  | S fuel' =>
      do (a, n) <- read_abattr data offset;
      if (aa_attr a =? 0) && (aa_form a =? 0) then Ok ([a], offset + n)
      else do (l, o) <- read_abattrs fuel' data (offset + n); Ok (a :: l, o)
  end.

(** elf.py:1522-1539: the entry and the offset after it *)
Definition read_abbrev (big : bool) (data : bytes) (offset : Z) : res (abbrev * Z) :=
  do (code, o1) <- get_uleb128 data offset;
  do (tag, o2) <- get_uleb128 data o1;
  let (children, o3) := get_uint big 1 data o2 in
  do (l, o4) <- read_abattrs (S (length data)) data o3;
  Ok (Abbrev code tag children l, o4).

(** Dwarf_CU.abbrev_table, elf.py:1621-1633, without the [None] in front *)
Fixpoint read_abbrevs (fuel : nat) (big : bool) (data : bytes) (offset : Z) : res (list abbrev) :=
  match fuel with
  | O => Err OutOfFuel
  | S fuel' =>
      do (code, _) <- get_uleb128 data offset;
      if code =? 0 then Ok []
      else do (a, o) <- read_abbrev big data offset;
           do l <- read_abbrevs fuel' big data o; Ok (a :: l)
  end.

(** ** Units *)

(** Dwarf_CU, elf.py:1546-1563; [cu_ullen] is [len(unit_length)], [cu_is64] says
    whether [get_offset] reads 8 bytes, [cu_unit_type] is set by version 5 only *)
Record cu := Cu {
  cu_offset : Z; cu_ullen : Z; cu_length : Z; cu_is64 : bool; cu_version : Z; cu_unit_type : option Z;
  cu_address_size : Z; cu_abbrev_offset : Z; cu_die_offset : Z }.

Definition off_size (is64 : bool) : Z := if is64 then 8 else 4.

(** Dwarf_CU.__init__, elf.py:1565-1606 *)
Definition read_cu (big : bool) (data : bytes) (offset : Z) : res cu :=
  let ul := blen (fst (get_bytes 4 data offset)) in
  let (len, o1) := get_uint big 4 data offset in
  let is64 := len =? 4294967295 in
  let ul := if is64 then ul + blen (fst (get_bytes 8 data o1)) else ul in
  let (len, o2) := if is64 then get_uint big 8 data o1 else (len, o1) in
  let (version, o3) := get_uint big 2 data o2 in
  do (ut, asize, aoff, o) <-
    (if version =? 5 then
       let (ut, o4) := get_uint big 1 data o3 in
       let (asize, o5) := get_uint big 1 data o4 in
       let (aoff, o6) := get_uint big (off_size is64) data o5 in
       Ok (Some ut, asize, aoff, o6)
     else if version <=? 4 then
       let (aoff, o4) := get_uint big (off_size is64) data o3 in
       let (asize, o5) := get_uint big 1 data o4 in
       Ok (None, asize, aoff, o5)
     else Err Elf_Exception);
  if (asize =? 4) || (asize =? 8) then Ok (Cu offset ul len is64 version ut asize aoff o)
  else Err Elf_Exception.

(** Elf.CUs, elf.py:2011-2030; [data] is the content of .debug_info *)
Fixpoint read_cus (fuel : nat) (big : bool) (data : bytes) (offset : Z) : res (list cu) :=
  match fuel with
  | O => Err OutOfFuel
  | S fuel' =>
      if offset <? blen data then
        do c <- read_cu big data offset;
        do l <- read_cus fuel' big data (offset + cu_ullen c + cu_length c); Ok (c :: l)
      else Ok []
  end.
Definition CUs (e : xelf) : res (list cu) :=
  do s <- lookup_shdr e ".debug_info";
  match s with
  | None => Ok []
  | Some s => do data <- shdr_data e s; read_cus (S (length data)) (xe_big e) data 0
  end.

(** ** Attribute values *)

(** a Python value: int, bytes, True or None *)
Inductive dval := DInt (z : Z) | DBytes (b : bytes) | DTrue | DNone.

(** the ways of reading a value that occur in elf.py:1635-1764 *)
Inductive reader :=
| RAddr              (* self.get_address *)
| ROffset            (* self.get_offset *)
| RBlock (n : Z)     (* n byte length, then that many bytes *)
| RBlockU            (* ULEB128 length, then that many bytes *)
| RInt (n : Z)       (* n byte integer *)
| RUleb | RSleb
| RImplicit          (* value of the abbreviation *)
| RPresent           (* True, nothing read *)
| RSkip              (* ULEB128 that is read but not kept *)
| RRef (n : Z)       (* n byte integer plus the offset of the unit *)
| RRefU              (* ULEB128 plus the offset of the unit *)
| RString.

(** the chain of tests of [form], elf.py:1640-1762, as the list of the tested forms
    (values of the constants: elf.py:636-683) *)
Definition form_readers : list (Z * reader) :=
  [(1, RAddr);          (* addr *)
   (23, ROffset);       (* sec_offset *)
   (10, RBlock 1); (3, RBlock 2); (4, RBlock 4); (9, RBlockU);     (* block1, block2, block4, block *)
   (11, RInt 1); (5, RInt 2); (6, RInt 4); (7, RInt 8); (30, RInt 16);  (* data1, 2, 4, 8, 16 *)
   (15, RUleb); (13, RSleb); (33, RImplicit);           (* udata, sdata, implicit_const *)
   (24, RBlockU);       (* exprloc *)
   (12, RInt 1); (25, RPresent);                        (* flag, flag_present *)
   (34, RSkip); (35, RSkip);                            (* loclistx, rnglistx *)
   (17, RRef 1); (18, RRef 2); (19, RRef 4); (20, RRef 8); (21, RRefU);  (* ref1, 2, 4, 8, ref_udata *)
   (16, ROffset);       (* ref_addr *)
   (32, RInt 1);        (* ref_sig8 *)
   (28, RInt 4); (36, RInt 8);                          (* ref_sup4, ref_sup8 *)
   (8, RString);        (* string *)
   (14, ROffset); (31, ROffset); (29, ROffset);         (* strp, line_strp, strp_sup *)
   (26, RUleb); (37, RInt 1); (38, RInt 2); (39, RInt 3); (40, RInt 4)].  (* strx, strx1, 2, 3, 4 *)

Definition dint (r : Z * Z) : dval * Z := (DInt (fst r), snd r).

(** Dwarf_CU.get_attr_value, elf.py:1635-1764: the value and the offset after it *)
Definition get_attr_value (big : bool) (c : cu) (a : abattr) (data : bytes) (offset : Z) : res (dval * Z) :=
  match dget (aa_form a) form_readers with
  | None => Err Elf_Exception
  | Some RAddr => Ok (dint (get_uint big (cu_address_size c) data offset))
  | Some ROffset => Ok (dint (get_uint big (off_size (cu_is64 c)) data offset))
  | Some (RBlock n) =>
      let (size, o) := get_uint big n data offset in
      let (b, o') := get_bytes size data o in Ok (DBytes b, o')
  | Some RBlockU =>
      do (size, o) <- get_uleb128 data offset;
      let (b, o') := get_bytes size data o in Ok (DBytes b, o')
  | Some (RInt n) => Ok (dint (get_uint big n data offset))
  | Some RUleb => do r <- get_uleb128 data offset; Ok (dint r)
  | Some RSleb => do r <- get_sleb128 data offset; Ok (dint r)
  | Some RImplicit => Ok (match aa_value a with Some v => DInt v | None => DNone end, offset)
  | Some RPresent => Ok (DTrue, offset)
  | Some RSkip => do (_, o) <- get_uleb128 data offset; Ok (DNone, o)
  | Some (RRef n) => let (v, o) := get_uint big n data offset in Ok (DInt (v + cu_offset c), o)
  | Some RRefU => do (v, o) <- get_uleb128 data offset; Ok (DInt (v + cu_offset c), o)
  | Some RString => do (s, o) <- get_string data offset; Ok (DBytes s, o)
  end.

(** ** Debugging entries *)

(** elf.py:1852-1864 *)
Record dattr := DAttr { at_attr : Z; at_form : Z; at_off : Z; at_value : dval; at_size : Z }.
(** elf.py:1867-1875 *)
Record die := Die {
  d_off : Z; d_parent : option Z; d_level : Z; d_code : Z; d_tag : Z; d_size : Z; d_attrs : dict Z dattr }.

(** elf.py:1899-1905: the loop over the attributes of an abbreviation *)
Fixpoint read_attrs (big : bool) (c : cu) (data : bytes) (l : list abattr) (offset : Z) (acc : dict Z dattr)
    : res (dict Z dattr * Z) :=
  match l with
  | [] => Ok (acc, offset)
  | a :: r =>
      if aa_attr a =? 0 then Ok (acc, offset)
      else
        do (v, o) <- get_attr_value big c a data offset;
        read_attrs big c data r o (dset (aa_attr a) (DAttr (aa_attr a) (aa_form a) offset v (o - offset)) acc)
  end.

(** get_DIE, elf.py:1866-1920: the entry and all entries below it in the order in
    which they are added to [dies], the code and the offset after the entry.
    [get_children] is the loop of elf.py:1911-1917. *)
Fixpoint get_DIE (fuel : nat) (big : bool) (c : cu) (tbl : list abbrev) (data : bytes)
    (offset : Z) (parent : option Z) (level : Z) : res (list die * Z * Z) :=
  match fuel with
  | O => Err OutOfFuel
  | S fuel' =>
      do (code, o) <- get_uleb128 data offset;
      if code =? 0 then Ok ([Die offset parent level 0 0 (o - offset) []], 0, o)
      else
        match nth_error tbl (Z.to_nat (code - 1)) with
        | None => Err IndexError
        | Some a =>
            if negb (code =? ab_code a) then Err AssertionError
            else
              do (attrs, o1) <- read_attrs big c data (ab_attrs a) o [];
              if ab_children a =? 0 then
                Ok ([Die offset parent level code (ab_tag a) (o1 - offset) attrs], code, o1)
              else
                do (l, o2) <- get_children fuel' big c tbl data o1 offset (level + 1);
                Ok (Die offset parent level code (ab_tag a) (o2 - offset) attrs :: l, code, o2)
        end
  end
with get_children (fuel : nat) (big : bool) (c : cu) (tbl : list abbrev) (data : bytes)
    (offset : Z) (parent : Z) (level : Z) : res (list die * Z) :=
  match fuel with
  | O => Err OutOfFuel
  | S fuel' =>
      do (l, code, o) <- get_DIE fuel' big c tbl data offset (Some parent) level;
      if code =? 0 then Ok (l, o)
      else do (l', o') <- get_children fuel' big c tbl data o parent level; Ok (l ++ l', o')
  end.

(** Dwarf_CU.abbrev_table, elf.py:1608-1633 *)
Definition abbrev_table (e : xelf) (c : cu) : res (list abbrev) :=
  do s <- lookup_shdr e ".debug_abbrev";
  match s with
  | None => Ok []
  | Some s => do data <- shdr_data e s; read_abbrevs (S (length data)) (xe_big e) data (cu_abbrev_offset c)
  end.

(** the entries of a unit, given the contents of the two sections; the table of
    abbreviations is read when the first entry is not a null entry *)
Definition unit_DIEs (big : bool) (info : bytes) (table : res (list abbrev)) (c : cu) : res (list die) :=
  do (code, _) <- get_uleb128 info (cu_die_offset c);
  do tbl <- (if code =? 0 then Ok [] else table);
  do (l, _, _) <- get_DIE (2 * length info + 2) big c tbl info (cu_die_offset c) None 0;
  Ok l.

(** [filter_tags is None or die['tag'] in filter_tags], elf.py:1888, 1894 *)
Definition wanted_tag (tags : option (list Z)) (d : die) : bool :=
  match tags with None => true | Some l => existsb (Z.eqb (d_tag d)) l end.

(** Dwarf_CU.get_DIEs, elf.py:1844-1923, first call *)
Definition get_DIEs (big : bool) (info : bytes) (table : res (list abbrev)) (c : cu) (tags : option (list Z))
    : res (list die) :=
  do l <- unit_DIEs big info table c; Ok (filter (wanted_tag tags) l).

(** the same with the cache [_die], elf.py:1845-1849, which is used if it is not empty.
    After an exception it holds the entries read so far; the model leaves it as it was *)
Definition get_DIEs_call (big : bool) (info : bytes) (table : res (list abbrev)) (c : cu) (tags : option (list Z))
    (cache : option (list die)) : res (list die) * option (list die) :=
  match cache with
  | Some (d :: l) => (Ok (d :: l), cache)
  | _ => let r := get_DIEs big info table c tags in
         (r, match r with Ok l => Some l | Err _ => cache end)
  end.

(** ** Evaluation of attributes *)

Inductive evalue := EStr (s : str) | EInt (z : Z).

(** DW_FORM_exprloc, elf.py:1783-1810: the stack at the end; [None] on it stands for
    an expression that is not supported *)
Fixpoint eval_expr (fuel : nat) (e : xelf) (value : bytes) (offset : Z) (stack : list (option Z))
    : res (list (option Z)) :=
  match fuel with
  | O => Err OutOfFuel
  | S fuel' =>
      if offset <? blen value then
        do b <- py_index value offset;
        if b =? 3 then
          let (a, o) := get_address e value (offset + 1) in eval_expr fuel' e value o (Some a :: stack)
        else Ok [None]
      else Ok stack
  end.

(** Dwarf_CU.get_attr_eval, elf.py:1766-1818, first call; the forms are strp,
    line_strp, string and exprloc *)
Definition eval_strp (e : xelf) (section : str) (v : dval) : res (option evalue) :=
  do s <- lookup_shdr e section;
  match s with
  | None => Ok None
  | Some s => match v with
              | DInt z => do b <- lookup_string e s z; do t <- decode b; Ok (Some (EStr t))
              | _ => Err TypeError
              end
  end.
Definition get_attr_eval (e : xelf) (a : dattr) : res (option evalue) :=
  if at_form a =? 14 then eval_strp e ".debug_str" (at_value a)
  else if at_form a =? 31 then eval_strp e ".debug_line_str" (at_value a)
  else if at_form a =? 8 then
    match at_value a with DBytes b => do t <- decode b; Ok (Some (EStr t)) | _ => Err AssertionError end
  else if at_form a =? 24 then
    match at_value a with
    | DBytes b =>
        do stack <- eval_expr (S (length b)) e b 0 [];
        match stack with
        | [x] => Ok (option_map EInt x)
        | _ => Err Elf_Exception
        end
    | _ => Err AssertionError
    end
  else Ok None.

(** with the keys 'evaluated' and 'eval' of the attribute, elf.py:1767-1768 and
    1816-1817: the value is stored under 'evaluated' and looked up under 'eval' *)
Definition get_attr_eval_call (e : xelf) (a : dattr) (evaluated : option (option evalue))
    : res (option evalue) * option (option evalue) :=
  match evaluated with
  | Some _ => (Err KeyError, evaluated)
  | None => let r := get_attr_eval e a in (r, match r with Ok v => Some v | Err _ => None end)
  end.

(** [f'{z:#x}'] and [bytes.hex()] *)
Definition hex_digit (d : Z) : ascii :=
  ascii_of_nat (Z.to_nat (if d <? 10 then 48 + d else 87 + d)).
Fixpoint hex_digits (fuel : nat) (z : Z) (acc : str) : str :=
  match fuel with
  | O => acc
  | S fuel' => let acc' := hex_digit (z mod 16) :: acc in
               if z <? 16 then acc' else hex_digits fuel' (z / 16) acc'
  end.
Definition hex_int (z : Z) : str :=
  (if z <? 0 then list_ascii_of_string "-0x" else list_ascii_of_string "0x") ++
  hex_digits (S (Z.to_nat (Z.log2 (Z.abs z)))) (Z.abs z) [].
Definition hex_bytes (b : bytes) : str := flat_map (fun x => [hex_digit (x / 16); hex_digit (x mod 16)]) b.

(** Dwarf_CU.get_attr_str, elf.py:1820-1838 *)
Definition get_attr_str (e : xelf) (a : dattr) : res str :=
  do v <- get_attr_eval e a;
  match v with
  | Some (EStr s) => Ok s
  | Some (EInt z) => Ok (hex_int z)
  | None => match at_value a with
            | DInt z => Ok (hex_int z)
            | DBytes b => Ok (hex_bytes b)
            | DTrue => Ok (hex_int 1)
            | DNone => Err TypeError
            end
  end.

(** ** Elf.add_cus_to_symbols, elf.py:2139-2200 *)

Definition DW_TAG_compile_unit : Z := 17.   (* elf.py:24 *)
Definition DW_TAG_subprogram : Z := 46.     (* elf.py:52 *)
Definition DW_TAG_variable : Z := 52.       (* elf.py:58 *)
Definition DW_AT_location : Z := 2.         (* elf.py:203 *)
Definition DW_AT_name : Z := 3.             (* elf.py:204 *)
Definition DW_AT_low_pc : Z := 17.          (* elf.py:212 *)
Definition DW_AT_abstract_origin : Z := 49. (* elf.py:235 *)

(** [int(v)]; bytes that are the text of a number are not modelled *)
Definition dval_int (v : dval) : res Z :=
  match v with DInt z => Ok z | DTrue => Ok 1 | DBytes _ => Err ValueError | DNone => Err TypeError end.

(** elf.py:2154-2158: [dies] with the unit of each *)
Definition all_dies (e : xelf) : res (dict Z (die * cu)) :=
  do cus <- CUs e;
  foldM (fun acc c =>
           do s <- lookup_shdr e ".debug_info";
           match s with
           | None => Err AttributeError
           | Some s =>
               do info <- shdr_data e s;
               do l <- get_DIEs (xe_big e) info (abbrev_table e c) c
                         (Some [DW_TAG_compile_unit; DW_TAG_subprogram; DW_TAG_variable]);
               Ok (fold_left (fun acc d => dset (d_off d) (d, c) acc) l acc)
           end) [] cus.

(** elf.py:2143-2152 *)
Definition get_cu_name (e : xelf) (dies : dict Z (die * cu)) (d : die * cu) : res str :=
  do d' <- match dget DW_AT_abstract_origin (d_attrs (fst d)) with
           | None => Ok d
           | Some a => do z <- dval_int (at_value a);
                       match dget z dies with Some d' => Ok d' | None => Err KeyError end
           end;
  match dget (cu_die_offset (snd d')) dies with
  | None => Err KeyError
  | Some (cd, _) =>
      match dget DW_AT_name (d_attrs cd) with
      | None => Err KeyError
      | Some a => get_attr_str e a
      end
  end.

(** symbols by address, elf.py:2160-2166; SHN_ABS is 0xfff1 (elf.py:1306) *)
Definition syms_by_address (l : list xsym) : dict Z (xsym * option str) :=
  fold_left (fun acc y => dset (x_value y) (y, None) acc)
    (filter (fun y => negb (x_stsize y =? 0) && ((xsym_type y =? 2) || (xsym_type y =? 1))
                      && negb (x_shndx y =? 65521)) l) [].

(** the address of an entry, if it has one that is considered: elf.py:2169-2178, 2185-2193 *)
Definition die_address (e : xelf) (d : die) : res (option Z) :=
  if d_tag d =? DW_TAG_subprogram then
    match dget DW_AT_low_pc (d_attrs d) with
    | None => Ok None
    | Some a => do z <- dval_int (at_value a); Ok (Some z)
    end
  else if d_tag d =? DW_TAG_variable then
    match dget DW_AT_location (d_attrs d) with
    | None => Ok None
    | Some a =>
        do v <- get_attr_eval e a;
        match v with
        | None => Ok None
        | Some (EInt z) => Ok (Some z)
        | Some (EStr _) => Err ValueError
        end
    end
  else Ok None.

(** elf.py:2168-2198: one turn of the loop *)
Definition add_cu (e : xelf) (dies : dict Z (die * cu)) (syms : dict Z (xsym * option str)) (d : die * cu)
    : res (dict Z (xsym * option str)) :=
  do a <- die_address e (fst d);
  match a with
  | None => Ok syms
  | Some z =>
      match dget z syms with
      | None => Ok syms
      | Some (y, _) => do n <- get_cu_name e dies d; Ok (dset z (y, Some n) syms)
      end
  end.

Definition add_cus_to_symbols (e : xelf) : res (dict Z (xsym * option str)) :=
  do dies <- all_dies e;
  do l <- symbols e;
  foldM (add_cu e dies) (syms_by_address l) (map snd dies).
