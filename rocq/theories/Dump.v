(** * Dump: model of the listings of elf.py: the [dump_*] functions and the program
    [python -m esp_idf_size.elf] (elf.py:2202-2293).

    Simplifications:
    - a listing is the list of the printed lines and the exception that ended it, if any;
    - the arguments are given after parsing; the help text on standard error is not modelled;
    - the file is the bytes of the file. *)
From Coq Require Import Ascii String List ZArith Bool.
From Verif Require Import Base ElfRead Dwarf Names Table.
Import ListNotations.
Open Scope list_scope.
Open Scope Z_scope.

Local Definition tx (s : string) : str := list_ascii_of_string s.

(** ** Names *)

(** a dictionary literal: of equal keys the first position and the last value *)
Definition dict_literal (items : list (Z * str)) : dict Z str := fold_left (fun d kv => dset (fst kv) (snd kv) d) items [].
Definition DW_TAG_NAME_MAP := dict_literal DW_TAG_NAME_ITEMS.     (* elf.py:103-194 *)
Definition DW_AT_NAME_MAP := dict_literal DW_AT_NAME_ITEMS.       (* elf.py:417-629 *)
Definition DW_FORM_NAME_MAP := dict_literal DW_FORM_NAME_ITEMS.   (* elf.py:685-734 *)
Definition SHT_NAME_MAP := dict_literal SHT_NAME_ITEMS.           (* elf.py:1187-1225 *)
Definition STB_NAME_MAP := dict_literal STB_NAME_ITEMS.           (* elf.py:1243-1252 *)
Definition STT_NAME_MAP := dict_literal STT_NAME_ITEMS.           (* elf.py:1269-1282 *)
Definition STV_NAME_MAP := dict_literal STV_NAME_ITEMS.           (* elf.py:1290-1295 *)

(** get_tag_name, get_attr_name, get_form_name, get_sht_name and the properties with the same
    text: elf.py:197-198, 632-633, 737-738, 1228-1229, 1502-1508, 1541-1543 *)
Definition name_or_unknown (names : dict Z str) (n : Z) : str :=
  match dget n names with Some s => s | None => tx "UNKNOWN " ++ show_Z n end.
Definition get_tag_name := name_or_unknown DW_TAG_NAME_MAP.
Definition get_attr_name := name_or_unknown DW_AT_NAME_MAP.
Definition get_form_name := name_or_unknown DW_FORM_NAME_MAP.
Definition get_sht_name := name_or_unknown SHT_NAME_MAP.

(** Elf_Sym.type_name, bind_name, visibility_name, elf.py:1454-1456, 1462-1464, 1470-1472 *)
Definition name_or_error (names : dict Z str) (n : Z) : res str :=
  match dget n names with Some s => Ok s | None => Err KeyError end.
Definition type_name (y : xsym) : res str := name_or_error STT_NAME_MAP (xsym_type y).
Definition bind_name (y : xsym) : res str := name_or_error STB_NAME_MAP (xsym_bind y).
Definition visibility_name (y : xsym) : res str := name_or_error STV_NAME_MAP (xsym_visibility y).

(** ** Format specifications *)

(** [{s:n}], [{s:<n}] of a text, [{i:<n}] of a number *)
Definition left_in (n : nat) (s : str) : str := s ++ repeat " "%char (n - length s).
(** [{s:>n}] of a text, [{i:n}] of a number *)
Definition right_in (n : nat) (s : str) : str := repeat " "%char (n - length s) ++ s.
(** [{z:#0nx}]: zeros after the sign and the prefix *)
Definition hex_zeros (n : nat) (z : Z) : str :=
  let digits := hex_digits (S (Z.to_nat (Z.log2 (Z.abs z)))) (Z.abs z) [] in
  let start := if z <? 0 then tx "-0x" else tx "0x" in
  start ++ repeat "0"%char (n - length start - length digits) ++ digits.

(** ** Printing *)
Definition out (A : Type) : Type := list str * res A.
Definition say (line : str) : out unit := ([line], Ok tt).
Definition lift {A} (r : res A) : out A := ([], r).
Definition and_then {A B} (m : out A) (f : A -> out B) : out B :=
  match m with
  | (l, Ok a) => let (l', r) := f a in (l ++ l', r)
  | (l, Err e) => (l, Err e)
  end.
Notation "'having' x <- m ; k" := (and_then m (fun x => k)) (at level 200, x pattern, m at level 100, k at level 200).
Fixpoint each {A} (f : A -> out unit) (l : list A) : out unit :=
  match l with [] => ([], Ok tt) | a :: l' => having _ <- f a; each f l' end.
(** [for idx, a in enumerate(l)] *)
Fixpoint each_from {A} (f : Z -> A -> out unit) (i : Z) (l : list A) : out unit :=
  match l with [] => ([], Ok tt) | a :: l' => having _ <- f i a; each_from f (i + 1) l' end.

(** ** Elf.dump_sections, elf.py:2247-2253 *)
Definition sections_header : str :=
  left_in 3 (tx "Nr") ++ tx " " ++ left_in 30 (tx "Name") ++ tx " " ++ left_in 15 (tx "Type") ++ tx " " ++
  left_in 10 (tx "Address") ++ tx " " ++ left_in 8 (tx "Off") ++ tx " " ++ left_in 8 (tx "Size").
Definition section_line (idx : Z) (name sht_name : str) (s : xshdr) : str :=
  left_in 3 (show_Z idx) ++ tx " " ++ left_in 30 name ++ tx " " ++ left_in 15 sht_name ++ tx " " ++
  hex_zeros 10 (x_addr s) ++ tx " " ++ hex_zeros 8 (x_offset s) ++ tx " " ++ hex_zeros 8 (x_size s).
Definition dump_sections (e : xelf) : out unit :=
  having _ <- say sections_header;
  each_from (fun idx s =>
    having n <- lift (shdr_name e s);
    say (section_line idx n (get_sht_name (x_type s)) s)) 0 (xe_shdrs e).

(** ** Elf.dump_symbol_table, elf.py:2229-2241.  The sections are taken from the global variable
    [elf], which exists only in the program (elf.py:2276); [None] stands for its absence.
    A symbol comes with its [cu_name]. *)
Definition symbols_header : str :=
  left_in 7 (tx "Num") ++ tx " " ++ left_in 10 (tx "Value") ++ tx " " ++ right_in 7 (tx "Size") ++ tx " " ++
  left_in 10 (tx "Type") ++ tx " " ++ left_in 10 (tx "Bind") ++ tx " " ++ left_in 10 (tx "Vis") ++ tx " " ++
  right_in 6 (tx "Ndx") ++ tx " " ++ left_in 20 (tx "Shdr") ++ tx " Name".
Definition section_of (glob : option xelf) (y : xsym) : res str :=
  match glob with
  | None => Err NameError
  | Some e => if x_shndx y <? Z.of_nat (length (xe_shdrs e)) then do s <- nth_shdr e (x_shndx y); shdr_name e s
              else Ok (tx "SPECIAL")
  end.
Definition symbol_line (idx : Z) (y : xsym) (ty bind vis shdr name cu_name : str) : str :=
  left_in 7 (show_Z idx) ++ tx " " ++ hex_zeros 10 (x_value y) ++ tx " " ++ right_in 7 (show_Z (x_stsize y)) ++ tx " " ++
  left_in 10 ty ++ tx " " ++ left_in 10 bind ++ tx " " ++ left_in 10 vis ++ tx " " ++ right_in 6 (show_Z (x_shndx y)) ++ tx " " ++
  left_in 20 shdr ++ tx " " ++ name ++ tx " " ++ cu_name.
Definition dump_symbol_list (glob : option xelf) (e : xelf) (l : list (xsym * option str)) : out unit :=
  having _ <- say symbols_header;
  each_from (fun idx (yc : xsym * option str) =>
    let (y, c) := yc in
    let cu_name := match c with Some n => n | None => tx "NOCU" end in
    having shdr <- lift (section_of glob y);
    having ty <- lift (type_name y);
    having bind <- lift (bind_name y);
    having vis <- lift (visibility_name y);
    having n <- lift (xsym_name e y);
    say (symbol_line idx y ty bind vis shdr n cu_name)) 0 l.
Definition dump_symbol_table (glob : option xelf) (e : xelf) : out unit :=
  having l <- lift (symbols e); dump_symbol_list glob e (map (fun y => (y, None)) l).

(** Elf.dump_symbol_cu, elf.py:2243-2245 *)
Definition dump_symbol_cu (glob : option xelf) (e : xelf) : out unit :=
  having d <- lift (add_cus_to_symbols e); dump_symbol_list glob e (map snd d).

(** ** Elf.dump_debug_info, elf.py:2212-2227 *)
Definition die_line (d : die) : str :=
  tx "<" ++ show_Z (d_level d) ++ tx "> <" ++ hex_int (d_off d) ++ tx "> Abbrev Number: <" ++ show_Z (d_code d) ++
  tx "> (" ++ get_tag_name (d_tag d) ++ tx ") size: " ++ hex_int (d_size d).
Definition attr_line (a : dattr) (value : str) : str :=
  tx "    <" ++ hex_int (at_off a) ++ tx "> " ++ left_in 30 (get_attr_name (at_attr a)) ++
  left_in 30 (get_form_name (at_form a)) ++ tx " " ++ value.
(** all entries of a unit: [cu.get_DIEs()] without filter, elf.py:1844-1923 *)
Definition dies_of (e : xelf) (c : cu) : res (list die) :=
  do s <- lookup_shdr e ".debug_info";
  match s with
  | None => Err AttributeError
  | Some s => do info <- shdr_data e s; get_DIEs (xe_big e) info (abbrev_table e c) c None
  end.
Definition dump_debug_info (e : xelf) : out unit :=
  having cus <- lift (CUs e);
  each (fun c =>
    having l <- lift (dies_of e c);
    each (fun d =>
      having _ <- say (die_line d);
      each (fun a => having v <- lift (get_attr_str e a); say (attr_line a v)) (map snd (d_attrs d))) l) cus.

(** ** Elf.dump_abbrev_table, elf.py:2202-2210 *)

(** the abbreviations of a unit with the offsets of the entries and of their attributes (the
    fields [offset], elf.py:1486, 1523); the same reading as [read_abattrs], [read_abbrev] and
    [read_abbrevs] *)
Fixpoint located_attrs (fuel : nat) (data : bytes) (offset : Z) : res (list (Z * abattr) * Z) :=
  match fuel with
  | O => Err OutOfFuel
  | S fuel' =>
      do (a, n) <- read_abattr data offset;
      if (aa_attr a =? 0) && (aa_form a =? 0) then Ok ([(offset, a)], offset + n)
      else do (l, o) <- located_attrs fuel' data (offset + n); Ok ((offset, a) :: l, o)
  end.
Record located := Located { l_off : Z; l_code : Z; l_tag : Z; l_children : Z; l_attrs : list (Z * abattr) }.
Definition located_abbrev (big : bool) (data : bytes) (offset : Z) : res (located * Z) :=
  do (code, o1) <- get_uleb128 data offset;
  do (tag, o2) <- get_uleb128 data o1;
  let (children, o3) := get_uint big 1 data o2 in
  do (l, o4) <- located_attrs (S (length data)) data o3;
  Ok (Located offset code tag children l, o4).
Fixpoint located_abbrevs (fuel : nat) (big : bool) (data : bytes) (offset : Z) : res (list located) :=
  match fuel with
  | O => Err OutOfFuel
  | S fuel' =>
      do (code, _) <- get_uleb128 data offset;
      if code =? 0 then Ok []
      else do (a, o) <- located_abbrev big data offset;
           do l <- located_abbrevs fuel' big data o; Ok (a :: l)
  end.
Definition located_table (e : xelf) (c : cu) : res (list located) :=
  do s <- lookup_shdr e ".debug_abbrev";
  match s with
  | None => Ok []
  | Some s => do data <- shdr_data e s; located_abbrevs (S (length data)) (xe_big e) data (cu_abbrev_offset c)
  end.
Definition unit_line (idx : Z) (c : cu) : str :=
  tx "<" ++ hex_zeros 10 (cu_abbrev_offset c) ++ tx "> CU<" ++ show_Z idx ++ tx "> at offset " ++ hex_zeros 10 (cu_offset c).
Definition entry_line (a : located) : str :=
  tx "<" ++ hex_zeros 10 (l_off a) ++ tx ">" ++ tx "   " ++ show_Z (l_code a) ++ tx " " ++ get_tag_name (l_tag a) ++
  tx " [" ++ show_Z (l_children a) ++ tx "]".
Definition spec_line (p : Z * abattr) : str :=
  tx "<" ++ hex_zeros 10 (fst p) ++ tx ">" ++ tx "      " ++ left_in 30 (get_attr_name (aa_attr (snd p))) ++ tx " " ++
  get_form_name (aa_form (snd p)).
Definition dump_abbrev_table (e : xelf) : out unit :=
  having cus <- lift (CUs e);
  each_from (fun idx c =>
    having _ <- say (unit_line idx c);
    having l <- lift (located_table e c);
    each (fun a => having _ <- say (entry_line a); each (fun p => say (spec_line p)) (l_attrs a)) l) 0 cus.

(** ** The program, elf.py:2256-2293 *)
Inductive debug := DebugInfo | DebugAbbrev | DebugFiles.
Record options := Options { o_sections : bool; o_symbols : bool; o_debug : option debug }.
Definition elf_program (o : options) (file : bytes) : out unit :=
  having e <- lift (elf_init file);
  match o_debug o with
  | Some DebugInfo => dump_debug_info e
  | Some DebugAbbrev => dump_abbrev_table e
  | Some DebugFiles => dump_symbol_cu (Some e) e
  | None => if o_symbols o then dump_symbol_table (Some e) e
            else if o_sections o then dump_sections e
            else ([], Ok tt)
  end.
