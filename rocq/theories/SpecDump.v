(** * SpecDump: what the listings of elf.py show *)
From Coq Require Import Ascii String List ZArith Bool.
From Verif Require Import Base ElfRead Dwarf Names Dump SpecMap SpecTable SpecElf SpecDwarf SpecDebug.
Import ListNotations.
Open Scope list_scope.
Open Scope Z_scope.

Local Definition tx (s : string) : str := list_ascii_of_string s.

(** ** Lines *)
(** texts separated by one or more spaces *)
Definition spaces (s : str) : Prop := Forall (fun c => c = " "%char) s.
Inductive cells : list str -> str -> Prop :=
| cells_last w : cells [w] w
| cells_cons w g l s : g <> [] -> spaces g -> cells l s -> cells (w :: l) (w ++ g ++ s).
(** one line for each element, in the same order; [R] gets the position, the element and the line *)
Definition rows {A} (R : nat -> A -> str -> Prop) (l : list A) (lines : list str) : Prop :=
  length lines = length l /\
  forall i a, nth_error l i = Some a -> exists line, nth_error lines i = Some line /\ R i a line.

(** ** Names *)
Fixpoint slashed (l : list str) : str :=
  match l with [] => [] | [a] => a | a :: r => a ++ "/"%char :: slashed r end.
(** the text shown for a number: names of constants with this value, or its decimal digits *)
Definition shown_name (constants : list (Z * str)) (z : Z) (s : str) : Prop :=
  (exists l, l <> [] /\ (forall n, In n l -> In (z, n) constants) /\ s = slashed l) \/
  ((forall n, ~ In (z, n) constants) /\ exists d, written d z /\ s = tx "UNKNOWN " ++ d).
Definition has_name (constants : list (Z * str)) (z : Z) : Prop := exists n, In (z, n) constants.

(** a number with as many zeros as it needs to be [w] characters long *)
Definition number_in (w : nat) (z : Z) (t : str) : Prop :=
  number z t /\ (w <= length t)%nat /\ ((w < length t)%nat -> forall r, t <> tx "0x0" ++ r).

(** the titles above the listings of sections and symbols *)
Definition section_titles : str := tx "Nr  Name                           Type            Address    Off      Size    ".
Definition symbol_titles : str := tx "Num     Value         Size Type       Bind       Vis           Ndx Shdr                 Name".

(** ** Sections: number, name, type, address, offset and size *)
Definition section_row (i : nat) (sn : xshdr * str) (line : str) : Prop :=
  let (s, n) := sn in
  exists num ty addr off size, written num (Z.of_nat i) /\ shown_name SHT_CONSTANTS (x_type s) ty /\
    number_in 10 (x_addr s) addr /\ number_in 8 (x_offset s) off /\ number_in 8 (x_size s) size /\
    cells [num; n; ty; addr; off; size] line.

(** ** Symbols: number, value, size, type, binding, visibility, number and name of the section,
    name and unit.  Type and binding are the low and the high half of st_info, the visibility
    is the low two bits of st_other *)
Definition section_named (names : list str) (z : Z) (s : str) : Prop :=
  (0 <= z < Z.of_nat (length names) /\ nth_error names (Z.to_nat z) = Some s) \/
  (Z.of_nat (length names) <= z /\ s = tx "SPECIAL").
Definition symbol_row (names : list str) (i : nat) (ync : xsym * str * option str) (line : str) : Prop :=
  let '(y, n, c) := ync in
  exists num value size ty bind vis ndx sec, written num (Z.of_nat i) /\ number_in 10 (x_value y) value /\ written size (x_stsize y) /\
    shown_name STT_CONSTANTS (x_stinfo y mod 16) ty /\ shown_name STB_CONSTANTS (x_stinfo y / 16) bind /\
    shown_name STV_CONSTANTS (x_stother y mod 4) vis /\ written ndx (x_shndx y) /\ section_named names (x_shndx y) sec /\
    cells [num; value; size; ty; bind; vis; ndx; sec; n; match c with Some u => u | None => tx "NOCU" end] line.
(** the name of a symbol in the string table of its symbol table *)
Definition symbol_named (e : xelf) (y : xsym) (n : str) : Prop :=
  exists t, nth_error (xe_shdrs e) (Z.to_nat (x_strndx y)) = Some t /\ string_at (xe_file e) t (x_stname y) n /\ plain n.
(** types and bindings that have a name *)
Definition usual (y : xsym) : Prop := has_name STT_CONSTANTS (x_stinfo y mod 16) /\ has_name STB_CONSTANTS (x_stinfo y / 16).

(** ** Debugging information *)
(** two digits a byte *)
Inductive bytes_hex : list Z -> str -> Prop :=
| bh_nil : bytes_hex [] []
| bh_cons b c d l s : SpecMap.hex_digit c (b / 16) -> SpecMap.hex_digit d (b mod 16) -> bytes_hex l s -> bytes_hex (b :: l) (c :: d :: s).
(** the text of an attribute: a text, the address of an expression, or the value as it is stored *)
Inductive value_shown (e : xelf) (names : list str) (a : dattr) : str -> Prop :=
| vs_text n : text_value e names a n -> value_shown e names a n
| vs_address z s : at_form a = 24 -> at_value a = DBytes (3 :: address_bytes e z) -> address_fits e z -> number_in 3 z s -> value_shown e names a s
| vs_expression b s : at_form a = 24 -> at_value a = DBytes b -> expression_ok e b -> (forall z, b <> 3 :: address_bytes e z) -> bytes_hex b s ->
    value_shown e names a s
| vs_number z s : ~ In (at_form a) [8; 14; 24; 31] -> at_value a = DInt z -> 0 <= z -> number_in 3 z s -> value_shown e names a s
| vs_bytes b s : ~ In (at_form a) [8; 14; 24; 31] -> at_value a = DBytes b -> bytes_hex b s -> value_shown e names a s
| vs_true : ~ In (at_form a) [8; 14; 24; 31] -> at_value a = DTrue -> value_shown e names a (tx "0x1").

(** entries whose attributes all have values that are read and can be shown *)
Definition showable (e : xelf) (names : list str) (d : die) : Prop :=
  forall k a, has_attr d k a -> inexact (at_form a) (at_value a) = false /\ exists v, value_shown e names a v.

(** the line of an entry: level, offset, code, tag and size *)
Definition die_row (d : die) (line : str) : Prop :=
  exists level off code tag size, written level (d_level d) /\ number_in 3 (d_off d) off /\ written code (d_code d) /\
    shown_name DW_TAG_CONSTANTS (d_tag d) tag /\ number_in 3 (d_size d) size /\
    line = tx "<" ++ level ++ tx "> <" ++ off ++ tx "> Abbrev Number: <" ++ code ++ tx "> (" ++ tag ++ tx ") size: " ++ size.
(** the line of an attribute: offset, name, form and value.  Names of 30 and more characters are
    not separated from the form *)
Definition attr_row (e : xelf) (names : list str) (a : dattr) (line : str) : Prop :=
  exists off name gap form value, number_in 3 (at_off a) off /\ shown_name DW_AT_CONSTANTS (at_attr a) name /\
    shown_name DW_FORM_CONSTANTS (at_form a) form /\ value_shown e names a value /\
    spaces gap /\ (gap = [] -> (30 <= length name)%nat) /\
    cells [tx "<" ++ off ++ tx ">"; name ++ gap ++ form; value] (skipn 4 line) /\ firstn 4 line = tx "    ".
Inductive info_lines (e : xelf) (names : list str) : list die -> list str -> Prop :=
| il_nil : info_lines e names [] []
| il_cons d l line ls lines : die_row d line -> Forall2 (attr_row e names) (map snd (d_attrs d)) ls -> info_lines e names l lines ->
    info_lines e names (d :: l) (line :: ls ++ lines).

(** ** Abbreviations with their offsets: the encoding of [abbrevs_enc] *)
Inductive attrs_at : Z -> list (Z * abattr) -> list Z -> Prop :=
| aa_end off la lf : uleb_enc 0 la -> uleb_enc 0 lf -> attrs_at off [(off, AbAttr 0 0 None)] (la ++ lf)
| aa_more off a l b r : aa_attr a <> 0 \/ aa_form a <> 0 -> abattr_enc a l -> attrs_at (off + blen l) b r ->
    attrs_at off ((off, a) :: b) (l ++ r).
Inductive abbrevs_at : Z -> list located -> list Z -> Prop :=
| la_end off l : uleb_enc 0 l -> abbrevs_at off [] l
| la_more off a r lc lt la lr : l_off a = off -> 1 <= l_code a -> uleb_enc (l_code a) lc -> uleb_enc (l_tag a) lt ->
    0 <= l_children a < 256 -> attrs_at (off + blen lc + blen lt + 1) (l_attrs a) la ->
    abbrevs_at (off + blen lc + blen lt + 1 + blen la) r lr ->
    abbrevs_at off (a :: r) (lc ++ lt ++ [l_children a] ++ la ++ lr).

(** the abbreviations of a unit *)
Definition abbrevs_of (abb : list Z) (u : cu * list Z) (t : list located) : Prop :=
  exists l, abbrevs_at (cu_abbrev_offset (fst u)) t l /\ occurs abb (cu_abbrev_offset (fst u)) l.

Definition unit_row (i : nat) (c : cu) (line : str) : Prop :=
  exists aoff num off, number_in 10 (cu_abbrev_offset c) aoff /\ written num (Z.of_nat i) /\ number_in 10 (cu_offset c) off /\
    line = tx "<" ++ aoff ++ tx "> CU<" ++ num ++ tx "> at offset " ++ off.
Definition entry_row (a : located) (line : str) : Prop :=
  exists off code tag children, number_in 10 (l_off a) off /\ written code (l_code a) /\ shown_name DW_TAG_CONSTANTS (l_tag a) tag /\
    written children (l_children a) /\
    line = tx "<" ++ off ++ tx ">   " ++ code ++ tx " " ++ tag ++ tx " [" ++ children ++ tx "]".
Definition spec_row (p : Z * abattr) (line : str) : Prop :=
  exists off name form, number_in 10 (fst p) off /\ shown_name DW_AT_CONSTANTS (aa_attr (snd p)) name /\
    shown_name DW_FORM_CONSTANTS (aa_form (snd p)) form /\ cells [tx "<" ++ off ++ tx ">"; name; form] line.
Inductive entry_lines : list located -> list str -> Prop :=
| el_nil : entry_lines [] []
| el_cons a l line ls lines : entry_row a line -> Forall2 spec_row (l_attrs a) ls -> entry_lines l lines ->
    entry_lines (a :: l) (line :: ls ++ lines).
(** the units one after the other; [i] is the number of the first *)
Inductive abbrev_lines : nat -> list (cu * list located) -> list str -> Prop :=
| al_nil i : abbrev_lines i [] []
| al_cons i c t l line ls lines : unit_row i c line -> entry_lines t ls -> abbrev_lines (S i) l lines ->
    abbrev_lines i ((c, t) :: l) (line :: ls ++ lines).
