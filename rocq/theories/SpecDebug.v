(** * SpecDebug: an ELF file with debugging information, and which unit a symbol belongs to *)
From Coq Require Import Ascii String List ZArith Bool.
From Verif Require Import Base ElfRead SpecElf Dwarf SpecDwarf.
Import ListNotations.
Open Scope list_scope.
Open Scope Z_scope.

(** ** Sections by name *)
Definition named_sections (e : xelf) (names : list str) : Prop :=
  exists t, nth_error (xe_shdrs e) (Z.to_nat (e_shstrndx (xe_ehdr e))) = Some t /\
    Forall2 (fun s n => plain n /\ string_at (xe_file e) t (x_name s) n) (xe_shdrs e) names.

(** the first section called [name] holds [data] *)
Definition section_is (e : xelf) (names : list str) (name : str) (data : list Z) : Prop :=
  exists i s, nth_error (xe_shdrs e) i = Some s /\ nth_error names i = Some name /\
    (forall j, (j < i)%nat -> nth_error names j <> Some name) /\
    occurs (xe_file e) (x_offset s) data /\ x_size s = blen data.

(** ** Units: header, abbreviations, tree of entries and the bytes that follow it *)
Record funit := FUnit { u_cu : cu; u_tbl : list abbrev; u_tree : tree; u_pad : list Z }.

(** no type units and no split units; see C77 *)
Definition plain_unit (c : cu) : Prop := cu_unit_type c = None \/ cu_unit_type c = Some 1 \/ cu_unit_type c = Some 3.

Definition unit_dies (u : funit) : list die := tdies (cu_die_offset (u_cu u)) None 0 (u_tree u).

Record unit_ok (big : bool) (abb : list Z) (u : funit) : Prop := {
  uo_plain : plain_unit (u_cu u);
  uo_tree : tree_ok big (u_cu u) (u_tbl u) (u_tree u);
  uo_abbrevs : exists l, abbrevs_enc (u_tbl u) l /\ occurs abb (cu_abbrev_offset (u_cu u)) l;
  uo_numbered : numbered (u_tbl u);
  uo_readable : readable (u_tbl u) }.

(** [e] has debugging information with these units *)
Record debug_image (e : xelf) (names : list str) (us : list funit) : Prop := {
  di_names : named_sections e names;
  di_sections : exists info abb, section_is e names (list_ascii_of_string ".debug_info") info /\
    section_is e names (list_ascii_of_string ".debug_abbrev") abb /\
    units_enc (xe_big e) 0 (map (fun u => (u_cu u, tbytes (u_tree u) ++ u_pad u)) us) info /\
    Forall (unit_ok (xe_big e) abb) us }.

(** ** Entries of functions and variables *)
Definition relevant (d : die) : bool := (d_tag d =? 17) || (d_tag d =? 46) || (d_tag d =? 52).
Definition entries (us : list funit) : list (die * funit) :=
  flat_map (fun u => map (fun d => (d, u)) (filter relevant (unit_dies u))) us.
Definition has_attr (d : die) (k : Z) (a : dattr) : Prop := In (k, a) (d_attrs d).

(** the address of a function (DW_AT_low_pc, 17) or of a variable (DW_AT_location, 2:
    the expression DW_OP_addr) *)
Definition address_bytes (e : xelf) (z : Z) : list Z := int_enc (xe_big e) (if xe_is64 e then 8 else 4)%nat z.
Definition address_fits (e : xelf) (z : Z) : Prop := fits (if xe_is64 e then 8 else 4) z.
Definition entry_address (e : xelf) (d : die) (z : Z) : Prop :=
  (d_tag d = 46 /\ exists a, has_attr d 17 a /\ at_value a = DInt z) \/
  (d_tag d = 52 /\ exists a, has_attr d 2 a /\ at_form a = 24 /\ at_value a = DBytes (3 :: address_bytes e z) /\ address_fits e z).

(** the entry of which [d] is an instance (DW_AT_abstract_origin, 49), or [d] itself *)
Definition origin (us : list funit) (p q : die * funit) : Prop :=
  (q = p /\ forall a, ~ has_attr (fst p) 49 a) \/
  (exists a, has_attr (fst p) 49 a /\ at_value a = DInt (d_off (fst q)) /\ In q (entries us)).

(** the text of a DW_AT_name (3): forms string, strp and line_strp *)
Inductive text_value (e : xelf) (names : list str) (a : dattr) (n : str) : Prop :=
| tv_string : at_form a = 8 -> at_value a = DBytes (text n) -> utf8 (text n) -> text_value e names a n
| tv_strp form section data z :
    (form = 14 /\ section = list_ascii_of_string ".debug_str") \/ (form = 31 /\ section = list_ascii_of_string ".debug_line_str") ->
    at_form a = form -> at_value a = DInt z -> section_is e names section data ->
    occurs data z (text n ++ [0]) -> plain n -> text_value e names a n.
Definition unit_name (e : xelf) (names : list str) (u : funit) (n : str) : Prop :=
  exists d l a, unit_dies u = d :: l /\ has_attr d 3 a /\ text_value e names a n.

(** ** What the code relies on *)
(** an expression: an address, or something with another operation than DW_OP_addr
    first or right after an address *)
Inductive expression_ok (e : xelf) : list Z -> Prop :=
| eo_addr z : address_fits e z -> expression_ok e (3 :: address_bytes e z)
| eo_other x r : x <> 3 -> expression_ok e (x :: r)
| eo_more z x r : address_fits e z -> x <> 3 -> expression_ok e (3 :: address_bytes e z ++ x :: r).
Record entry_ok (e : xelf) (us : list funit) (d : die) : Prop := {
  eo_low_pc : d_tag d = 46 -> forall a, has_attr d 17 a -> inexact (at_form a) (at_value a) = false /\ exists z, at_value a = DInt z;
  eo_location : d_tag d = 52 -> forall a, has_attr d 2 a ->
    ~ In (at_form a) [8; 14; 24; 31] \/ (at_form a = 24 /\ exists b, at_value a = DBytes b /\ expression_ok e b);
  eo_origin : forall a, has_attr d 49 a -> inexact (at_form a) (at_value a) = false /\
    exists q, In q (entries us) /\ at_value a = DInt (d_off (fst q)) }.
Definition ordinary (e : xelf) (names : list str) (us : list funit) : Prop :=
  (forall u, In u us -> ab_tag (t_abbrev (u_tree u)) = 17 /\ exists n, unit_name e names u n) /\
  (forall d u, In (d, u) (entries us) -> entry_ok e us d).

(** ** Symbols *)
(** functions (STT_FUNC, 2) and objects (STT_OBJECT, 1) with a size and no absolute address *)
Definition candidate (y : xsym) : Prop :=
  x_stsize y <> 0 /\ (x_stinfo y mod 16 = 1 \/ x_stinfo y mod 16 = 2) /\ x_shndx y <> 65521.

(** [x] is the last element of [l] with [P] *)
Definition last_with {A} (P : A -> Prop) (l : list A) (x : A) : Prop :=
  exists pre post, l = pre ++ x :: post /\ P x /\ Forall (fun y => ~ P y) post.

(** the unit of a symbol at address [z]: that of the last entry with this address *)
Definition symbol_unit (e : xelf) (names : list str) (us : list funit) (z : Z) (n : option str) : Prop :=
  match n with
  | None => Forall (fun p => ~ entry_address e (fst p) z) (entries us)
  | Some n => exists p q, last_with (fun p => entry_address e (fst p) z) (entries us) p /\ origin us p q /\
                          unit_name e names (snd q) n
  end.
