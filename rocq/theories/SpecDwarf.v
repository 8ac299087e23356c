(** * SpecDwarf: DWARF encodings, written down from the DWARF 5 standard *)
From Coq Require Import Ascii String List ZArith Bool.
From Verif Require Import Base ElfRead Dwarf SpecElf.
Import ListNotations.
Open Scope list_scope.
Open Scope Z_scope.

(** ** Attribute forms (sections 7.5.5 and 7.5.6) *)
Inductive fclass :=
| FAddr              (* the size of an address *)
| FOffset            (* 4 or 8 bytes, depending on the DWARF format *)
| FFixed (n : nat)   (* n bytes *)
| FUleb | FSleb
| FBlock (n : nat)   (* n byte length and as many bytes *)
| FBlockU            (* ULEB128 length and as many bytes *)
| FString            (* bytes up to a zero byte *)
| FNothing.          (* nothing in .debug_info *)

(** Table 7.6 in the order of the codes.  DW_FORM_indirect (0x16) has no size of its
    own and is left out *)
Definition form_class (form : Z) : option fclass :=
  match form with
  | 1 => Some FAddr | 3 => Some (FBlock 2) | 4 => Some (FBlock 4) | 5 => Some (FFixed 2)
  | 6 => Some (FFixed 4) | 7 => Some (FFixed 8) | 8 => Some FString | 9 => Some FBlockU
  | 10 => Some (FBlock 1) | 11 => Some (FFixed 1) | 12 => Some (FFixed 1) | 13 => Some FSleb
  | 14 => Some FOffset | 15 => Some FUleb | 16 => Some FOffset | 17 => Some (FFixed 1)
  | 18 => Some (FFixed 2) | 19 => Some (FFixed 4) | 20 => Some (FFixed 8) | 21 => Some FUleb
  | 23 => Some FOffset | 24 => Some FBlockU | 25 => Some FNothing | 26 => Some FUleb
  | 27 => Some FUleb | 28 => Some (FFixed 4) | 29 => Some FOffset | 30 => Some (FFixed 16)
  | 31 => Some FOffset | 32 => Some (FFixed 8) | 33 => Some FNothing | 34 => Some FUleb
  | 35 => Some FUleb | 36 => Some (FFixed 8) | 37 => Some (FFixed 1) | 38 => Some (FFixed 2)
  | 39 => Some (FFixed 3) | 40 => Some (FFixed 4) | 41 => Some (FFixed 1) | 42 => Some (FFixed 2)
  | 43 => Some (FFixed 3) | 44 => Some (FFixed 4)
  | _ => None
  end.

(** the forms elf.py does not read: addrx and addrx1 to addrx4 *)
Definition unsupported : list Z := [27; 41; 42; 43; 44].

(** references that count from the start of the unit: ref1, ref2, ref4, ref8, ref_udata *)
Definition unit_reference (form : Z) : bool := (17 <=? form) && (form <=? 21).

(** ** One attribute of a debugging entry: [bytes] encodes [value] in class [k] *)
Section Encodings.
Variable big : bool.
Variable c : cu.
Definition osize : nat := if cu_is64 c then 8 else 4.

Inductive class_enc : fclass -> dval -> list Z -> Prop :=
| ce_addr v : fits (cu_address_size c) v -> class_enc FAddr (DInt v) (int_enc big (Z.to_nat (cu_address_size c)) v)
| ce_off v : fits (Z.of_nat osize) v -> class_enc FOffset (DInt v) (int_enc big osize v)
| ce_fixed n v : fits (Z.of_nat n) v -> class_enc (FFixed n) (DInt v) (int_enc big n v)
| ce_uleb v l : uleb_enc v l -> class_enc FUleb (DInt v) l
| ce_sleb v l : sleb_enc v l -> class_enc FSleb (DInt v) l
| ce_block n b : fits (Z.of_nat n) (blen b) -> class_enc (FBlock n) (DBytes b) (int_enc big n (blen b) ++ b)
| ce_blocku b l : uleb_enc (blen b) l -> class_enc FBlockU (DBytes b) (l ++ b)
| ce_string s : Forall (fun b => b <> 0) s -> class_enc FString (DBytes s) (s ++ [0])
| ce_nothing v : class_enc FNothing v [].

(** the value an attribute of this form has, given the value in the bytes: true for
    flag_present, the value of the abbreviation for implicit_const, and the offset in
    .debug_info for references within the unit *)
Definition form_value (a : abattr) (v : dval) : dval :=
  if aa_form a =? 25 then DTrue
  else if aa_form a =? 33 then match aa_value a with Some z => DInt z | None => DNone end
  else match v with
       | DInt z => if unit_reference (aa_form a) then DInt (cu_offset c + z) else v
       | _ => v
       end.

Definition attr_enc (a : abattr) (value : dval) (l : list Z) : Prop :=
  exists k v, form_class (aa_form a) = Some k /\ class_enc k v l /\ value = form_value a v.

(** ** Trees of debugging entries (section 7.5.2 and 7.5.3).
    An entry: its abbreviation, the bytes of its code, its attributes (value and
    bytes) and the entries below it. *)
Inductive tree := Tree (a : abbrev) (cb : list Z) (vals : list (dval * list Z)) (kids : list tree).

Definition t_abbrev (t : tree) : abbrev := match t with Tree a _ _ _ => a end.

Fixpoint tbytes (t : tree) : list Z :=
  match t with
  | Tree a cb vals kids =>
      cb ++ flat_map snd vals ++ (if ab_children a =? 0 then [] else flat_map tbytes kids ++ [0])
  end.

(** the attributes of an entry whose first attribute is at [off] *)
Fixpoint tattrs (specs : list abattr) (vals : list (dval * list Z)) (off : Z) : list (Z * dattr) :=
  match specs, vals with
  | s :: specs', v :: vals' =>
      (aa_attr s, DAttr (aa_attr s) (aa_form s) off (fst v) (blen (snd v))) :: tattrs specs' vals' (off + blen (snd v))
  | _, _ => []
  end.

(** the entries of a tree in the order of the bytes: offset, offset of the parent,
    level, code, tag, size and attributes, and the null entry after the children *)
Fixpoint tdies (off : Z) (parent : option Z) (level : Z) (t : tree) : list die :=
  match t with
  | Tree a cb vals kids =>
      Die off parent level (ab_code a) (ab_tag a) (blen (tbytes t)) (tattrs (ab_attrs a) vals (off + blen cb)) ::
      (if ab_children a =? 0 then []
       else (fix go o l := match l with
                           | [] => [Die o (Some off) (level + 1) 0 0 1 []]
                           | k :: l' => tdies o (Some off) (level + 1) k ++ go (o + blen (tbytes k)) l'
                           end) (off + blen cb + blen (flat_map snd vals)) kids)
  end.

(** [t] is an entry of a unit with the abbreviations [tbl] *)
Inductive tree_ok (tbl : list abbrev) : tree -> Prop :=
| tok a cb vals kids specs :
    In a tbl -> 1 <= ab_code a -> uleb_enc (ab_code a) cb ->
    ab_attrs a = specs ++ [AbAttr 0 0 None] -> Forall (fun s => aa_attr s <> 0) specs ->
    NoDup (map aa_attr specs) ->
    Forall2 (fun s v => attr_enc s (fst v) (snd v)) specs vals ->
    (ab_children a = 0 -> kids = []) ->
    Forall (tree_ok tbl) kids ->
    tree_ok tbl (Tree a cb vals kids).
End Encodings.

(** ** Abbreviations (section 7.5.3) *)
Definition abattr_enc (a : abattr) (l : list Z) : Prop :=
  exists la lf lv, l = la ++ lf ++ lv /\ uleb_enc (aa_attr a) la /\ uleb_enc (aa_form a) lf /\
    match aa_value a with
    | Some v => aa_form a = 33 /\ sleb_enc v lv
    | None => aa_form a <> 33 /\ lv = []
    end.

Inductive abattrs_enc : list abattr -> list Z -> Prop :=
| aes_end la lf : uleb_enc 0 la -> uleb_enc 0 lf -> abattrs_enc [AbAttr 0 0 None] (la ++ lf)
| aes_more a l b r : aa_attr a <> 0 \/ aa_form a <> 0 -> abattr_enc a l -> abattrs_enc b r ->
    abattrs_enc (a :: b) (l ++ r).

Inductive abbrevs_enc : list abbrev -> list Z -> Prop :=
| abs_end l : uleb_enc 0 l -> abbrevs_enc [] l
| abs_more a r lc lt la lr : 1 <= ab_code a -> uleb_enc (ab_code a) lc -> uleb_enc (ab_tag a) lt ->
    0 <= ab_children a < 256 -> abattrs_enc (ab_attrs a) la -> abbrevs_enc r lr ->
    abbrevs_enc (a :: r) (lc ++ lt ++ [ab_children a] ++ la ++ lr).

(** ** Unit headers (section 7.5.1): the bytes up to the first entry.  [len] is the
    length of the unit after the length field *)
Definition unit_length_bytes (big is64 : bool) (len : Z) : list Z :=
  if is64 then [255; 255; 255; 255] ++ int_enc big 8 len else int_enc big 4 len.

Inductive unit_header (big is64 : bool) : Z -> option Z -> Z -> Z -> list Z -> Prop :=
| uh_old version asize aoff :   (* versions 2 to 4 *)
    2 <= version <= 4 ->
    unit_header big is64 version None asize aoff
      (int_enc big 2 version ++ int_enc big (if is64 then 8 else 4)%nat aoff ++ [asize])
| uh_full ut asize aoff :       (* DW_UT_compile and DW_UT_partial *)
    ut = 1 \/ ut = 3 ->
    unit_header big is64 5 (Some ut) asize aoff
      (int_enc big 2 5 ++ [ut] ++ [asize] ++ int_enc big (if is64 then 8 else 4)%nat aoff)
| uh_skel ut asize aoff dwo :   (* DW_UT_skeleton and DW_UT_split_compile: the id of the split unit *)
    ut = 4 \/ ut = 5 -> fits 8 dwo ->
    unit_header big is64 5 (Some ut) asize aoff
      (int_enc big 2 5 ++ [ut] ++ [asize] ++ int_enc big (if is64 then 8 else 4)%nat aoff ++ int_enc big 8 dwo)
| uh_type ut asize aoff sig toff :   (* DW_UT_type and DW_UT_split_type: signature and offset of the type *)
    ut = 2 \/ ut = 6 -> fits 8 sig -> fits (off_size is64) toff ->
    unit_header big is64 5 (Some ut) asize aoff
      (int_enc big 2 5 ++ [ut] ++ [asize] ++ int_enc big (if is64 then 8 else 4)%nat aoff ++
       int_enc big 8 sig ++ int_enc big (if is64 then 8 else 4)%nat toff).

(** the unit [c] stands at the start of [l]; [body] is what follows its header, up to its end *)
Inductive unit_enc (big : bool) (c : cu) (body : list Z) : list Z -> Prop :=
| ue_unit hdr :
    unit_header big (cu_is64 c) (cu_version c) (cu_unit_type c) (cu_address_size c) (cu_abbrev_offset c) hdr ->
    cu_address_size c = 4 \/ cu_address_size c = 8 ->
    fits (off_size (cu_is64 c)) (cu_abbrev_offset c) ->
    cu_length c = blen hdr + blen body ->
    0 <= cu_length c < (if cu_is64 c then 256 ^ 8 else 4294967280) ->
    cu_ullen c = (if cu_is64 c then 12 else 4) ->
    cu_die_offset c = cu_offset c + cu_ullen c + blen hdr ->
    unit_enc big c body (unit_length_bytes big (cu_is64 c) (cu_length c) ++ hdr ++ body).

(** the units of .debug_info one after the other, the first at [off] *)
Inductive units_enc (big : bool) : Z -> list (cu * list Z) -> list Z -> Prop :=
| us_nil off : units_enc big off [] []
| us_cons off c body l r rest : cu_offset c = off -> unit_enc big c body l ->
    units_enc big (off + blen l) r rest -> units_enc big off ((c, body) :: r) (l ++ rest).

(** ** What is read back: everything, except the values of sdata (whose sign is
    wrong), loclistx and rnglistx (dropped) and negative implicit constants *)
Definition inexact (form : Z) (v : dval) : bool :=
  (form =? 13) || (form =? 34) || (form =? 35) ||
  ((form =? 33) && match v with DInt z => z <? 0 | _ => false end).
Definition attr_like (p q : Z * dattr) : Prop :=
  fst q = fst p /\ at_attr (snd q) = at_attr (snd p) /\ at_form (snd q) = at_form (snd p) /\
  at_off (snd q) = at_off (snd p) /\ at_size (snd q) = at_size (snd p) /\
  (inexact (at_form (snd p)) (at_value (snd p)) = false -> at_value (snd q) = at_value (snd p)).
Definition die_like (d d' : die) : Prop :=
  d_off d' = d_off d /\ d_parent d' = d_parent d /\ d_level d' = d_level d /\ d_code d' = d_code d /\
  d_tag d' = d_tag d /\ d_size d' = d_size d /\ Forall2 attr_like (d_attrs d) (d_attrs d').

Definition abattr_like (a a' : abattr) : Prop :=
  aa_attr a' = aa_attr a /\ aa_form a' = aa_form a /\
  match aa_value a with Some v => exists v', aa_value a' = Some v' /\ (0 <= v -> v' = v) | None => aa_value a' = None end.
Definition abbrev_like (a a' : abbrev) : Prop :=
  ab_code a' = ab_code a /\ ab_tag a' = ab_tag a /\ ab_children a' = ab_children a /\
  Forall2 abattr_like (ab_attrs a) (ab_attrs a').

(** abbreviations numbered 1, 2, 3, ... in the order in which they are declared *)
Definition numbered (tbl : list abbrev) : Prop :=
  forall i a, nth_error tbl i = Some a -> ab_code a = Z.of_nat i + 1.
(** abbreviations that use only forms elf.py reads and no DW_FORM_ref_sig8 (0x20) *)
Definition readable (tbl : list abbrev) : Prop :=
  forall a s, In a tbl -> In s (ab_attrs a) -> ~ In (aa_form s) unsupported /\ aa_form s <> 32.
