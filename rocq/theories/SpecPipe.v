(** * Specification vocabulary for the construction of the memory map *)
From Coq Require Import Ascii String List ZArith Bool.
From Verif Require Import Base MemMap SpecTree Pipeline.
Import ListNotations.
Open Scope list_scope.
Open Scope Z_scope.

(** ** Memory types and regions *)

(** the address windows of a memory type *)
Definition window (t : chip_type) (lo hi : Z) : Prop :=
  (lo = ct_primary t /\ hi = ct_primary t + ct_length t) \/
  (ct_secondary t <> 0 /\ lo = ct_secondary t /\ hi = ct_secondary t + ct_length t).
Definition covers (t : chip_type) (a : Z) : Prop := exists lo hi, window t lo hi /\ lo <= a < hi.
Definition covered (types : list chip_type) (a : Z) : Prop := exists t, In t types /\ covers t a.

(** [t] is the first type of the table that covers [a] *)
Definition first_covering (types : list chip_type) (a : Z) (t : chip_type) : Prop :=
  exists l1 l2, types = l1 ++ t :: l2 /\ covers t a /\ forall u, In u l1 -> ~ covers u a.

(** a region part lies in a window of its type *)
Definition part_inside (p : sregion) : Prop :=
  exists lo hi, window (sr_type p) lo hi /\ lo <= sr_origin p /\ sr_origin p + sr_length p <= hi.

(** and reaches to the end of the window, or of the region *)
Definition part_whole (r : region) (p : sregion) : Prop :=
  exists lo hi, window (sr_type p) lo hi /\ lo <= sr_origin p /\ sr_origin p + sr_length p = Z.min hi (r_origin r + r_length r).

(** adjacent parts from [a] to [b] *)
Inductive tiles : Z -> Z -> list sregion -> Prop :=
| tiles_nil : forall a, tiles a a []
| tiles_cons : forall p b ps, tiles (sr_origin p + sr_length p) b ps -> tiles (sr_origin p) b (p :: ps).

(** [ps] are the parts of region [r] *)
Definition region_parts (types : list chip_type) (r : region) (ps : list sregion) : Prop :=
  exists stop,
    tiles (r_origin r) stop ps /\
    Forall (fun p => part_inside p /\ In (sr_type p) types /\ sr_name p = r_name r /\ sr_attrs p = r_attrs r /\
                     0 <= sr_length p /\ (0 < sr_length p -> first_covering types (sr_origin p) (sr_type p) /\ part_whole r p)) ps /\
    (stop = r_origin r + r_length r \/
     (r_origin r <= stop < r_origin r + r_length r /\ ~ covered types stop)).

(** region [r] reaches an address without memory type, and ends where an earlier
    part ends *)
Definition blocked (types : list chip_type) (earlier : list sregion) (r : region) : Prop :=
  exists stop,
    r_origin r <= stop < r_origin r + r_length r /\
    (forall a, r_origin r <= a < stop -> covered types a) /\ ~ covered types stop /\
    exists p, In p earlier /\ sr_origin p + sr_length p = r_origin r + r_length r.

(** ** Parts of output sections *)

Inductive sect_tiles : Z -> Z -> list osection -> Prop :=
| sect_tiles_nil : forall a, sect_tiles a a []
| sect_tiles_cons : forall p b ps, sect_tiles (o_addr p + o_size p) b ps -> sect_tiles (o_addr p) b (p :: ps).

Definition in_region (r : sregion) (a : Z) : Prop := sr_origin r <= a < sr_origin r + sr_length r.

(** a part lies in one region, or starts outside of all of them *)
Definition part_placed (regions : list sregion) (p : osection) : Prop :=
  (exists r, In r regions /\ in_region r (o_addr p) /\ o_addr p + o_size p <= sr_origin r + sr_length r) \/
  (forall r, In r regions -> ~ in_region r (o_addr p)).

Definition section_parts (regions : list sregion) (s : osection) (ps : list osection) : Prop :=
  sect_tiles (o_addr s) (o_addr s + o_size s) ps /\
  Forall (fun p => o_name p = o_name s /\ part_placed regions p) ps.

(** bytes attributed to an object file of an archive *)
Definition object_bytes (a o : str) (l : list isection) : Z :=
  zsumf i_size (filter (fun i => (i_archive i =?= a) && (i_object i =?= o)) l).
Definition archive_bytes (a : str) (l : list isection) : Z :=
  zsumf i_size (filter (fun i => i_archive i =?= a) l).
Definition object_padding (a o : str) (l : list isection) : Z :=
  zsumf i_fill (filter (fun i => (i_archive i =?= a) && (i_object i =?= o)) l).
(** bytes of the symbols named [y] of an object file *)
Definition symbol_bytes (a o y : str) (l : list isection) : Z :=
  zsumf (fun i => zsumf sy_size (filter (fun s => sy_name s =?= y) (i_symbols i)))
        (filter (fun i => (i_archive i =?= a) && (i_object i =?= o)) l).

(** contents lie inside their container, with non-negative sizes *)
Definition symbol_inside (i : isection) (y : symbol) : Prop :=
  0 <= sy_size y /\ i_addr i <= sy_addr y /\ sy_addr y + sy_size y <= i_addr i + i_size i.
Definition isec_inside (s : osection) (i : isection) : Prop :=
  0 <= i_size i /\ 0 <= i_fill i /\ o_addr s <= i_addr i /\
  i_addr i + i_size i + i_fill i <= o_addr s + o_size s /\ Forall (symbol_inside i) (i_symbols i).
Definition content_inside (s : osection) : Prop := Forall (isec_inside s) (o_isecs s).

(** ** Archives, object files and symbols of a section part *)

(** input sections of an archive / an object file of it, and the symbols placed in them *)
Definition isecs_of_archive (a : str) (l : list isection) := filter (fun i => i_archive i =?= a) l.
Definition isecs_of_object (a o : str) (l : list isection) :=
  filter (fun i => (i_archive i =?= a) && (i_object i =?= o)) l.
Definition symbols_of_object (a o : str) (l : list isection) : list symbol :=
  flat_map i_symbols (isecs_of_object a o l).

(** size of the last symbol named [y], if there is one *)
Definition last_symbol (y : str) (l : list symbol) : option Z :=
  option_map sy_size (find (fun s => sy_name s =?= y) (rev l)).

(** ** Where a section part goes *)

(** the External RAM memory type of the chip: the first one with one of the two names *)
Definition ext_ram (types : list chip_type) (alias : str) : Prop :=
  exists l1 t l2, types = l1 ++ t :: l2 /\ ct_name t = alias /\
    (alias = "External RAM" \/ alias = "SPI DRAM") /\
    forall u, In u l1 -> ct_name u <> "External RAM" /\ ct_name u <> "SPI DRAM".
Definition ext_ram_name (n : str) : Prop :=
  exists rest, n = ".ext_ram.bss" ++ rest \/ n = ".ext_ram_noinit" ++ rest.
Definition by_name (types : list chip_type) (n : str) : Prop :=
  (exists alias, ext_ram types alias) /\ ext_ram_name n.

(** containing region with the lowest origin, the first listed of several *)
Definition lowest_containing (regions : list sregion) (a : Z) (r : sregion) : Prop :=
  exists l1 l2, regions = l1 ++ r :: l2 /\ in_region r a /\
    (forall x, In x l1 -> in_region x a -> sr_origin r < sr_origin x) /\
    (forall x, In x l2 -> in_region x a -> sr_origin r <= sr_origin x).
Definition in_no_region (regions : list sregion) (a : Z) : Prop := forall r, In r regions -> ~ in_region r a.
(** closest region starting at or below the address, the last listed of several *)
Definition preceding (regions : list sregion) (a : Z) (p : sregion) : Prop :=
  exists l1 l2, regions = l1 ++ p :: l2 /\ sr_origin p <= a /\
    (forall x, In x l1 -> sr_origin x <= a -> sr_origin x <= sr_origin p) /\
    (forall x, In x l2 -> sr_origin x <= a -> sr_origin x < sr_origin p).
Definition some_above (regions : list sregion) (a : Z) : Prop := exists r, In r regions /\ a < sr_origin r.
Definition all_above (regions : list sregion) (a : Z) : Prop := forall r, In r regions -> a < sr_origin r.
Definition lowest (regions : list sregion) (p : sregion) : Prop :=
  exists l1 l2, regions = l1 ++ p :: l2 /\
    (forall x, In x l1 -> sr_origin p < sr_origin x) /\ (forall x, In x l2 -> sr_origin p <= sr_origin x).

(** memory type of a section part, and whether it is marked as overflow; [None]: the
    'cannot assign' warning is given *)
Inductive dest (types : list chip_type) (regions : list sregion) (s : asection) : option (str * bool) -> Prop :=
| dest_name : forall alias, ext_ram types alias -> ext_ram_name (as_name s) ->
    dest types regions s (Some (alias, false))
| dest_inside : forall r, ~ by_name types (as_name s) -> lowest_containing regions (as_addr s) r ->
    dest types regions s (Some (ct_name (sr_type r), false))
| dest_gap : forall p, ~ by_name types (as_name s) -> in_no_region regions (as_addr s) ->
    preceding regions (as_addr s) p -> some_above regions (as_addr s) ->
    dest types regions s (Some (ct_name (sr_type p), true))
| dest_below : forall p, ~ by_name types (as_name s) -> all_above regions (as_addr s) ->
    (2 <= length regions)%nat -> lowest regions p ->
    dest types regions s (Some (ct_name (sr_type p), true))
| dest_below_one : ~ by_name types (as_name s) -> all_above regions (as_addr s) -> (length regions <= 1)%nat ->
    dest types regions s None
| dest_beyond : ~ by_name types (as_name s) -> in_no_region regions (as_addr s) -> regions <> [] ->
    ~ some_above regions (as_addr s) -> dest types regions s None.

(** what is reported for a part *)
Definition reported_name (s : asection) (overflow : bool) : str :=
  if overflow then as_name s ++ "_overflow" else as_name s.
Definition reported (s : asection) (overflow : bool) (x : sect) : Prop :=
  n_size x = as_size s /\ n_diff x = 0 /\ n_sub x = as_archives s /\
  (overflow = false -> n_abbrev x = as_abbrev s).

(** parts with their destinations that go to memory type [t] *)
Definition goes_to (t : str) (sd : asection * option (str * bool)) : bool :=
  match snd sd with Some (t', _) => t' =?= t | None => false end.
(** names under which the parts are reported *)
Definition dest_names (sd : asection * option (str * bool)) : list str :=
  match snd sd with Some (_, ov) => [reported_name (fst sd) ov] | None => [] end.
Definition is_some {A} (o : option A) : bool := match o with Some _ => true | None => false end.

(** ** Sizes of memory types *)

(** every element with the elements before it *)
Fixpoint with_prefix {A} (before l : list A) : list (list A * A) :=
  match l with [] => [] | x :: l' => (before, x) :: with_prefix (before ++ [x]) l' end.
(** [r] mirrors [b]: same type, same length, apart by the distance of the windows *)
Definition mirrors (b r : sregion) : bool :=
  (ct_name (sr_type b) =?= ct_name (sr_type r)) && (sr_length b =? sr_length r) &&
  (Z.abs (sr_origin b - sr_origin r) =?
   if ct_secondary (sr_type r) =? 0 then 0 else Z.abs (ct_primary (sr_type r) - ct_secondary (sr_type r))).
Definition type_size (t : str) (regions : list sregion) : Z :=
  zsumf (fun br => sr_length (snd br))
    (filter (fun br => (ct_name (sr_type (snd br)) =?= t) && negb (existsb (fun b => mirrors b (snd br)) (fst br)))
            (with_prefix [] regions)).

(** result of a call without the state it leaves behind etc. *)
Definition rmap {A B} (f : A -> B) (r : res A) : res B := match r with Ok a => Ok (f a) | Err e => Err e end.
