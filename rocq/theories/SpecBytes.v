(** * Specification vocabulary: which memory type each single byte belongs to *)
From Coq Require Import Ascii String List ZArith Bool.
From Verif Require Import Base MemMap SpecTree Pipeline SpecPipe SpecBuild.
Import ListNotations.
Open Scope list_scope.
Open Scope Z_scope.

(** the address windows of a chip are equal or disjoint *)
Definition windows_separate (types : list chip_type) : Prop :=
  forall t u lo hi lo' hi', In t types -> In u types -> window t lo hi -> window u lo' hi' ->
    (lo = lo' /\ hi = hi') \/ hi <= lo' \/ hi' <= lo.

(** the byte at address [a] of an output section named [n] belongs to memory type [T] *)
Definition byte_goes (types : list chip_type) (n : str) (a : Z) (T : str) : Prop :=
  (ext_ram_name n /\ ext_ram types T) \/
  (~ by_name types n /\ exists t, first_covering types a t /\ ct_name t = T).

(** number of the addresses from [a] to [a + n] (exclusive) with a property *)
Fixpoint count (P : Z -> bool) (a : Z) (n : nat) : Z :=
  match n with O => 0 | S k => (if P a then 1 else 0) + count P (a + 1) k end.
Definition bytes_with (P : Z -> bool) (a n : Z) : Z := count P a (Z.to_nat n).

(** the byte is in a memory region of the map, all of which up to it has a memory type *)
Definition mapped (regions : list region) (types : list chip_type) (a : Z) : Prop :=
  exists r, In r regions /\ r_name r <> "*default*" /\ r_origin r <= a < r_origin r + r_length r /\
    forall a', r_origin r <= a' <= a -> covered types a'.
Definition byte_of (s : osection) (a : Z) : Prop := o_addr s <= a < o_addr s + o_size s.
Definition section_mapped (regions : list region) (types : list chip_type) (s : osection) : Prop :=
  by_name types (o_name s) \/ forall a, byte_of s a -> mapped regions types a.

(** no memory region and no address window ends between two bytes of the section that
    belong to the same memory type *)
Definition unbroken (regions : list region) (types : list chip_type) (s : osection) : Prop :=
  forall a b T, byte_of s a -> byte_of s b -> a <= b ->
    byte_goes types (o_name s) a T -> byte_goes types (o_name s) b T ->
    (forall r, In r regions -> r_name r <> "*default*" -> r_origin r <= a < r_origin r + r_length r -> b < r_origin r + r_length r) /\
    (forall t lo hi, In t types -> window t lo hi -> lo <= a < hi -> b < hi).

(** the input sections lie in their output section *)
Definition isecs_in (s : osection) : Prop :=
  Forall (fun i => 0 <= i_size i /\ 0 <= i_fill i /\ o_addr s <= i_addr i /\ i_addr i + i_size i <= o_addr s + o_size s) (o_isecs s).

(** bytes of an archive, of an object file of it, in a section of a memory map *)
Definition object_size (a o : str) (s : sect) : Z :=
  match dget a (n_sub s) with
  | Some x => match dget o (n_sub x) with Some b => n_size b | None => 0 end
  | None => 0
  end.
(** bytes with a property that an archive, or an object file of it, has in an output section *)
Definition archive_bytes_with (P : Z -> bool) (a : str) (s : osection) : Z :=
  zsumf (fun i => bytes_with P (i_addr i) (i_size i)) (filter (fun i => i_archive i =?= a) (o_isecs s)).
Definition object_bytes_with (P : Z -> bool) (a o : str) (s : osection) : Z :=
  zsumf (fun i => bytes_with P (i_addr i) (i_size i)) (filter (fun i => (i_archive i =?= a) && (i_object i =?= o)) (o_isecs s)).

(** only archives and object files of input sections that are not empty are listed *)
Definition listed_only (s : osection) (x : sect) : Prop :=
  forall a y, dget a (n_sub x) = Some y ->
    (exists i, In i (o_isecs s) /\ i_archive i = a /\ i_size i <> 0) /\
    forall o z, dget o (n_sub y) = Some z -> exists i, In i (o_isecs s) /\ i_archive i = a /\ i_object i = o /\ i_size i <> 0.

(** the entry of output section [s] in memory type [T] holds the bytes of the section that
    belong to [T]: in all, per archive and per object file *)
Definition listed_as (d : str -> Z -> str -> bool) (T : str) (s : osection) (entry : option sect) : Prop :=
  let dT := fun a => d (o_name s) a T in
  let n := bytes_with dT (o_addr s) (o_size s) in
  match entry with
  | None => n = 0
  | Some x => 0 < n /\ n_size x = n /\ (forall a, archive_size a x = archive_bytes_with dT a s) /\
    (forall a o, object_size a o x = object_bytes_with dT a o s) /\ listed_only s x
  end.
