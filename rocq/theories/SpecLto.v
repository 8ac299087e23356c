(** * Specification vocabulary: bytes of archives with link time optimisation *)
From Coq Require Import Ascii String List ZArith Bool.
From Verif Require Import Base MemMap SpecTree Pipeline SpecPipe SpecBuild SpecBytes PyStr Project SpecProject SpecShape SpecOwner.
Import ListNotations.
Open Scope list_scope.
Open Scope Z_scope.

(** a symbol with the path of its source file *)
Record usym := USym { us_addr : Z; us_size : Z; us_path : str }.
(** the same of an entry of the table of symbols: address, size and name of the unit *)
Definition usym_of (p : Z * cusym) : usym := USym (fst p) (cu_size (snd p)) (cu_name (snd p)).
Definition in_component (comps : list component) (y : usym) : Prop := exists c, In c comps /\ within (comp_path c) (us_path y).

(** who gets the bytes of a symbol: library of the innermost component and name of the source file *)
Definition owners (comps : list component) (own : usym -> option (str * str)) (syms : list usym) : Prop :=
  forall y, In y syms ->
    match own y with
    | Some (x, o) => exists c, innermost comps (us_path y) c /\ x = comp_archive c /\ after_last "/"%char (us_path y) o
    | None => ~ in_component comps y
    end.

(** ** what is asked for *)
(** the symbols of components have a size, do not overlap, and no directory of a component is
    only the start of the name of another one *)
Record symbols_ok (comps : list component) (syms : list usym) : Prop := {
  so_size : forall y, In y syms -> 0 < us_size y /\ us_path y <> [];
  so_apart : forall y z, In y syms -> In z syms -> in_component comps y -> in_component comps z -> us_addr y < us_addr z ->
    us_addr y + us_size y <= us_addr z;
  so_once : NoDup (map us_addr syms);
  so_dirs : forall y c, In y syms -> In c comps -> same_start (comp_path c) (us_path y) -> within (comp_path c) (us_path y) }.
Definition starts_in (i : isection) (y : usym) : bool := (i_addr i <=? us_addr y) && (us_addr y <? i_addr i + i_size i).
(** what the linker made of the optimised code: it has no archive *)
Definition optimised (i : isection) : Prop := i_archive i = "(exe)".
(** some symbol of a component follows, and those that start in the input section end there *)
Definition followed (comps : list component) (syms : list usym) (i : isection) : Prop :=
  (exists y, In y syms /\ in_component comps y /\ i_addr i + i_size i <= us_addr y) /\
  (forall y, In y syms -> in_component comps y -> starts_in i y = true -> us_addr y + us_size y <= i_addr i + i_size i).

(** an output section that can be taken apart *)
Definition optimised_section (regions : list region) (types : list chip_type) (comps : list component) (syms : list usym) (s : osection) : Prop :=
  0 <= o_size s /\ section_mapped regions types s /\ unbroken regions types s /\ isecs_in s /\
  Forall (fun i => optimised i -> followed comps syms i) (o_isecs s).

(** ** the bytes *)
Section Bytes.
Variables (own : usym -> option (str * str)) (syms : list usym) (P : Z -> bool).
(** bytes of the symbols in an input section whose owner has a property *)
Definition owned_bytes (f : str -> str -> bool) (i : isection) : Z :=
  zsumf (fun y => bytes_with P (us_addr y) (us_size y))
    (filter (fun y => starts_in i y && match own y with Some (x, o) => f x o | None => false end) syms).
(** bytes of an input section for the archives and object files with a property: of optimised code
    the owners of the symbols get theirs, and what is left stays as it is *)
Definition given_bytes (f : str -> str -> bool) (i : isection) : Z :=
  if i_archive i =?= "(exe)" then
    (if f "(exe)" (i_object i) then bytes_with P (i_addr i) (i_size i) - owned_bytes (fun _ _ => true) i else 0) + owned_bytes f i
  else if f (i_archive i) (i_object i) then bytes_with P (i_addr i) (i_size i) else 0.
End Bytes.
(** an archive and object file that has something in an input section *)
Definition has_part (own : usym -> option (str * str)) (syms : list usym) (i : isection) (x o : str) : Prop :=
  (i_archive i = x /\ i_object i = o /\ i_size i <> 0) \/
  (optimised i /\ exists y, In y syms /\ starts_in i y = true /\ own y = Some (x, o)).

(** the entry of output section [s] in memory type [T]: in all, per archive and per object file *)
Definition listed_optimised (own : usym -> option (str * str)) (syms : list usym) (d : str -> Z -> str -> bool) (T : str) (s : osection) (entry : option sect) : Prop :=
  let dT := fun a => d (o_name s) a T in
  let n := bytes_with dT (o_addr s) (o_size s) in
  match entry with
  | None => n = 0
  | Some x => 0 < n /\ n_size x = n /\
    (forall a, archive_size a x = zsumf (given_bytes own syms dT (fun a' _ => a' =?= a)) (o_isecs s)) /\
    (forall a o, object_size a o x = zsumf (given_bytes own syms dT (fun a' o' => (a' =?= a) && (o' =?= o))) (o_isecs s)) /\
    (forall a y, dget a (n_sub x) = Some y ->
       (exists i o, In i (o_isecs s) /\ has_part own syms i a o) /\
       forall o z, dget o (n_sub y) = Some z -> exists i, In i (o_isecs s) /\ has_part own syms i a o)
  end.
