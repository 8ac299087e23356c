(** * Specification vocabulary: which symbols an input section lists, and the bytes of
    each of them in a memory type *)
From Coq Require Import Ascii String List ZArith Bool.
From Verif Require Import Base MemMap SpecTree Pipeline SpecPipe SpecBuild SpecBytes.
Import ListNotations.
Open Scope list_scope.
Open Scope Z_scope.

(** the symbols listed for the input section [n] of [size] bytes at [addr]; [ys] are the
    symbols of the ELF file, if there is one.  Without an ELF file the input section is
    listed under its own name.  Otherwise the functions and objects that start in it are
    listed; if there are none, the input section is listed under its own name, provided that
    a function or object follows at a higher address *)
Definition begins (addr size : Z) (y : elfsym) : bool := (addr <=? st_value y) && (st_value y <? addr + size).
Definition symbols_at (ys : option (list elfsym)) (n : str) (addr size : Z) : list symbol :=
  if size =? 0 then []
  else match ys with
       | None => [Symbol n addr size]
       | Some ys =>
         match filter (begins addr size) (filter wanted ys) with
         | [] => if existsb (fun y => addr + size <=? st_value y) (filter wanted ys) then [Symbol n addr size] else []
         | g => map shown g
         end
       end.
Definition isec_symbols (ys : option (list elfsym)) (i : isection) : list symbol :=
  symbols_at ys (i_name i) (i_addr i) (i_size i).

(** the symbols of object file [o] of archive [a] in an output section, and their bytes with
    a property *)
Definition symbols_in (ys : option (list elfsym)) (a o : str) (s : osection) : list symbol :=
  flat_map (isec_symbols ys) (isecs_of_object a o (o_isecs s)).
Definition symbol_bytes_with (P : Z -> bool) (ys : option (list elfsym)) (a o y : str) (s : osection) : Z :=
  zsumf (fun z => bytes_with P (sy_addr z) (sy_size z)) (filter (fun z => sy_name z =?= y) (symbols_in ys a o s)).

(** the size of a symbol in a section of a memory map, nought if it is not listed *)
Definition symbol_size (a o y : str) (x : option sect) : Z :=
  match x with
  | None => 0
  | Some x =>
    match dget a (n_sub x) with
    | None => 0
    | Some x => match dget o (n_sub x) with None => 0 | Some b => match dget y (n_sub b) with None => 0 | Some z => y_size z end end
    end
  end.

(** the entry of output section [s] in memory type [T] holds the symbols of the section with
    the bytes of each that belong to [T] *)
Definition lists_symbols (d : str -> Z -> str -> bool) (ys : option (list elfsym)) (T : str) (s : osection) (entry : option sect) : Prop :=
  (forall a o y, symbol_size a o y entry = symbol_bytes_with (fun z => d (o_name s) z T) ys a o y s) /\
  forall x a arc o b y z, entry = Some x -> dget a (n_sub x) = Some arc -> dget o (n_sub arc) = Some b -> dget y (n_sub b) = Some z ->
    In y (map sy_name (symbols_in ys a o s)).

(** two input sections have no byte in common *)
Definition isecs_apart (i j : isection) : Prop := i_addr i + i_size i <= i_addr j \/ i_addr j + i_size j <= i_addr i.
