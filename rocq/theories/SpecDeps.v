(** * Specification vocabulary for the dependency report *)
From Coq Require Import Ascii String List ZArith Bool.
From Verif Require Import Base MemMap SpecTree SpecOps MapFile Deps.
Import ListNotations.
Open Scope list_scope.
Open Scope Z_scope.

(** an order in which a set can be iterated over: every element once *)
Definition set_iteration (ord : set_order) : Prop :=
  forall y l, NoDup (ord y l) /\ forall x, In x (ord y l) <-> In x l.

(** a cross reference table: different symbols, each with a definition *)
Definition proper_crt (crt : crt_table) : Prop := wf_dict crt /\ forall s refs, In (s, refs) crt -> refs <> [].

(** [s] is defined in [b] and used by [a] *)
Definition defined_used (crt : crt_table) (s b a : str) : Prop :=
  exists def rest, dget s crt = Some (def :: rest) /\ fst def = b /\ In a (map fst rest).

(** the archive is in the memory map *)
Definition in_map (m : memmap) (x : str) : Prop := exists t s, look m t [s; x] <> None.

(** a function or object with that name that has no absolute address *)
Definition elf_symbol (syms : list dsym) (s : str) : Prop :=
  exists y, In y syms /\ ds_name y = s /\ (ds_type y = 2 \/ ds_type y = 1) /\ ds_shndx y <> 65521.

(** archive [a] uses [s] of archive [b] *)
Definition uses (crt : crt_table) (m : memmap) (syms : list dsym) (a b s : str) : Prop :=
  defined_used crt s b a /\ a <> b /\ in_map m a /\ in_map m b /\ elf_symbol syms s.

(** the report lists [s] under [b] under [a] *)
Definition listed (r : dict str darch) (a b s : str) : Prop :=
  exists d e, dget a r = Some d /\ dget b (da_archives d) = Some e /\ In s (de_symbols e).

(** size of an archive: the sum over all sections of all memory types *)
Definition archive_size (m : memmap) (x : str) : Z :=
  zsumf (fun kv => zsumf (fun s => esize (look m (fst kv) [fst s; x])) (t_sections (snd kv))) (m_types m).

(** equal but for the order of the entries *)
Definition same_report (r r' : dict str darch) : Prop :=
  forall a, match dget a r, dget a r' with
            | Some d, Some d' => da_abbrev d = da_abbrev d' /\ da_size d = da_size d' /\
                                 forall b, dget b (da_archives d) = dget b (da_archives d')
            | None, None => True
            | _, _ => False
            end.

(** ** DOT *)

Definition node_name (l : dot_line) : list str := match l with DotNode n _ _ _ => [n] | DotEdge _ _ _ => [] end.
Definition edge_of (l : dot_line) : list (str * str) := match l with DotNode _ _ _ _ => [] | DotEdge x y _ => [(x, y)] end.
