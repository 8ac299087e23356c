(** Output sections that have no size in the map file, and files that differ in them only.
    An output section that got no input section is printed with its name only, the statement
    of the linker script following, or with size zero. *)
From Coq Require Import Ascii String List ZArith.
From Verif Require Import Base PyStr MapFile Project SpecMap.
Import ListNotations.
Open Scope Z_scope.

Inductive sizeless : list str -> Prop :=
| sl_name : forall n q z, osec_name n -> blank q -> blank z -> sizeless [n ++ q; z]
| sl_pattern : forall n q s t l ig z, osec_name n -> blank q -> not_crt s -> line_of t s -> trimmed t -> words l t ->
    (List.length l <> 2%nat \/ prefix "*" (hd [] l)) -> Forall ignored_before ig -> blank z -> sizeless ([n ++ q; s] ++ ig ++ [z])
| sl_zero : forall n g1 a sa g2 ss q ig z, osec_name n -> number a sa -> number 0 ss -> gap g1 -> gap g2 -> blank q ->
    Forall ignored_before ig -> blank z -> sizeless ([n ++ g1 ++ sa ++ g2 ++ ss ++ q] ++ ig ++ [z]).

(** lines after which no output section is open *)
Definition closed (ls : list str) : Prop := ls = [] \/ exists p b, ls = p ++ [b] /\ blank b.

(** [lines'] has one more output section without size than [lines] *)
Definition one_sizeless (lines lines' : list str) : Prop :=
  exists pre ls before bare rest,
    lines = pre ++ ls :: before ++ rest /\ lines' = pre ++ ls :: before ++ bare ++ rest /\
    Forall (fun s => ~ prefix "Linker script and memory map" s) pre /\ prefix "Linker script and memory map" ls /\
    Forall not_crt before /\ closed before /\ sizeless bare /\ Forall line_silent bare.

(** two file systems that differ in the text of one file only *)
Definition differ_in (fn text text' : str) (d d' : disk) : Prop :=
  d_cwd d = d_cwd d' /\ (forall f, d_json d f = d_json d' f) /\ (forall f, d_isfile d f = d_isfile d' f) /\
  (forall f, d_bytes d f = d_bytes d' f) /\ (forall f, f <> fn -> d_text d f = d_text d' f) /\
  d_text d fn = Some text /\ d_text d' fn = Some text'.

(** the other form of an empty output section: address and size on the next line *)
Definition sizeless_two (bare : list str) : Prop :=
  exists n q a sa g ss s z, bare = [n ++ q; s; z] /\ osec_name n /\ blank q /\ number a sa /\ gap g /\ number 0 ss /\ line_of (sa ++ g ++ ss) s /\ blank z.
