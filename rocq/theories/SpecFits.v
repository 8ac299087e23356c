(** * Specification vocabulary: symbol tables that fit the link map *)
From Coq Require Import Ascii String List ZArith Bool.
From Verif Require Import Base MemMap Filter Pipeline SpecBuild PyStr MapFile SpecMap ElfRead Project SpecProject SpecEnd Chips Table SpecTable Formats Main SpecMain SpecCommand SpecFail SpecReport SpecSymbols.
Import ListNotations.
Open Scope list_scope.
Open Scope Z_scope.

(** [placed] are the input sections that count *)
Definition ends_after (y : elfsym) (i : item) : Prop := st_value y < it_addr i + it_size i.
(** the input section a symbol is looked for in: the first one that ends after its start *)
Definition next_item (im : option (list (str * xshdr))) (l : list printed) (y : elfsym) (i : item) : Prop :=
  placed im l i /\ ends_after y i /\ forall j, placed im l j -> ends_after y j -> it_addr i <= it_addr j.
(** there is one, and the symbol ends with it at the latest *)
Definition symbol_fits (im : option (list (str * xshdr))) (l : list printed) (y : elfsym) : Prop :=
  (exists i, placed im l i /\ ends_after y i) /\ forall i, next_item im l y i -> st_value y + st_symsize y <= it_addr i + it_size i.
(** there is none, or the symbol ends after it *)
Definition symbol_misfits (im : option (list (str * xshdr))) (l : list printed) (y : elfsym) : Prop :=
  forall i, next_item im l y i -> it_addr i + it_size i < st_value y + st_symsize y.
Definition symbols_fit (im : option (list (str * xshdr))) (l : list printed) (ys : option (list elfsym)) : Prop :=
  match ys with
  | None => True
  | Some ys => (exists i, placed im l i) /\ Forall (fun y => wanted y = true -> symbol_fits im l y) ys
  end.

(** a project whose symbols can be loaded, on a chip that has memory for its regions *)
Definition fitting_project (d : disk) (a : args) (fn : str) : Prop :=
  exists dir name text rs l crt im t ys, fn = in_dir dir name /\ linked d dir name text rs l crt im t /\ no_dwarf d dir (a_use_dwarf a) /\
    symbols_of d dir name im ys /\ symbols_fit im l ys /\ on_chip rs t.
(** the same with a function or object that does not fit *)
Definition misfitting_project (d : disk) (a : args) (fn : str) : Prop :=
  exists dir name text rs l crt im t ys y, fn = in_dir dir name /\ linked d dir name text rs l crt im t /\ no_dwarf d dir (a_use_dwarf a) /\
    symbols_of d dir name im (Some ys) /\ In y ys /\ wanted y = true /\ (exists i, placed im l i) /\ symbol_misfits im l y /\ on_chip rs t.
Definition fitting_reference (d : disk) (a : args) : Prop := given (a_diff a) = false \/ exists fn, a_diff a = Some fn /\ fitting_project d a fn.
(** an ELF file, but no input section that counts *)
Definition empty_project (d : disk) (a : args) (fn : str) : Prop :=
  exists dir name text rs l crt im t ys, fn = in_dir dir name /\ linked d dir name text rs l crt im t /\ no_dwarf d dir (a_use_dwarf a) /\
    symbols_of d dir name im (Some ys) /\ (forall i, ~ placed im l i) /\ on_chip rs t.
