(** * Specification vocabulary: the report on the symbols of an archive *)
From Coq Require Import Ascii String List ZArith Bool.
From Verif Require Import Base MemMap SpecTree Filter SpecFilter Pipeline SpecPipe SpecBuild SpecBytes SpecShape SpecSyms PyStr MapFile SpecMap ElfRead SpecElf Project SpecProject SpecEnd Chips Deps Table SpecTable Formats Main SpecMain SpecCommand SpecFail SpecReport.
Import ListNotations.
Open Scope list_scope.
Open Scope Z_scope.

(** ** the symbols of the ELF file: those of its symbol tables, one table after the other, with
    the names of the functions and objects among them *)
Definition symbol_is (file : bytes) (shs : list xshdr) (x : xsym) (y : elfsym) : Prop :=
  st_value y = x_value x /\ st_symsize y = x_stsize x /\ st_type y = x_stinfo x mod 16 /\
  (wanted y = true -> SpecElf.plain (st_name y) /\
    exists t, nth_error shs (Z.to_nat (x_strndx x)) = Some t /\ string_at file t (x_stname x) (st_name y)).
Definition symbol_tables (file : bytes) (ys : list elfsym) : Prop :=
  exists is64 big h phs shs ls, elf_image is64 big file h phs shs /\
    Forall2 (symtab_image is64 big file) (filter is_symtab shs) ls /\ Forall2 (symbol_is file shs) (concat ls) ys.
(** the symbols that go with the map file; [im] tells whether there is an ELF file *)
Inductive symbols_of (d : disk) (dir name : str) : option (list (str * xshdr)) -> option (list elfsym) -> Prop :=
| symbols_none : symbols_of d dir name None None
| symbols_file : forall hs o app fn file ys, description d dir = Some (JObj o) -> describes_map o name app -> located dir app fn ->
    d_bytes d fn = Some file -> symbol_tables file ys -> symbols_of d dir name (Some hs) (Some ys).

(** ** an output section with the symbols in place of the input sections they are in *)
Definition item_symbols (ys : option (list elfsym)) (i : item) : list symbol := symbols_at ys (it_name i) (it_addr i) (it_size i).
Definition symbol_item (i : item) (z : symbol) : item := Item (sy_name z) (sy_addr z) (sy_size z) (it_archive i) (it_object i) [].
Definition by_symbols (ys : option (list elfsym)) (o : printed) : printed :=
  Printed (pr_name o) (pr_addr o) (pr_size o) (flat_map (fun i => map (symbol_item i) (item_symbols ys i)) (pr_items o)).
Definition symbol_account (ys : option (list elfsym)) (k : account) : account :=
  Account (ac_rs k) (map (by_symbols ys) (ac_l k)) (ac_im k) (ac_types k).

(** input sections that count do not overlap, and an object file does not have two symbols of
    one name in an output section *)
Definition items_apart (i j : item) : Prop := it_addr i + it_size i <= it_addr j \/ it_addr j + it_size j <= it_addr i.
Definition clear_symbols (k : account) (ys : option (list elfsym)) : Prop :=
  (exists keep, (forall o, keep o = true <-> counted (ac_im k) o) /\
     ForallOrdPairs items_apart (flat_map (fun o => filter (fun i => negb (it_size i =? 0)) (pr_items o)) (filter keep (ac_l k)))) /\
  Forall (fun o => counted (ac_im k) o -> NoDup (map (fun i => (it_archive i, it_object i, it_name i)) (pr_items (by_symbols ys o)))) (ac_l k).

(** ** the symbols of the project with this map file, and of the reference *)
Definition symbols_project (d : disk) (a : args) (fn : str) (q : account) : Prop :=
  exists dir name text crt k ys, fn = in_dir dir name /\ built d dir name text (ac_rs k) (ac_l k) crt (ac_im k) (ac_types k) /\
    no_dwarf d dir (a_use_dwarf a) /\ (a_show_unused a = true \/ filled (ac_im k) (ac_types k) (ac_l k)) /\
    symbols_of d dir name (ac_im k) ys /\ clear_symbols k ys /\ q = symbol_account ys k.
Definition symbols_reported (d : disk) (c : cmd) (q : account) (r : option account) : Prop :=
  symbols_project d (c_args c) (c_input c) q /\
  match r with
  | None => given (a_diff (c_args c)) = false
  | Some q' => exists fn, a_diff (c_args c) = Some fn /\ symbols_project d (c_args c) fn q'
  end /\
  a_unify (c_args c) = false /\ a_archive_dependencies (c_args c) = false.
(** the symbols of the archives [x] are asked for *)
Definition asked_symbols (a : args) (x : str) : Prop := a_archives a = false /\ a_archive_details a = Some x /\ x <> [].

(** ** rows *)
Definition symbol_key (i : item) : str := it_archive i ++ ":"%char :: it_object i ++ ":"%char :: it_name i.
Definition of_symbol (i j : item) : bool := of_object (it_archive i) (it_object i) j && (it_name j =?= it_name i).
Definition symbol_of (x : str) (q : account) (r : option account) (i : item) : Prop := present q r (places i) /\ after_last "/"%char (it_archive i) x.
Definition tells_symbols (q : account) (r : option account) : Prop :=
  forall i, present q r (places i) -> ~ In ":"%char (it_object i) /\ ~ In ":"%char (it_name i).

Definition symbols_right (x : str) (q : account) (r : option account) (a : args) (rows : dict str sentry) : Prop :=
  NoDup (map fst rows) /\
  (forall n, In n (map fst rows) <-> exists i v, symbol_of x q r i /\ n = symbol_key i /\
     measured q r (own_bytes (of_symbol i) ColTotal) v /\ differs a v) /\
  forall n e, In (n, e) rows -> exists i, symbol_of x q r i /\ n = symbol_key i /\ se_abbrev e = it_name i /\ entry_right q r a (of_symbol i) e.

Definition symbol_shown (a : args) (i : item) (s : str) : Prop := s = if a_no_abbrev a then symbol_key i else it_name i.
Definition symbol_row (q : account) (r : option account) (a : args) (cs : list col) (i : item) (row : list str) : Prop :=
  exists name cells, row = name :: cells /\ symbol_shown a i name /\
    Forall2 (fun c s => exists v, measured q r (own_bytes (of_symbol i) c) v /\ cell_text (given (a_diff a)) v s) cs cells.
Definition symbol_items (x : str) (q : account) (r : option account) (a : args) (ps : option (list (list SpecFilter.piece))) (is : list item) : Prop :=
  NoDup (map symbol_key is) /\ Forall (symbol_of x q r) is /\
  forall n, In n (map symbol_key is) <-> exists i v s, symbol_of x q r i /\ n = symbol_key i /\
    measured q r (own_bytes (of_symbol i) ColTotal) v /\ differs a v /\ symbol_shown a i s /\ selected ps s.
