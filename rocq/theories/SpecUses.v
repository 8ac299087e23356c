(** * Specification vocabulary: the dependency reports of a project *)
From Coq Require Import Ascii String List ZArith Bool Sorted.
From Verif Require Import Base MemMap SpecTree MapFile Deps SpecDeps Filter SpecFilter Pipeline SpecPipe SpecBuild SpecBytes SpecShape PyStr MapFile SpecMap ElfRead SpecElf Project SpecProject SpecEnd Chips Deps Table SpecTable Formats Main SpecMain SpecCommand SpecFail SpecReport.
Import ListNotations.
Open Scope list_scope.
Open Scope Z_scope.

(** ** the symbols of the ELF file *)
(** a function or an object that has no absolute address *)
Definition code_symbol (y : xsym) : Prop := (x_stinfo y mod 16 = 2 \/ x_stinfo y mod 16 = 1) /\ x_shndx y <> 65521.
(** the symbols of the file; the names of functions and objects are those of its string tables *)
Definition named_symbols (file : bytes) (ys : list (str * xsym)) : Prop :=
  exists is64 big h phs shs ls, elf_image is64 big file h phs shs /\ Forall2 (symtab_image is64 big file) (filter is_symtab shs) ls /\
    map snd ys = concat ls /\
    Forall (fun ny => code_symbol (snd ny) -> exists t, nth_error shs (Z.to_nat (x_strndx (snd ny))) = Some t /\
      plain (fst ny) /\ string_at file t (x_stname (snd ny)) (fst ny)) ys.
(** the ELF file that goes with the map file has these symbols *)
Definition symbols_of (d : disk) (dir name : str) (ys : list (str * xsym)) : Prop :=
  exists o app fn file, description d dir = Some (JObj o) /\ describes_map o name app /\ located dir app fn /\
    d_isfile d fn = true /\ d_bytes d fn = Some file /\ named_symbols file ys.
Definition names_code (ys : list (str * xsym)) (s : str) : Prop := exists y, In (s, y) ys /\ code_symbol y.

(** ** what depends on what *)
(** an archive with input sections that count *)
Definition has_archive (k : account) (x : str) : Prop := exists i, places i k /\ it_archive i = x.
(** the cross reference table [es] has [x] use the symbol [s] of [y]; both archives are in the
    image, and so is the symbol *)
Definition depends (k : account) (es : list SpecMap.entry) (ys : list (str * xsym)) (x y s : str) : Prop :=
  (exists def refs, last_entry es s (def :: refs) /\ fst def = y /\ In x (map fst refs)) /\
  x <> y /\ has_archive k x /\ has_archive k y /\ names_code ys s.

(** ** the order of a report: as in the cross reference table *)
Inductive sublist {A} : list A -> list A -> Prop :=
| sub_nil : sublist [] []
| sub_skip : forall x l l', sublist l l' -> sublist l (x :: l')
| sub_keep : forall x l l', sublist l l' -> sublist (x :: l) (x :: l').
(** [x] is not after [y] in [l] *)
Definition not_after (l : list str) (x y : str) : Prop := exists l1 l2, l = l1 ++ x :: l2 /\ In y (x :: l2).
(** the first of [ss] is not after any of [ss'] *)
Definition starts_first (l ss ss' : list str) : Prop := forall s', In s' ss' -> exists s, In s ss /\ not_after l s s'.

(** ** the content of a report: archives, for each the archives it uses (or that use it), and for
    each of these the symbols *)
Definition depreport := list (str * list (str * list str)).
Definition all_symbols (l : list (str * list str)) : list str := flat_map snd l.
Record depreport_right (k : account) (es : list SpecMap.entry) (ys : list (str * xsym)) (a : args) (sel : str -> Prop) (ds : depreport) : Prop := {
  dr_once : NoDup (map fst ds);
  dr_inner_once : Forall (fun d => NoDup (map fst (snd d))) ds;
  dr_content : forall x y s, (exists l ss, In (x, l) ds /\ In (y, ss) l /\ In s ss) <->
    sel x /\ (if a_dep_reverse a then depends k es ys y x s else depends k es ys x y s);
  dr_filled : Forall (fun d => snd d <> [] /\ Forall (fun e => snd e <> []) (snd d)) ds;
  dr_symbols : Forall (fun d => Forall (fun e => sublist (snd e) (distinct (map en_symbol es))) (snd d)) ds;
  dr_order : StronglySorted (fun d d' => starts_first (distinct (map en_symbol es)) (all_symbols (snd d)) (all_symbols (snd d'))) ds;
  dr_inner_order : Forall (fun d => StronglySorted (fun e e' => starts_first (distinct (map en_symbol es)) (snd e) (snd e')) (snd d)) ds }.

(** ** how a report is shown *)
Definition shown_archive (a : args) (x s : str) : Prop := if a_no_abbrev a then s = x else after_last "/"%char x s.
Definition archive_bytes (k : account) (x : str) (n : Z) : Prop := own_bytes (of_archive x) ColTotal k n.
(** the JSON report *)
Definition dep_entry (k : account) (e : str * list str) (q : str * dent) : Prop :=
  fst q = fst e /\ after_last "/"%char (fst e) (de_abbrev (snd q)) /\ archive_bytes k (fst e) (de_size (snd q)) /\ de_symbols (snd q) = snd e.
Definition dep_object (k : account) (d : str * list (str * list str)) (q : str * darch) : Prop :=
  fst q = fst d /\ after_last "/"%char (fst d) (da_abbrev (snd q)) /\ archive_bytes k (fst d) (da_size (snd q)) /\
  Forall2 (dep_entry k) (snd d) (da_archives (snd q)).
(** the rows of the table: name and size of the archive are only in the first of its rows *)
Inductive lines_joined : list str -> str -> Prop :=
| joined_one : forall s, lines_joined [s] s
| joined_more : forall s l t, lines_joined l t -> lines_joined (s :: l) (s ++ newline :: t).
Definition dep_cells (k : account) (a : args) (outer : option str) (e : str * list str) (row : list str) : Prop :=
  exists n z n' z' rest, row = n :: z :: n' :: z' :: rest /\
    match outer with
    | Some x => shown_archive a x n /\ exists v, archive_bytes k x v /\ written z v
    | None => n = [] /\ z = []
    end /\
    shown_archive a (fst e) n' /\ (exists v, archive_bytes k (fst e) v /\ written z' v) /\
    if a_dep_symbols a then exists t, rest = [t] /\ lines_joined (snd e) t else rest = [].
Definition dep_rows_right (k : account) (a : args) (d : str * list (str * list str)) (rows : list (list str)) : Prop :=
  exists e es row rest, snd d = e :: es /\ rows = row :: rest /\ dep_cells k a (Some (fst d)) e row /\ Forall2 (dep_cells k a None) es rest.
Definition dep_headers (a : args) : list str :=
  map list_ascii_of_string ["Archive"; "Archive Size"]%string ++
  map list_ascii_of_string (if a_dep_reverse a then ["Dependents"; "Dependents Sizes"] else ["Dependencies"; "Dependencies Sizes"])%string ++
  map list_ascii_of_string (if a_dep_symbols a then ["Symbols"] else [])%string.
(** the lines of the tree *)
Definition dep_label (k : account) (a : args) (x t : str) : Prop :=
  exists n z v, t = n ++ " "%char :: z /\ shown_archive a x n /\ archive_bytes k x v /\ written z v.
Definition dep_leaf (k : account) (a : args) (e : str * list str) (lines : list (nat * str)) : Prop :=
  exists t, dep_label k a (fst e) t /\ lines = (2%nat, t) :: if a_dep_symbols a then map (fun s => (3%nat, s)) (snd e) else [].
Definition dep_branch (k : account) (a : args) (d : str * list (str * list str)) (lines : list (nat * str)) : Prop :=
  exists t groups, dep_label k a (fst d) t /\ lines = (1%nat, t) :: concat groups /\ Forall2 (dep_leaf k a) (snd d) groups.
Definition dep_title (a : args) : str := list_ascii_of_string (if a_dep_reverse a then "Archive reverse dependencies" else "Archive dependencies").
(** the graph has a node for each archive of the report and an edge from the archive that uses
    symbols to that with the symbols *)
Definition graph_right (k : account) (a : args) (ds : depreport) (lines : list dot_line) : Prop :=
  NoDup (flat_map node_name lines) /\ NoDup (flat_map edge_of lines) /\
  (forall x, In x (flat_map node_name lines) <-> exists d, In d ds /\ (x = fst d \/ In x (map fst (snd d)))) /\
  (forall x l z o, In (DotNode x l z o) lines -> shown_archive a x l /\ archive_bytes k x z /\ (o = true <-> In x (map fst ds))) /\
  forall x y q, In (DotEdge x y q) lines <-> exists u v l ss, In (u, l) ds /\ In (v, ss) l /\
    (x, y) = (if a_dep_reverse a then (v, u) else (u, v)) /\ q = if a_dep_symbols a then Some ss else None.

(** ** the project and the command *)
(** the dependencies are asked for, and shown in this format *)
Definition asks_deps (a : args) : Prop :=
  a_archive_dependencies a = true /\ a_unify a = false /\
  (a_format a = FRaw \/ a_format a = FTree \/ a_format a = FDot \/ (a_archives a = false /\ given (a_archive_details a) = false)).
(** the project with its cross reference table and symbols; nothing of debugging information is
    asked for *)
Definition dep_project (d : disk) (c : cmd) (k : account) (es : list SpecMap.entry) (ys : list (str * xsym)) : Prop :=
  exists dir name text, c_input c = in_dir dir name /\ built d dir name text (ac_rs k) (ac_l k) (Some es) (ac_im k) (ac_types k) /\
    symbols_of d dir name ys /\ without_dwarf d dir (c_args c) /\
    (given (a_archive_details (c_args c)) = true \/ a_format (c_args c) = FRaw -> a_use_dwarf (c_args c) <> Some true) /\
    (a_show_unused (c_args c) = true \/ filled (ac_im k) (ac_types k) (ac_l k)).
