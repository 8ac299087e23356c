(** * Specification vocabulary: the tree and the raw report of a project, memory type by memory
    type, section by section, archive by archive *)
From Coq Require Import Ascii String List ZArith Bool Sorted.
From Verif Require Import Base MemMap SpecTree Filter Pipeline SpecPipe SpecBuild SpecBytes SpecShape PyStr MapFile SpecMap ElfRead SpecElf Project SpecProject SpecEnd Chips Deps Table SpecTable Formats Main SpecMain SpecCommand SpecFail SpecReport SpecSyms SpecSymbols.
Import ListNotations.
Open Scope list_scope.
Open Scope Z_scope.

(** an input section with bytes in an output section of this name *)
Definition in_section (N : str) (i : item) (k : account) : Prop :=
  exists o, In o (ac_l k) /\ counted (ac_im k) o /\ pr_name o = N /\ In i (pr_items o) /\ it_size i <> 0.
(** some input sections have bytes in a memory type and section *)
Definition has_bytes (own : item -> bool) (T N : str) (k : account) : Prop := exists n, own_bytes own (ColSect T N) k n /\ 0 < n.

(** ** the tree: object files in archives in sections in memory types *)
Record tobject := TObject { to_name : str; to_value : Z * Z }.
Record tarchive := TArchive { ta_name : str; ta_value : Z * Z; ta_objects : list tobject }.
Record tsection := TSection { ts_name : str; ts_value : Z * Z; ts_archives : list tarchive }.
Record ttype := TType { tt_name : str; tt_used : Z * Z; tt_total : Z * Z; tt_sections : list tsection }.

(** *** as lines of text, each with its depth in the tree *)
Definition file_shown (a : args) (n s : str) : Prop := if a_no_abbrev a then s = n else after_last "/"%char n s.
Definition tells (a : args) (name : str) (v : Z * Z) (s : str) : Prop :=
  exists num, s = name ++ " "%char :: num /\ cell_text (given (a_diff a)) v num.
Definition object_lines (a : args) (o : tobject) (l : list (nat * str)) : Prop :=
  exists n s, l = [(4%nat, s)] /\ file_shown a (to_name o) n /\ tells a n (to_value o) s.
Definition archive_lines (a : args) (x : tarchive) (l : list (nat * str)) : Prop :=
  exists n s rest, l = (3%nat, s) :: concat rest /\ file_shown a (ta_name x) n /\ tells a n (ta_value x) s /\ Forall2 (object_lines a) (ta_objects x) rest.
Definition section_lines (a : args) (x : tsection) (l : list (nat * str)) : Prop :=
  exists n s rest, l = (2%nat, s) :: concat rest /\ shown_section a (ts_name x) n /\ tells a n (ts_value x) s /\ Forall2 (archive_lines a) (ts_archives x) rest.
(** the size of the memory type follows unless it is 0 *)
Definition type_lines (a : args) (x : ttype) (l : list (nat * str)) : Prop :=
  exists s size rest, l = (1%nat, s ++ size) :: concat rest /\ tells a (tt_name x) (tt_used x) s /\
    (if fst (tt_total x) =? 0 then size = [] else exists num, size = list_ascii_of_string " / " ++ num /\ cell_text (given (a_diff a)) (tt_total x) num) /\
    Forall2 (section_lines a) (tt_sections x) rest.

(** *** what it says *)
Definition listed_by {X} (a : args) (name : X -> str) (value : X -> Z * Z) (l : list X) : Prop :=
  NoDup (map name l) /\ Forall (fun x => differs a (value x)) l /\
  StronglySorted (fun x y => in_order (a_sort_reverse a) (pick (a_sort_diff a) (value x)) (pick (a_sort_diff a) (value y))) l.
(** [l] has the archives, or the object files, whose bytes [own] tells: all with bytes that are
    to be reported, and none without an input section [mine] *)
Definition holders {X} (k : account) (r : option account) (a : args) (T N : str) (own : str -> item -> bool) (mine : item -> str -> Prop) (name : X -> str) (value : X -> Z * Z) (l : list X) : Prop :=
  listed_by a name value l /\
  Forall (fun x => measured k r (own_bytes (own (name x)) (ColSect T N)) (value x) /\ exists i, present k r (in_section N i) /\ mine i (name x)) l /\
  forall n v, present k r (has_bytes (own n) T N) -> measured k r (own_bytes (own n) (ColSect T N)) v -> differs a v -> In n (map name l).
Definition objects_right k r a T N x (l : list tobject) : Prop :=
  if a_archives a then l = []
  else holders k r a T N (of_object x) (fun i o => it_archive i = x /\ it_object i = o) to_name to_value l.
Definition archives_right k r a T N (l : list tarchive) : Prop :=
  holders k r a T N of_archive (fun i x => it_archive i = x) ta_name ta_value l /\
  Forall (fun x => objects_right k r a T N (ta_name x) (ta_objects x)) l.
Record ttype_right (k : account) (r : option account) (a : args) (x : ttype) : Prop := {
  tt_used_is : measured k r (used_bytes (tt_name x)) (tt_used x);
  tt_total_is : total_bytes a (tt_name x) k (fst (tt_total x));
  tt_total_diff : fst (tt_total x) <> 0 \/ a_use_flash_size a = true -> measured k r (total_bytes a (tt_name x)) (tt_total x);
  tt_order : listed_by a ts_name ts_value (tt_sections x);
  tt_sections_are : forall N v, (exists y, In y (tt_sections x) /\ ts_name y = N /\ ts_value y = v) <->
    present k r (lists_section (tt_name x) N) /\ measured k r (name_bytes (tt_name x) N) v /\ differs a v;
  tt_archives_are : Forall (fun y => archives_right k r a (tt_name x) (ts_name y) (ts_archives y)) (tt_sections x) }.
Definition tree_right (k : account) (r : option account) (a : args) (l : list ttype) : Prop :=
  listed_by a tt_name tt_used l /\
  (forall T, In T (map tt_name l) <-> present k r (lists_type a T) /\ exists v, measured k r (used_bytes T) v /\ differs a v) /\
  Forall (ttype_right k r a) l.

(** ** the raw report: the memory map itself *)
Definition value_of (e : SpecTree.entry) : Z * Z := (e_size e, e_diff e).
Record raw_right (k : account) (r : option account) (a : args) (m : memmap) : Prop := {
  rw_once : wf_map m;
  rw_image : measured k r (fun q => image_bytes (ac_im q) (ac_l q)) (m_image_size m, m_image_size_diff m);
  rw_types : forall T, dget T (m_types m) <> None <-> present k r (lists_type a T);
  rw_type : forall T t, dget T (m_types m) = Some t -> measured k r (used_bytes T) (t_used t, t_used_diff t) /\ total_bytes a T k (t_size t) /\
    (t_size t <> 0 \/ a_use_flash_size a = true -> measured k r (total_bytes a T) (t_size t, t_size_diff t));
  rw_sections : forall T N, look m T [N] <> None <-> present k r (lists_section T N);
  rw_section : forall T N e, look m T [N] = Some e -> measured k r (name_bytes T N) (value_of e);
  rw_archive : forall T N x e, look m T [N; x] = Some e -> measured k r (own_bytes (of_archive x) (ColSect T N)) (value_of e) /\
    exists i, present k r (in_section N i) /\ it_archive i = x;
  rw_archives : forall T N x, present k r (has_bytes (of_archive x) T N) -> look m T [N; x] <> None;
  rw_object : forall T N x o e, look m T [N; x; o] = Some e -> measured k r (own_bytes (of_object x o) (ColSect T N)) (value_of e) /\
    exists i, present k r (in_section N i) /\ it_archive i = x /\ it_object i = o;
  rw_objects : forall T N x o, present k r (has_bytes (of_object x o) T N) -> look m T [N; x; o] <> None;
  rw_label : forall T p e, look m T p = Some e -> label p (e_abbrev e) }.
(** the symbols in it; those of the project stand for input sections in [q] *)
Record raw_symbols_right (q : account) (r : option account) (m : memmap) : Prop := {
  rs_symbol : forall T N x o y e, look m T [N; x; o; y] = Some e -> exists i, present q r (places i) /\ it_archive i = x /\ it_object i = o /\ it_name i = y /\
    measured q r (own_bytes (of_symbol i) (ColSect T N)) (value_of e);
  rs_symbols : forall T N i, present q r (has_bytes (of_symbol i) T N) -> look m T [N; it_archive i; it_object i; it_name i] <> None }.

(** every byte of the output sections of this name belongs to the memory type *)
Definition all_in (T N : str) (k : account) : Prop :=
  forall o, In o (ac_l k) -> counted (ac_im k) o -> pr_name o = N -> forall a, pr_addr o <= a < pr_addr o + pr_size o -> byte_goes (ac_types k) N a T.
Definition both {A} (k : A) (r : option A) (P : A -> Prop) : Prop := P k /\ match r with None => True | Some k' => P k' end.
