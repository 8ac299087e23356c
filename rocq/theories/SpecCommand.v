(** * Specification vocabulary: the whole command on the files of a project *)
From Coq Require Import Ascii String List ZArith Bool Sorted.
From Verif Require Import Base MemMap SpecTree Filter Pipeline SpecPipe SpecBuild SpecBytes SpecShape PyStr MapFile SpecMap ElfRead SpecElf Project SpecProject SpecEnd Chips Deps Table SpecTable Formats Main SpecMain.
Import ListNotations.
Open Scope list_scope.
Open Scope Z_scope.

(** the chip the project is for *)
Inductive target_is (d : disk) (dir name text : str) : str -> Prop :=
| target_described : forall o app t, description d dir = Some (JObj o) -> describes_map o name app ->
    dget (list_ascii_of_string "target") o = Some (JStr t) -> t <> [] -> target_is d dir name text t
| target_read : forall pm, undescribed d dir name -> map_text text = Ok pm -> target_is d dir name text (pm_target pm).

(** a project as the linker leaves it: [l] are the output sections printed in the map file,
    [im] the sections of the ELF file.  The sections that count lie in memory of the chip
    and have different names *)
Record built (d : disk) (dir name text : str) (rs : list region) (l : list printed) (crt : option (list SpecMap.entry))
    (im : option (list (str * xshdr))) (types : list chip_type) : Prop := {
  bt_dir : directory dir;
  bt_name : proper name;
  bt_text : d_text d (in_dir dir name) = Some text;
  bt_map : printed_map rs l crt (splitlines text);
  bt_regular : Forall regular l;
  bt_image : image_of d dir name im;
  bt_types : exists target, target_is d dir name text target /\ get_memory_types chip_info target = Ok types;
  bt_sections : Forall (fun o => counted im o ->
    section_mapped rs types (printed_section o) /\ unbroken rs types (printed_section o) /\ items_in o) l;
  bt_names : forall l1 o l2 o' l3, l = l1 ++ o :: l2 ++ o' :: l3 -> counted im o -> counted im o' -> pr_name o <> pr_name o' }.

(** [n] bytes of the output section, of all that count, belong to the memory type [T] *)
Definition section_bytes (types : list chip_type) (T : str) (o : printed) (n : Z) : Prop :=
  exists b, (forall a, b a = true <-> byte_goes types (pr_name o) a T) /\ n = bytes_with b (pr_addr o) (pr_size o).
Definition type_bytes (im : option (list (str * xshdr))) (types : list chip_type) (l : list printed) (T : str) (n : Z) : Prop :=
  exists keep b, (forall o, keep o = true <-> counted im o) /\ (forall o a, b o a = true <-> byte_goes types (pr_name o) a T) /\
    n = zsumf (fun o => bytes_with (b o) (pr_addr o) (pr_size o)) (filter keep l).
(** no section is made only of bytes that do not come from an input section *)
Definition filled (im : option (list (str * xshdr))) (types : list chip_type) (l : list printed) : Prop :=
  Forall (fun o => counted im o -> forall T a, byte_of (printed_section o) a -> byte_goes types (pr_name o) a T ->
    exists i a', In i (pr_items o) /\ it_addr i <= a' < it_addr i + it_size i /\ byte_goes types (pr_name o) a' T) l.

(** the size of the image: what the ELF file has to be loaded; or, if there are no ELF
    headers, the sections but for those that start with zeros or uninitialised *)
Definition header_loaded (nh : str * xshdr) : bool := negb (x_size (snd nh) =? 0) && negb (Z.land (x_flags (snd nh)) 2 =? 0).
Definition image_bytes (im : option (list (str * xshdr))) (l : list printed) (n : Z) : Prop :=
  ((exists x, loaded im x) -> forall hs, im = Some hs -> NoDup (map fst (filter header_loaded hs)) ->
    n = zsumf (fun nh => x_size (snd nh)) (filter (fun nh => header_loaded nh && (x_type (snd nh) =? 1)) hs)) /\
  (~ (exists x, loaded im x) -> exists keep, (forall o, keep o = true <-> counted im o /\ image_section (pr_name o)) /\
    n = zsumf pr_size (filter keep l)).

(** the name of a section in a report *)
Definition shown_section (a : args) (n s : str) : Prop :=
  if a_no_abbrev a && negb (a_unify a) then s = n else exists b, after_last "."%char n b /\ s = "."%char :: b.

(** the LTO setting of the project does not matter or says no *)
Definition no_lto (d : disk) (dir : str) (a : args) : Prop := a_use_dwarf a = None -> no_dwarf d dir None.

(** the report is that of the project alone *)
Definition alone (a : args) : Prop := given (a_diff a) = false /\ a_unify a = false.
(** the summary of memory types is asked for *)
Definition of_types (a : args) : Prop :=
  a_archives a = false /\ given (a_archive_details a) = false /\ a_archive_dependencies a = false /\ a_files a = false.

(** sections that are not the same are shown by different names *)
Definition distinct_shown (a : args) (im : option (list (str * xshdr))) (l : list printed) : Prop :=
  forall o o' n, In o l -> In o' l -> counted im o -> counted im o' ->
    shown_section a (pr_name o) n -> shown_section a (pr_name o') n -> pr_name o = pr_name o'.

(** the size shown for a memory type: that of the parts of the memory regions in it *)
Definition size_shown (a : args) (parts : list sregion) (T : str) (n : Z) : Prop :=
  (a_use_flash_size a = false /\ flash_name T -> n = 0) /\ (~ (a_use_flash_size a = false /\ flash_name T) -> n = type_size T parts).

(** a memory type in the JSON summary *)
Record type_report (im : option (list (str * xshdr))) (types : list chip_type) (l : list printed) (parts : list sregion) (a : args) (j : jtype) : Prop := {
  tr_used : type_bytes im types l (j_name j) (j_used j);
  tr_total : size_shown a parts (j_name j) (j_total j);
  tr_free : j_free j = if j_total j =? 0 then 0 else j_total j - j_used j;
  tr_parts : distinct_shown a im l -> NoDup (map fst (j_parts j)) /\
    forall n z, In (n, z) (j_parts j) <->
      exists o, In o l /\ counted im o /\ shown_section a (pr_name o) n /\ section_bytes types (j_name j) o z /\ 0 < z }.

(** the memory types of the chip that a summary lists *)
Definition listed_type (im : option (list (str * xshdr))) (types : list chip_type) (l : list printed) (a : args) (T : str) : Prop :=
  (exists c, In c types /\ ct_name c = T) /\ (a_show_unused a = true \/ exists n, type_bytes im types l T n /\ n <> 0).

(** ** reports on archives and object files *)
(** bytes of the input sections [own] in an output section, of all that count, that belong
    to a memory type; bytes of these input sections in all *)
Definition own_section (types : list chip_type) (T : str) (own : item -> bool) (o : printed) (n : Z) : Prop :=
  exists b, (forall a, b a = true <-> byte_goes types (pr_name o) a T) /\
    n = zsumf (fun i => bytes_with b (it_addr i) (it_size i)) (filter own (pr_items o)).
Definition own_type (im : option (list (str * xshdr))) (types : list chip_type) (l : list printed) (T : str) (own : item -> bool) (n : Z) : Prop :=
  exists keep b, (forall o, keep o = true <-> counted im o) /\ (forall o a, b o a = true <-> byte_goes types (pr_name o) a T) /\
    n = zsumf (fun o => zsumf (fun i => bytes_with (b o) (it_addr i) (it_size i)) (filter own (pr_items o))) (filter keep l).
Definition own_all (im : option (list (str * xshdr))) (l : list printed) (own : item -> bool) (n : Z) : Prop :=
  exists keep, (forall o, keep o = true <-> counted im o) /\ n = zsumf (fun o => zsumf it_size (filter own (pr_items o))) (filter keep l).

(** a row of a report for the input sections [own]: its size is that of the input sections;
    each number of bytes in a memory type and in a section of it is right, and none is missing *)
Record row_report (im : option (list (str * xshdr))) (types : list chip_type) (l : list printed) (own : item -> bool) (e : sentry) : Prop := {
  rr_size : own_all im l own (se_size e);
  rr_once : NoDup (map fst (se_types e));
  rr_chip : forall T st, In (T, st) (se_types e) -> exists c, In c types /\ ct_name c = T;
  rr_type : forall T st, In (T, st) (se_types e) -> own_type im types l T own (st_size st);
  rr_section : forall T st n q, In (T, st) (se_types e) -> In (n, q) (st_sections st) ->
    exists o, In o l /\ counted im o /\ pr_name o = n /\ own_section types T own o (ss_size q);
  rr_missing : forall o T n, In o l -> counted im o -> own_section types T own o n -> n <> 0 ->
    exists st q, In (T, st) (se_types e) /\ In (pr_name o, q) (st_sections st) /\ ss_size q = n }.

(** an input section that counts *)
Definition placed (im : option (list (str * xshdr))) (l : list printed) (i : item) : Prop :=
  exists o, In o l /\ counted im o /\ In i (pr_items o) /\ it_size i <> 0.
Definition of_archive (x : str) (i : item) : bool := it_archive i =?= x.
Definition of_object (x o : str) (i : item) : bool := (it_archive i =?= x) && (it_object i =?= o).
(** the names of object files are told from those of archives in "archive:object" *)
Definition joined_names (im : option (list (str * xshdr))) (l : list printed) : Prop :=
  forall i, placed im l i -> ~ In ":"%char (it_object i).

(** the rows for the archives, and for the object files *)
Definition archive_rows (im : option (list (str * xshdr))) (types : list chip_type) (l : list printed) (rows : dict str sentry) : Prop :=
  NoDup (map fst rows) /\
  (forall x, In x (map fst rows) <-> exists i, placed im l i /\ it_archive i = x) /\
  forall x e, In (x, e) rows -> after_last "/"%char x (se_abbrev e) /\ row_report im types l (of_archive x) e.
Definition object_rows (im : option (list (str * xshdr))) (types : list chip_type) (l : list printed) (rows : dict str sentry) : Prop :=
  NoDup (map fst rows) /\
  (forall n, In n (map fst rows) <-> exists i, placed im l i /\ n = it_archive i ++ ":"%char :: it_object i) /\
  forall n e, In (n, e) rows -> exists i, placed im l i /\ n = it_archive i ++ ":"%char :: it_object i /\
    after_last "/"%char (it_object i) (se_abbrev e) /\ row_report im types l (of_object (it_archive i) (it_object i)) e.
(** the rows are in the order that is asked for *)
Definition rows_sorted (a : args) (rows : dict str sentry) : Prop :=
  StronglySorted (fun x y => if a_sort_reverse a then se_size (snd y) <= se_size (snd x) else se_size (snd x) <= se_size (snd y)) rows.

(** ** the summary table *)
(** what the rows of a memory type say *)
Record tgroup := TGroup { tg_type : str; tg_used : Z; tg_total : Z; tg_sections : list (printed * Z) }.
Record group_right (im : option (list (str * xshdr))) (types : list chip_type) (l : list printed) (parts : list sregion) (a : args) (g : tgroup) : Prop := {
  gr_used : type_bytes im types l (tg_type g) (tg_used g);
  gr_total : size_shown a parts (tg_type g) (tg_total g);
  gr_once : NoDup (tg_sections g);
  gr_sections : forall o n, In (o, n) (tg_sections g) <-> In o l /\ counted im o /\ section_bytes types (tg_type g) o n /\ 0 < n }.
(** the texts in the rows *)
Definition section_cells (a : args) (s : printed * Z) (r : list str) : Prop :=
  exists name used pct, r = [list_ascii_of_string "   " ++ name; used; pct; []; []] /\ shown_section a (pr_name (fst s)) name /\ written used (snd s).
Definition group_rows (a : args) (g : tgroup) (rows : list (list str)) : Prop :=
  exists used pct remain total rest, rows = [tg_type g; used; pct; remain; total] :: rest /\ written used (tg_used g) /\
    (if tg_total g =? 0 then pct = [] /\ remain = [] /\ total = []
     else written remain (tg_total g - tg_used g) /\ written total (tg_total g)) /\
    Forall2 (section_cells a) (tg_sections g) rest.
(** the value of a memory type in a column, by which the rows are sorted *)
Definition tg_value (i : nat) (g : tgroup) : Z :=
  match i with
  | 1%nat => tg_used g
  | 3%nat => if tg_total g =? 0 then 0 else tg_total g - tg_used g
  | _ => tg_total g
  end.
