(** * Specification vocabulary: the reports of a project, alone or compared with a reference *)
From Coq Require Import Ascii String List ZArith Bool Sorted.
From Verif Require Import Base MemMap SpecTree Filter SpecFilter Pipeline SpecPipe SpecBuild SpecBytes SpecShape PyStr MapFile SpecMap ElfRead SpecElf Project SpecProject SpecEnd Chips Deps Table SpecTable Formats Main SpecMain SpecCommand SpecFail.
Import ListNotations.
Open Scope list_scope.
Open Scope Z_scope.

(** what the linker left of a project: memory regions, output sections, ELF headers, and the
    memory types of its chip *)
Record account := Account { ac_rs : list region; ac_l : list printed; ac_im : option (list (str * xshdr)); ac_types : list chip_type }.

(** the project with this map file; nothing of debugging information is asked for *)
Definition project_at (d : disk) (a : args) (fn : str) (k : account) : Prop :=
  exists dir name text crt, fn = in_dir dir name /\ built d dir name text (ac_rs k) (ac_l k) crt (ac_im k) (ac_types k) /\
    without_dwarf d dir a /\ (a_show_unused a = true \/ filled (ac_im k) (ac_types k) (ac_l k)).
(** the reference, if any *)
Definition reference (d : disk) (a : args) (r : option account) : Prop :=
  match r with
  | None => given (a_diff a) = false
  | Some k => exists fn, a_diff a = Some fn /\ project_at d a fn k
  end.
(** the project and the reference of a command *)
Definition reported (d : disk) (c : cmd) (k : account) (r : option account) : Prop :=
  project_at d (c_args c) (c_input c) k /\ reference d (c_args c) r /\
  a_unify (c_args c) = false /\ a_archive_dependencies (c_args c) = false.

(** ** bytes of a project *)
Definition used_bytes (T : str) (k : account) (n : Z) : Prop := type_bytes (ac_im k) (ac_types k) (ac_l k) T n.
(** bytes of the output section of this name in a memory type *)
Definition name_bytes (T N : str) (k : account) (n : Z) : Prop :=
  exists keep b, (forall o, keep o = true <-> counted (ac_im k) o /\ pr_name o = N) /\
    (forall a, b a = true <-> byte_goes (ac_types k) N a T) /\
    n = zsumf (fun o => bytes_with b (pr_addr o) (pr_size o)) (filter keep (ac_l k)).
(** bytes of some input sections: all, those in a memory type, those in a section of it *)
Definition own_bytes (own : item -> bool) (c : col) (k : account) (n : Z) : Prop :=
  match c with
  | ColTotal => own_all (ac_im k) (ac_l k) own n
  | ColType T => own_type (ac_im k) (ac_types k) (ac_l k) T own n
  | ColSect T N => exists keep b, (forall o, keep o = true <-> counted (ac_im k) o /\ pr_name o = N) /\
      (forall a, b a = true <-> byte_goes (ac_types k) N a T) /\
      n = zsumf (fun o => zsumf (fun i => bytes_with b (it_addr i) (it_size i)) (filter own (pr_items o))) (filter keep (ac_l k))
  end.
(** a memory type that is listed, with its size *)
Definition lists_type (a : args) (T : str) (k : account) : Prop := listed_type (ac_im k) (ac_types k) (ac_l k) a T.
Definition lists_section (T N : str) (k : account) : Prop := exists n, name_bytes T N k n /\ 0 < n.
Definition total_bytes (a : args) (T : str) (k : account) (n : Z) : Prop :=
  (lists_type a T k -> exists groups, Forall2 (region_parts (ac_types k)) (filter listed_region (ac_rs k)) groups /\ size_shown a (concat groups) T n) /\
  (~ lists_type a T k -> n = 0).

(** ** a value of the project with the difference to the reference; 0 without a reference *)
Definition measured (k : account) (r : option account) (f : account -> Z -> Prop) (v : Z * Z) : Prop :=
  f k (fst v) /\ match r with None => snd v = 0 | Some k' => exists n', f k' n' /\ snd v = fst v - n' end.
Definition present (k : account) (r : option account) (P : account -> Prop) : Prop :=
  P k \/ match r with None => False | Some k' => P k' end.
(** with a reference, only what is not the same is reported *)
Definition differs (a : args) (v : Z * Z) : Prop := given (a_diff a) = true -> a_show_unchanged a = false -> snd v <> 0.

(** ** what is printed for a table *)
Definition prints (a : args) (s : state) (tb : table) : Prop :=
  ((a_format a = FTable \/ a_format a = FText) /\ s_printed s = [PTable tb]) \/
  (a_format a = FCsv /\ exists lines, s_printed s = map PLine lines /\
    (plain_table tb -> csv_records (concat (map (fun x => x ++ [newline]) lines)) = tb_headers tb :: map (map strip) (tb_rows tb))).

(** ** the summary table *)
Record pgroup := PGroup { pg_type : str; pg_used : Z * Z; pg_total : Z * Z; pg_sections : list (str * (Z * Z)) }.
Record pgroup_right (k : account) (r : option account) (a : args) (g : pgroup) : Prop := {
  pg_used_is : measured k r (used_bytes (pg_type g)) (pg_used g);
  pg_total_is : total_bytes a (pg_type g) k (fst (pg_total g));
  pg_total_diff : fst (pg_total g) <> 0 \/ a_use_flash_size a = true -> measured k r (total_bytes a (pg_type g)) (pg_total g);
  pg_once : NoDup (map fst (pg_sections g));
  pg_sections_are : forall N v, In (N, v) (pg_sections g) <->
    present k r (lists_section (pg_type g) N) /\ measured k r (name_bytes (pg_type g) N) v /\ differs a v }.
Definition psection_cells (a : args) (s : str * (Z * Z)) (r : list str) : Prop :=
  exists name used pct, r = [list_ascii_of_string "   " ++ name; used; pct; []; []] /\ shown_section a (fst s) name /\
    cell_text (given (a_diff a)) (snd s) used.
(** value and difference of a column *)
Definition pg_value (i : nat) (g : pgroup) : Z * Z :=
  match i with
  | 1%nat => pg_used g
  | 3%nat => (if fst (pg_total g) =? 0 then 0 else fst (pg_total g) - fst (pg_used g), snd (pg_total g) - snd (pg_used g))
  | _ => pg_total g
  end.
Definition pgroup_rows (a : args) (g : pgroup) (rows : list (list str)) : Prop :=
  exists used pct remain total rest, rows = [pg_type g; used; pct; remain; total] :: rest /\
    cell_text (given (a_diff a)) (pg_used g) used /\
    (if fst (pg_total g) =? 0 then pct = [] /\ remain = [] /\ total = []
     else cell_text (given (a_diff a)) (pg_value 3 g) remain /\ cell_text (given (a_diff a)) (pg_total g) total) /\
    Forall2 (psection_cells a) (pg_sections g) rest.

(** ** reports on archives ([files] = false) and on object files *)
Definition asked (files : bool) (a : args) : Prop :=
  if files then a_archives a = false /\ given (a_archive_details a) = false /\ a_files a = true else a_archives a = true.
(** what a row is about: the archive or the object file of an input section *)
Definition row_key (files : bool) (i : item) : str := if files then it_archive i ++ ":"%char :: it_object i else it_archive i.
Definition row_file (files : bool) (i : item) : str := if files then it_object i else it_archive i.
Definition row_own (files : bool) (i : item) : item -> bool := if files then of_object (it_archive i) (it_object i) else of_archive (it_archive i).
Definition places (i : item) (k : account) : Prop := placed (ac_im k) (ac_l k) i.
Definition tells_files (files : bool) (k : account) (r : option account) : Prop :=
  files = true -> forall i, present k r (places i) -> ~ In ":"%char (it_object i).

(** an entry with its values for every memory type and every section that is listed *)
Record entry_right (k : account) (r : option account) (a : args) (own : item -> bool) (e : sentry) : Prop := {
  er_size : measured k r (own_bytes own ColTotal) (se_size e, se_diff e);
  er_types_once : NoDup (map fst (se_types e));
  er_types : forall T, In T (map fst (se_types e)) <-> present k r (lists_type a T);
  er_type : forall T st, In (T, st) (se_types e) -> measured k r (own_bytes own (ColType T)) (st_size st, st_diff st);
  er_sections_once : forall T st, In (T, st) (se_types e) -> NoDup (map fst (st_sections st));
  er_sections : forall T st N, In (T, st) (se_types e) -> In N (map fst (st_sections st)) <-> present k r (lists_section T N);
  er_section : forall T st N q, In (T, st) (se_types e) -> In (N, q) (st_sections st) -> measured k r (own_bytes own (ColSect T N)) (ss_size q, ss_diff q);
  er_label : forall T st N q, In (T, st) (se_types e) -> In (N, q) (st_sections st) -> label [N] (ss_abbrev q) }.
Definition entries_right (files : bool) (k : account) (r : option account) (a : args) (rows : dict str sentry) : Prop :=
  NoDup (map fst rows) /\
  (forall n, In n (map fst rows) <-> exists i v, present k r (places i) /\ n = row_key files i /\
     measured k r (own_bytes (row_own files i) ColTotal) v /\ differs a v) /\
  forall n e, In (n, e) rows -> exists i, present k r (places i) /\ n = row_key files i /\
    after_last "/"%char (row_file files i) (se_abbrev e) /\ entry_right k r a (row_own files i) e.
(** the rows, the memory types of each and the sections of each are in the order that is asked for *)
Definition entries_sorted (a : args) (rows : dict str sentry) : Prop :=
  let key := pick (a_sort_diff a) in let le := in_order (a_sort_reverse a) in
  StronglySorted (fun x y => le (key (se_size (snd x), se_diff (snd x))) (key (se_size (snd y), se_diff (snd y)))) rows /\
  Forall (fun x => StronglySorted (fun y z => le (key (st_size (snd y), st_diff (snd y))) (key (st_size (snd z), st_diff (snd z)))) (se_types (snd x)) /\
    Forall (fun y => StronglySorted (fun z w => le (key (ss_size (snd z), ss_diff (snd z))) (key (ss_size (snd w), ss_diff (snd w)))) (st_sections (snd y))) (se_types (snd x))) rows.

(** the columns of the table: all bytes, then each memory type with its sections *)
Definition columns (groups : list (str * list str)) : list col :=
  ColTotal :: flat_map (fun g => ColType (fst g) :: map (ColSect (fst g)) (snd g)) groups.
Definition columns_right (k : account) (r : option account) (a : args) (groups : list (str * list str)) : Prop :=
  NoDup (map fst groups) /\ (forall T, In T (map fst groups) <-> present k r (lists_type a T)) /\
  forall T Ns, In (T, Ns) groups -> NoDup Ns /\ forall N, In N Ns <-> present k r (lists_section T N).
Definition column_title (a : args) (c : col) (s : str) : Prop :=
  match c with
  | ColTotal => s = list_ascii_of_string "Total Size"
  | ColType T => s = T
  | ColSect _ N => shown_section a N s
  end.
(** the name of a row as it is shown, and whether --filter selects it *)
Definition shown_name (files : bool) (a : args) (i : item) (s : str) : Prop :=
  if a_no_abbrev a then s = row_key files i else after_last "/"%char (row_file files i) s.
Definition asked_filter (a : args) (ps : option (list (list SpecFilter.piece))) : Prop :=
  match ps with
  | None => a_filter a = None
  | Some l => a_filter a = Some (map show_pattern l) /\ Forall (Forall fine_piece) l
  end.
Definition selected (ps : option (list (list SpecFilter.piece))) (s : str) : Prop :=
  match ps with None => True | Some l => exists p, In p l /\ contains_pattern p s end.
(** the rows of the table *)
Definition table_row (files : bool) (k : account) (r : option account) (a : args) (cs : list col) (i : item) (row : list str) : Prop :=
  exists name cells, row = name :: cells /\ shown_name files a i name /\
    Forall2 (fun c s => exists v, measured k r (own_bytes (row_own files i) c) v /\ cell_text (given (a_diff a)) v s) cs cells.
Definition table_items (files : bool) (k : account) (r : option account) (a : args) (ps : option (list (list SpecFilter.piece))) (is : list item) : Prop :=
  NoDup (map (row_key files) is) /\ Forall (fun i => present k r (places i)) is /\
  forall n, In n (map (row_key files) is) <-> exists i v s, present k r (places i) /\ n = row_key files i /\
    measured k r (own_bytes (row_own files i) ColTotal) v /\ differs a v /\ shown_name files a i s /\ selected ps s.
