(** * Properties C53-C57 and C70-C72: tables, CSV, JSON, tree *)
From Coq Require Import Ascii String List ZArith Bool Lia Sorting.Permutation Sorting.Sorted.
From Verif Require Import Base PyStr MemMap SpecTree SpecOps Filter Deps Table Formats SpecTable SpecDeps Fixtures ProofTable ProofTable2 ProofTable3 ProofFormats.
Import ListNotations.
Open Scope list_scope.
Open Scope Z_scope.

Definition args_sort (s : string) (sd rev : bool) (a : args) : args :=
  Args (a_format a) (a_archives a) (a_archive_dependencies a) (a_dep_symbols a) (a_dep_reverse a)
       (a_archive_details a) (a_files a) (a_diff a) (a_no_abbrev a) (a_abbrev a) (a_unify a)
       (a_show_unused a) (a_show_unchanged a) (a_use_flash_size a) (a_use_dwarf a) (a_output_file a)
       (list_ascii_of_string s) (a_filter a) sd rev.
Definition tx (s : string) : str := list_ascii_of_string s.

(** ** C53 *)

(** a title and a cell for every column; the cell shows the value of the column *)
Theorem c53_columns : forall m a first d tb, wf_map m -> is_report m a first d (TOk tb) -> d <> [] ->
  tb_headers tb = titles m a first /\ exists rows, Permutation d rows /\ Forall2 (row_shows m a) rows (tb_rows tb).
Proof.
  intros m a first d tb W R NE. destruct (report_shows m a first d tb W R NE) as (H & i & c & rows & _ & _ & P & F & _). eauto.
Qed.
Print Assumptions c53_columns.

Theorem c53_width : forall m a first d tb, wf_map m -> is_report m a first d (TOk tb) ->
  Forall (fun r => length r = length (tb_headers tb)) (tb_rows tb).
Proof. exact report_width. Qed.
Print Assumptions c53_width.

(** and that value is the one of the map: for archives always ... *)
Theorem c53_archive_values : forall m a x e c, wf_map m -> In (x, e) (get_summary_filtered (get_archives_summary m a) a) -> In c (cols m) ->
  col_value e c = entry_value m (fun t s => look m t [s; x]) c.
Proof. exact archive_values. Qed.
Print Assumptions c53_archive_values.

(** ... for object files and symbols if their full names identify them (see C43, C44) *)
Theorem c53_object_values_partial : forall m a n e c, wf_map m -> inj_objects m -> a_unify a = false ->
  In (n, e) (get_summary_filtered (get_object_files_summary m a) a) -> In c (cols m) ->
  exists x o, n = colon [x; o] /\ col_value e c = entry_value m (fun t s => look m t [s; x; o]) c.
Proof. exact object_values. Qed.
Print Assumptions c53_object_values_partial.

Theorem c53_symbol_values_partial : forall m a d rows n e c, wf_map m -> inj_symbols m -> a_unify a = false -> a_archive_details a = Some d -> get_symbols_summary m a = Ok rows ->
  In (n, e) (get_summary_filtered rows a) -> In c (cols m) ->
  exists x o y, n = colon [x; o; y] /\ col_value e c = entry_value m (fun t s => sym_val m d t s x o y) c.
Proof. exact symbol_values. Qed.
Print Assumptions c53_symbol_values_partial.

Definition tx_args : args := args_sort "1" false true ex_args.
Example c53_example : wf_map ex_cur /\ exists d tb, is_report ex_cur tx_args (tx "Archive File") d (TOk tb) /\ d <> [] /\
  tb_headers tb = path ["Archive File"; "Total Size"; "DRAM"; ".data"; ".bss"; "Flash Code"; ".text"] /\
  tb_rows tb = [path ["libmain.a"; "44"; "4"; "0"; "4"; "40"; "40"]; path ["liblog.a"; "30"; "30"; "12"; "18"; "0"; "0"]].
Proof.
  split; [exact ex_cur_wf|]. eexists. eexists. split; [left; split; [reflexivity|split; [reflexivity|vm_compute; reflexivity]]|].
  split; [vm_compute; discriminate|]. split; vm_compute; reflexivity.
Qed.
Example c53_diff_example : wf_map (diff ex_cur ex_ref) /\ exists d tb, is_report (diff ex_cur ex_ref) (args_diff tx_args) (tx "Object File") d (TOk tb) /\ d <> [] /\
  In (path ["log.c.obj"; "28    +14"; "28    +14"; "12    +12"; "16     +5"; "0     -3"; "0      0"; "0      0"; "0      0"; "0      0"]) (tb_rows tb).
Proof.
  split; [apply wf_mapb_ok; vm_compute; reflexivity|]. eexists. eexists. split; [right; left; split; [reflexivity|split; [reflexivity|vm_compute; reflexivity]]|].
  split; [vm_compute; discriminate|]. vm_compute. tauto.
Qed.

(** ** C54 *)

(** full statement: accepted are exactly the numbers 1..n, -1..-n and the titles.  Proved
    for tables with rows and without the title of the first column. *)
Theorem c54_accepts_partial : forall m a first d t, wf_map m -> is_report m a first d t -> d <> [] ->
  (exists tb, t = TOk tb) <-> (exists i, names_column (titles m a first) (a_sort a) i).
Proof. exact report_accepts. Qed.
Print Assumptions c54_accepts_partial.

Theorem c54_accepts_summary : forall pf m a, (exists tb, get_summary_table pf m a = TOk tb) <-> exists i, names_column usage_headers (a_sort a) i.
Proof. exact summary_table_accepts. Qed.
Print Assumptions c54_accepts_summary.

(** a column is named in one way only; numbers and titles name columns *)
Theorem c54_one_column : forall l arg i j, names_column l arg i -> names_column l arg j -> i = j.
Proof. exact names_column_unique. Qed.
Print Assumptions c54_one_column.
Theorem c54_by_number : forall l z s, written s z -> 1 <= Z.abs z < Z.of_nat (length l) ->
  names_column l s (Z.to_nat (if 0 <? z then z else Z.of_nat (length l) + z)).
Proof. exact named_by_number. Qed.
Print Assumptions c54_by_number.
Theorem c54_by_title : forall l i s c, nth_error l (S i) = Some s -> In c s -> number_char c = false -> (forall j, (j < S i)%nat -> nth_error l j <> Some s) ->
  names_column l s (S i).
Proof. exact named_by_title. Qed.
Print Assumptions c54_by_title.

(** the error that is given *)
Theorem c54_refuses : forall m a first d e, wf_map m -> is_report m a first d (TDie e) -> d <> [] ->
  match e with
  | NoColumn s => s = a_sort a /\ ~ In s (titles m a first) /\ py_int10 s = None
  | DescriptionColumn => py_int10 (a_sort a) = Some 0 \/ (a_sort a = first /\ py_int10 first = None)
  | OutOfRange z lo hi nlo nhi =>
      let n := Z.of_nat (length (cols m)) in
      py_int10 (a_sort a) = Some z /\ ~ (- n <= z <= n) /\ lo = 1 /\ hi = n - 1 /\ nlo = - n /\ nhi = -1
  end.
Proof. exact report_refuses. Qed.
Print Assumptions c54_refuses.

(** the message leaves out an accepted number ... *)
Theorem c54_message_refuted : exists m a a' first d d' z lo hi nlo nhi ok,
  wf_map m /\ is_report m a first d (TDie (OutOfRange z lo hi nlo nhi)) /\
  a_sort a' = show_Z (hi + 1) /\ is_report m a' first d' (TOk ok).
Proof.
  exists ex_cur, (args_sort "9" false true ex_args), (args_sort "6" false true ex_args), (tx "Archive File"). do 8 eexists.
  split; [exact ex_cur_wf|]. split; [left; split; [reflexivity|split; [reflexivity|vm_compute; reflexivity]]|].
  split; [vm_compute; reflexivity|]. left; split; [reflexivity|split; [reflexivity|vm_compute; reflexivity]].
Qed.
Print Assumptions c54_message_refuted.

(** ... the title of the first column is refused ... *)
Theorem c54_first_title_refuted : exists m a first d t, wf_map m /\ is_report m a first d t /\ d <> [] /\
  In (a_sort a) (titles m a first) /\ t = TDie DescriptionColumn.
Proof.
  exists ex_cur, (args_sort "Archive File" false true ex_args), (tx "Archive File"). do 2 eexists.
  split; [exact ex_cur_wf|]. split; [left; split; [reflexivity|split; [reflexivity|reflexivity]]|].
  split; [vm_compute; discriminate|]. split; [now left|vm_compute; reflexivity].
Qed.
Print Assumptions c54_first_title_refuted.

(** ... and in an empty table any number is accepted *)
Theorem c54_empty_refuted : exists m a first tb, wf_map m /\ is_report m a first [] (TOk tb) /\
  forall i, ~ names_column (titles m a first) (a_sort a) i.
Proof.
  exists ex_cur, (args_sort "99" false true (args_filter ["nothing"] ex_args)), (tx "Archive File"). eexists.
  split; [exact ex_cur_wf|]. split; [left; split; [reflexivity|split; [vm_compute; reflexivity|vm_compute; reflexivity]]|].
  intros i [(z & E & H & B)|(E & _)]; [|discriminate]. vm_compute in E. injection E as <-.
  assert (L : (length (titles ex_cur (args_sort "99" false true (args_filter ["nothing"] ex_args)) (tx "Archive File")) = 7)%nat) by reflexivity.
  rewrite L in *. lia.
Qed.
Print Assumptions c54_empty_refuted.

Example c54_example : names_column (titles ex_cur ex_args (tx "Archive File")) (tx ".bss") 4 /\ names_column (titles ex_cur ex_args (tx "Archive File")) (tx "-6") 1 /\
  exists d tb, is_report ex_cur (args_sort ".bss" false true ex_args) (tx "Archive File") d (TOk tb).
Proof.
  split; [|split].
  - apply (named_by_title _ 3 _ "b"%char); [reflexivity|cbn; tauto|reflexivity|].
    intros [|[|[|[|j]]]] L; try lia; vm_compute; discriminate.
  - refine (named_by_number (titles ex_cur ex_args (tx "Archive File")) (-6) (tx "-6") (show_Z_written (-6)) _).
    change (length _) with 7%nat. lia.
  - eexists. eexists. left. split; [reflexivity|]. split; [reflexivity|vm_compute; reflexivity].
Qed.

(** ** C55 *)

(** archives, files and symbols: rows are in order of the value in the named column *)
Theorem c55_reports : forall m a first d tb, wf_map m -> is_report m a first d (TOk tb) -> d <> [] ->
  exists i c rows, names_column (titles m a first) (a_sort a) (S i) /\ nth_error (cols m) i = Some c /\
    Permutation d rows /\ Forall2 (row_shows m a) rows (tb_rows tb) /\
    StronglySorted (fun x y => in_order (a_sort_reverse a) (pick (a_sort_diff a) (col_value (snd x) c)) (pick (a_sort_diff a) (col_value (snd y) c))) rows.
Proof. intros m a first d tb W R NE. exact (proj2 (report_shows m a first d tb W R NE)). Qed.
Print Assumptions c55_reports.

(** the summary: its memory types and sections, each followed by its sections, in order of
    the value in the named column.  Missing: the percent column (2). *)
Theorem c55_summary_partial : forall pf m a tb, get_summary_table pf m a = TOk tb ->
  tb_headers tb = usage_headers /\
  exists i groups, names_column usage_headers (a_sort a) i /\
    Permutation (m_types (trim m a)) (map fst groups) /\
    Forall (fun g => Permutation (t_sections (snd (fst g))) (snd g)) groups /\
    (exists rows, tb_rows tb = concat rows /\ Forall2 (shown_type a) groups rows) /\
    (i <> 2%nat ->
      StronglySorted (fun x y => in_order (a_sort_reverse a) (pick (a_sort_diff a) (type_value i (snd x))) (pick (a_sort_diff a) (type_value i (snd y)))) (map fst groups) /\
      Forall (fun g => StronglySorted (fun x y => in_order (a_sort_reverse a) (pick (a_sort_diff a) (sect_value i (snd x))) (pick (a_sort_diff a) (sect_value i (snd y)))) (snd g)) groups).
Proof. exact summary_table_shows. Qed.
Print Assumptions c55_summary_partial.

(** by percent, the smaller of two sections comes first in descending order: only whole
    percents are compared *)
Definition ex_percent : memmap := mk_map "esp32" 0
  [ mk_type "DRAM" 1000
      [ mk_sect ".dram0.data" ".data" [ mk_arch "a/liba.a" "liba.a" [ mk_obj "a.c.obj" [("x", 102)] ] ];
        mk_sect ".dram0.bss" ".bss" [ mk_arch "a/liba.a" "liba.a" [ mk_obj "a.c.obj" [("y", 109)] ] ] ] ].
Theorem c55_percent_refuted : exists m a t T n1 s1 n2 s2, wf_map m /\ a_sort a = tx "2" /\ a_sort_reverse a = true /\ a_sort_diff a = false /\
  dget t (m_types m) = Some T /\ dget n1 (t_sections T) = Some s1 /\ dget n2 (t_sections T) = Some s2 /\
  (* percent of the same total *) t_size T <> 0 /\ n_size s1 < n_size s2 /\
  forall pf, exists tb l1 l2 l3, get_summary_table pf m a = TOk tb /\
    map (fun r => hd [] r) (tb_rows tb) = l1 ++ (tx "   " ++ n_abbrev s1) :: l2 ++ (tx "   " ++ n_abbrev s2) :: l3.
Proof.
  exists ex_percent, (args_sort "2" false true ex_args), (tx "DRAM"). eexists. exists (tx ".dram0.data"). eexists. exists (tx ".dram0.bss"). eexists.
  split; [apply wf_mapb_ok; vm_compute; reflexivity|]. do 3 (split; [reflexivity|]).
  split; [vm_compute; reflexivity|]. split; [vm_compute; reflexivity|]. split; [vm_compute; reflexivity|].
  split; [vm_compute; discriminate|]. split; [vm_compute; reflexivity|].
  intro pf. eexists. exists [tx "DRAM"], [], []. split; [vm_compute; reflexivity|]. vm_compute. reflexivity.
Qed.
Print Assumptions c55_percent_refuted.

Example c55_example : forall pf, exists tb, get_summary_table pf ex_cur (args_sort "Remain [bytes]" false false ex_args) = TOk tb /\
  map (fun r => hd [] r) (tb_rows tb) = path ["DRAM"; "   .data"; "   .bss"; "Flash Code"; "   .text"] /\
  map (fun r => nth 3 r []) (tb_rows tb) = path ["966"; ""; ""; "4056"; ""].
Proof. intro pf. eexists. split; [vm_compute; reflexivity|]. split; vm_compute; reflexivity. Qed.

(** ** C56 *)

(** full statement: for every table.  Proved for texts without double quotes; blanks around
    the text of a cell (the indentation of section names) are dropped. *)
Theorem c56_read_back_partial : forall t, plain_table t -> csv_records (csv_text t) = tb_headers t :: map (map strip) (tb_rows t).
Proof. exact csv_reads. Qed.
Print Assumptions c56_read_back_partial.

(** not for the operator of a C++ user-defined literal *)
Definition ex_literal : memmap := mk_map "esp32" 0
  [ mk_type "Flash Code" 1000
      [ mk_sect ".flash.text" ".text" [ mk_arch "a/liba.a" "liba.a" [ mk_obj "a.cpp.obj" [("operator"""" _ms(unsigned long long)", 12)] ] ] ] ].
Theorem c56_quotes_refuted : exists m a tb, wf_map m /\ get_symbols_table m a = Ok (TOk tb) /\
  csv_records (csv_text tb) <> tb_headers tb :: map (map strip) (tb_rows tb).
Proof.
  exists ex_literal, (args_details "liba.a" tx_args). eexists. split; [apply wf_mapb_ok; vm_compute; reflexivity|].
  split; [vm_compute; reflexivity|]. vm_compute. discriminate.
Qed.
Print Assumptions c56_quotes_refuted.

Example c56_example : exists tb, get_archives_table ex_cur tx_args = TOk tb /\ plain_table tb /\
  csv_records (csv_text tb) = [path ["Archive File"; "Total Size"; "DRAM"; ".data"; ".bss"; "Flash Code"; ".text"];
    path ["libmain.a"; "44"; "4"; "0"; "4"; "40"; "40"]; path ["liblog.a"; "30"; "30"; "12"; "18"; "0"; "0"]].
Proof.
  eexists. split; [vm_compute; reflexivity|]. split; [|vm_compute; reflexivity].
  split; [discriminate|]. split; cbn [tb_headers tb_rows]; repeat constructor; try discriminate; intro I; cbn in I; decompose [or] I; try discriminate; contradiction.
Qed.

(** ** C57 *)

(** the memory types in order, with free bytes; the parts are the sections and add up if
    no two sections of the type are shown by the same name *)
Theorem c57_summary_partial : forall m a, exists types, Permutation (m_types m) types /\
  StronglySorted (fun x y => in_order (a_sort_reverse a) (tkey a (snd x)) (tkey a (snd y))) types /\
  js_total_size (json_summary m a) = m_image_size m /\
  Forall2 (fun kv j => j_name j = fst kv /\ j_total j = t_size (snd kv) /\ j_used j = t_used (snd kv) /\
     j_free j = (if t_size (snd kv) =? 0 then 0 else j_total j - j_used j) /\
     (NoDup (map (fun s : str * sect => if a_abbrev a then n_abbrev (snd s) else fst s) (t_sections (snd kv))) ->
      Permutation (map (fun s : str * sect => (if a_abbrev a then n_abbrev (snd s) else fst s, n_size (snd s))) (t_sections (snd kv))) (j_parts j) /\
      zsumf snd (j_parts j) = zsumf (fun s => n_size (snd s)) (t_sections (snd kv))))
    types (js_layout (json_summary m a)).
Proof. exact json_layout. Qed.
Print Assumptions c57_summary_partial.

(** two sections with one abbreviated name: the parts do not add up to 'used' *)
Theorem c57_parts_refuted : exists m a t T j, wf_map m /\ dget t (m_types m) = Some T /\
  t_used T = zsumf (fun s => n_size (snd s)) (t_sections T) /\
  In j (js_layout (json_summary m a)) /\ j_name j = t /\ zsumf snd (j_parts j) <> j_used j.
Proof.
  exists ex_ref, ex_args, (tx "DRAM"). do 2 eexists. split; [exact ex_ref_wf|]. split; [vm_compute; reflexivity|].
  split; [vm_compute; reflexivity|]. split; [vm_compute; left; reflexivity|]. split; [vm_compute; reflexivity|]. vm_compute. discriminate.
Qed.
Print Assumptions c57_parts_refuted.

Example c57_example : map (fun j => (j_name j, j_total j, j_used j, j_free j, zsumf snd (j_parts j))) (js_layout (json_summary ex_cur ex_args)) =
  [(tx "Flash Code", 4096, 40, 4056, 40); (tx "DRAM", 1000, 34, 966, 34)].
Proof. vm_compute. reflexivity. Qed.

(** ** C70 *)

(** full statement: the difference of remaining bytes in the summary is that of the two
    projects' summaries.  Proved if both know the size of the memory type. *)
Theorem c70_remain_partial : forall cur ref t T, wf_map ref -> dget t (m_types (diff cur ref)) = Some T -> type_size_at ref t <> 0 -> type_size_at cur t <> 0 ->
  u_remain (type_usage T) = type_size_at cur t - type_used_at cur t /\
  u_remain_diff (type_usage T) = (type_size_at cur t - type_used_at cur t) - (type_size_at ref t - type_used_at ref t).
Proof. exact remain_diff_ok. Qed.
Print Assumptions c70_remain_partial.

Definition ex_unknown_size : memmap := mk_map "esp32" 0
  [ mk_type "DRAM" 0 [ mk_sect ".dram0.data" ".data" [ mk_arch "a/liba.a" "liba.a" [ mk_obj "a.c.obj" [("x", 34)] ] ] ] ].
Theorem c70_remain_refuted : exists cur ref t C R T, wf_map cur /\ wf_map ref /\
  dget t (m_types cur) = Some C /\ dget t (m_types ref) = Some R /\ dget t (m_types (diff cur ref)) = Some T /\ t_size T <> 0 /\
  u_remain_diff (type_usage T) <> u_remain (type_usage C) - u_remain (type_usage R).
Proof.
  exists ex_cur, ex_unknown_size, (tx "DRAM"). do 3 eexists. split; [exact ex_cur_wf|]. split; [apply wf_mapb_ok; vm_compute; reflexivity|].
  split; [vm_compute; reflexivity|]. split; [vm_compute; reflexivity|]. split; [vm_compute; reflexivity|]. split; vm_compute; discriminate.
Qed.
Print Assumptions c70_remain_refuted.

Example c70_example : type_size_at ex_ref (tx "DRAM") <> 0 /\ type_size_at ex_cur (tx "DRAM") <> 0 /\
  option_map (fun T => u_remain_diff (type_usage T)) (dget (tx "DRAM") (m_types (diff ex_cur ex_ref))) = Some 87.
Proof. split; [vm_compute; discriminate|]. split; [vm_compute; discriminate|]. vm_compute. reflexivity. Qed.

(** ** C71 *)

(** the lines of the tree are the memory types and, below each, its entries in order, at
    the depth of their path *)
Theorem c71_tree : forall m a, exists lines, tree_lines m a = (0%nat, list_ascii_of_string "Memory Types") :: concat lines /\
  Forall2 (fun kv ls => exists l r, ls = l :: r /\ tree_type_line a kv l /\ Forall2 (tree_line a) (ents_type (snd kv)) r)
    (m_types (sort (trim m a) a)) lines.
Proof. exact tree_ok. Qed.
Print Assumptions c71_tree.

Example c71_example : tree_lines ex_cur (args_archives tx_args) =
  [(0%nat, tx "Memory Types"); (1%nat, tx "Flash Code 40 / 4096"); (2%nat, tx ".text 40"); (3%nat, tx "libmain.a 40");
   (1%nat, tx "DRAM 34 / 1000"); (2%nat, tx ".bss 22"); (3%nat, tx "liblog.a 18"); (3%nat, tx "libmain.a 4");
   (2%nat, tx ".data 12"); (3%nat, tx "liblog.a 12")].
Proof. vm_compute. reflexivity. Qed.

(** ** C72 *)

(** the dependency table can be read back: a row with a size starts an archive *)
Theorem c72_read_back : forall a deps, exists gs,
  dep_groups (tb_rows (dependencies_table a deps)) = ([], gs) /\
  Forall2 (dep_group_is a) (filter (fun kv => match da_archives (snd kv) with [] => false | _ => true end) deps) gs.
Proof. exact dep_table_groups. Qed.
Print Assumptions c72_read_back.

Definition ex_deps : dict str darch :=
  [ (tx "a/liba.a", DArch (tx "liba.a") 10 [(tx "b/libb.a", DEnt (tx "libb.a") 20 [tx "f"; tx "g"]); (tx "c/libc.a", DEnt (tx "libc.a") 5 [tx "h"])]);
    (tx "c/libc.a", DArch (tx "libc.a") 5 []);
    (tx "b/libb.a", DArch (tx "libb.a") 20 [(tx "c/libc.a", DEnt (tx "libc.a") 5 [tx "malloc"])]) ].
Definition dep_args : args := Args FTable false true true false None false None false true false false false false None None
       (list_ascii_of_string "1") None false true.
Example c72_example : dep_groups (tb_rows (dependencies_table dep_args ex_deps)) =
  ([], [(tx "liba.a", tx "10", [[tx "libb.a"; tx "20"; tx "f" ++ newline :: tx "g"]; path ["libc.a"; "5"; "h"]]);
        (tx "libb.a", tx "20", [path ["libc.a"; "5"; "malloc"]])]) /\
  lines_of (tx "f" ++ newline :: tx "g") = path ["f"; "g"].
Proof. split; vm_compute; reflexivity. Qed.
