(** * Property C109: the percent column; C55 for the percent column *)
From Coq Require Import Ascii String List ZArith QArith Qabs Bool Lia Sorting.Permutation Sorting.Sorted.
From Verif Require Import Base PyStr MemMap SpecTree SpecOps Filter Deps Table Formats SpecTable Fixtures PropTable Markup Text SpecText Main SpecMain Percent SpecPercent ProofPercent3 ProofPercent4.
Import ListNotations.
Open Scope list_scope.
Open Scope Z_scope.

(** ** C109 *)

(** the cells of the percent column: one of the numbers with two digits that are nearest to
    the percentage, with the difference to the percentage of the reference if asked for *)
Theorem c109_percent_column : forall m a tb, get_summary_table (plain_pct python_floats) m a = TOk tb -> Forall (fun kv => moderate_type (snd kv)) (m_types (trim m a)) ->
  exists groups rows, Permutation (m_types (trim m a)) (map fst groups) /\ Forall (fun g => Permutation (t_sections (snd (fst g))) (snd g)) groups /\
    tb_rows tb = concat rows /\ Forall2 (shown_type a) groups rows /\ Forall2 (percents a) groups rows.
Proof.
  intros m a tb H M. destruct (percent_column m a tb H M) as (i & groups & _ & P & Q & (rows & R) & _). now exists groups, rows.
Qed.
Print Assumptions c109_percent_column.

(** a percentage that did not change is shown with the difference 0.0; the cells are those of
    a comparison of a project with itself, see C37 *)
Theorem c109_unchanged : forall c, zero_cell (plain_pct python_floats) c -> c = [] \/ (exists z, cell_text true (z, 0) c) \/ exists n, c = n ++ tx "    0.0".
Proof. exact zero_cell_shown. Qed.
Print Assumptions c109_unchanged.

(** C98 for these texts: the coloured table shows this table *)
Theorem c109_coloured : forall normalize m a,
  match color_summary python_floats m a, get_summary_table (plain_pct python_floats) m a with
  | TOk t', TOk t => rows_plain t -> table_shown_as normalize t' t /\ Forall2 (shown_as normalize) (csv_lines t') (csv_lines t)
  | TDie e', TDie e => e' = e
  | _, _ => False
  end.
Proof. intros nm m a. exact (ProofText3.summary_shown nm python_floats m a python_texts). Qed.
Print Assumptions c109_coloured.

Definition pc_map : memmap := mk_map "esp32" 0
  [ mk_type "DRAM" 100
      [ mk_sect ".dram0.data" ".data" [ mk_arch "a/liba.a" "liba.a" [ mk_obj "a.c.obj" [("x"%string, 28)] ] ];
        mk_sect ".dram0.bss" ".bss" [ mk_arch "a/liba.a" "liba.a" [ mk_obj "a.c.obj" [("y"%string, 29)] ] ] ];
    mk_type "IRAM" 700 [ mk_sect ".iram0.text" ".text" [ mk_arch "a/liba.a" "liba.a" [ mk_obj "a.c.obj" [("f"%string, 400)] ] ] ];
    mk_type "RTC" 0 [ mk_sect ".rtc.text" ".text" [ mk_arch "a/liba.a" "liba.a" [ mk_obj "a.c.obj" [("g"%string, 4)] ] ] ] ].
Definition pc_ref : memmap := mk_map "esp32" 0
  [ mk_type "DRAM" 100 [ mk_sect ".dram0.data" ".data" [ mk_arch "a/liba.a" "liba.a" [ mk_obj "a.c.obj" [("x"%string, 28)] ] ] ];
    mk_type "IRAM" 700 [ mk_sect ".iram0.text" ".text" [ mk_arch "a/liba.a" "liba.a" [ mk_obj "a.c.obj" [("f"%string, 402)] ] ] ] ].
Definition moderateb (z : Z) : bool := Z.abs z <? 2 ^ 35.
Definition moderate_typeb (t : mtype) : bool :=
  moderateb (t_used t) && (moderateb (t_size t) && (moderateb (t_used t - t_used_diff t) && (moderateb (t_size t - t_size_diff t) &&
  forallb (fun kv => moderateb (n_size (snd kv)) && moderateb (n_size (snd kv) - n_diff (snd kv))) (t_sections t)))).
Lemma moderate_ok d : forallb (fun kv : str * mtype => moderate_typeb (snd kv)) d = true -> Forall (fun kv => moderate_type (snd kv)) d.
Proof.
  intros H. rewrite forallb_forall in H. apply Forall_forall. intros kv I. specialize (H kv I). unfold moderate_typeb, moderateb in H. rewrite !andb_true_iff, !Z.ltb_lt, forallb_forall in H.
  destruct H as (A & B & C & D & E). unfold moderate_type, moderate. do 4 (split; [assumption|]). apply Forall_forall. intros x J. specialize (E x J). rewrite andb_true_iff, !Z.ltb_lt in E. exact E.
Qed.
Ltac moderately := apply moderate_ok; vm_compute; reflexivity.
Example c109_example : exists tb, get_summary_table (plain_pct python_floats) pc_map (args_sort "1" false true ex_args) = TOk tb /\
  Forall (fun kv => moderate_type (snd kv)) (m_types (trim pc_map (args_sort "1" false true ex_args))) /\
  map (fun r => nth 2 r []) (tb_rows tb) = path ["57.14"; "57.14"; "57.0"; "29.0"; "28.0"; ""; ""].
Proof. eexists. split; [vm_compute; reflexivity|]. split; [moderately|vm_compute; reflexivity]. Qed.
Example c109_diff_example : exists tb, get_summary_table (plain_pct python_floats) (diff pc_map pc_ref) (args_diff (args_sort "1" false true ex_args)) = TOk tb /\
  Forall (fun kv => moderate_type (snd kv)) (m_types (trim (diff pc_map pc_ref) (args_diff (args_sort "1" false true ex_args)))) /\
  map (fun r => nth 2 r []) (tb_rows tb) = path ["57.14  -0.29"; "57.14  -0.29"; "57.0  +29.0"; "29.0  +29.0"; ""; ""].
Proof. eexists. split; [vm_compute; reflexivity|]. split; [moderately|vm_compute; reflexivity]. Qed.
Example c109_unchanged_example : zero_cell (plain_pct python_floats) (tx "57.14    0.0").
Proof. right. right. exists (percent 400 700). vm_compute. reflexivity. Qed.

(** ** C55, the percent column *)

(** Missing: rows whose percentages differ by less than one (two if one is negative) may be in
    any order, since whole percents are compared *)
Theorem c55_percent_order_partial : forall m a tb, get_summary_table (plain_pct python_floats) m a = TOk tb -> Forall (fun kv => moderate_type (snd kv)) (m_types (trim m a)) ->
  names_column usage_headers (a_sort a) 2 ->
  exists groups, Permutation (m_types (trim m a)) (map fst groups) /\ Forall (fun g => Permutation (t_sections (snd (fst g))) (snd g)) groups /\
    (exists rows, tb_rows tb = concat rows /\ Forall2 (shown_type a) groups rows) /\
    StronglySorted (types_by_percent a) (map fst groups) /\ Forall (fun g => StronglySorted (sects_by_percent a (snd (fst g))) (snd g)) groups.
Proof.
  intros m a tb H M N. destruct (percent_column m a tb H M) as (i & groups & NC & P & Q & (rows & R & S & _) & O).
  destruct (O (ProofTable3.names_column_unique _ _ _ _ NC N)) as (O1 & O2). exists groups. repeat (split; [assumption|]). split; [now exists rows|]. now split.
Qed.
Print Assumptions c55_percent_order_partial.

(** even whole percents: 28.0 is shown before 29.0 in descending order, since 29/100*100 is
    a little less than 29 *)
Theorem c55_whole_percents_refuted : exists m a tb l1 l2 r1 r2, wf_map m /\ a_sort a = tx "2" /\ a_sort_reverse a = true /\ a_sort_diff a = false /\
  get_summary_table (plain_pct python_floats) m a = TOk tb /\ tb_rows tb = l1 ++ r1 :: r2 :: l2 /\
  nth 2 r1 [] = tx "28.0" /\ nth 2 r2 [] = tx "29.0".
Proof.
  exists pc_map, (args_sort "2" false true ex_args). eexists. eexists [_; _; _], [_; _]. eexists. eexists.
  split; [apply wf_mapb_ok; vm_compute; reflexivity|]. do 3 (split; [reflexivity|]).
  split; [vm_compute; reflexivity|]. split; [vm_compute; reflexivity|]. split; vm_compute; reflexivity.
Qed.
Print Assumptions c55_whole_percents_refuted.

Example c55_percent_order_example : exists tb, get_summary_table (plain_pct python_floats) pc_map (args_sort "2" false true ex_args) = TOk tb /\
  Forall (fun kv => moderate_type (snd kv)) (m_types (trim pc_map (args_sort "2" false true ex_args))) /\
  names_column usage_headers (a_sort (args_sort "2" false true ex_args)) 2.
Proof.
  eexists. split; [vm_compute; reflexivity|]. split; [moderately|]. left. exists 2. split; [vm_compute; reflexivity|]. cbn. lia.
Qed.
