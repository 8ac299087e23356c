(** * Property C150: a comparison of summaries is the difference of the two summaries *)
From Coq Require Import Ascii String List ZArith Lia Bool.
From Verif Require Import Base MemMap SpecTree SpecOps Filter SpecFilter Pipeline SpecPipe SpecBuild SpecBytes SpecShape SpecSyms PyStr MapFile SpecMap FixMap
  ElfRead SpecElf FixElf Project SpecProject FixProject ProofProject2 SpecEnd Chips SpecChips ProofChips Deps Table SpecTable Formats Main SpecMain FixMain Command SpecCommand SpecFail SpecReport SpecMerge SpecAdds SpecSteps SpecCompare SpecCompareUsage
  PropProject PropEnd PropCommand PropFail PropReport PropAdds PropSteps ProofCompareUsage ProofCompareUsage2.
Import ListNotations.
Open Scope list_scope.
Open Scope Z_scope.

Local Notation tx := (fun s => list_ascii_of_string s%string).

(** C150: the summary as a table, as text or as CSV, with or without --unify.  What the comparison
    of two projects says of the used bytes is what one gets by subtracting the summary of the one
    from that of the other *)
Theorem c150_summary : forall d c render encode ord pf,
  of_types (c_args c) -> a_format (c_args c) = FTable \/ a_format (c_args c) = FText \/ a_format (c_args c) = FCsv ->
  forall x y k r o o' o2 fs fs' fs2 s s' s2, summarised d (comparing c x y) k (Some r) ->
  run_files d (get_memory_types chip_info) render encode ord pf (reporting c x) o (start fs) = (Done tt, s) ->
  run_files d (get_memory_types chip_info) render encode ord pf (reporting c y) o' (start fs') = (Done tt, s') ->
  run_files d (get_memory_types chip_info) render encode ord pf (comparing c x y) o2 (start fs2) = (Done tt, s2) ->
  exists new old both, shows_usage (c_args (reporting c x)) s new /\ shows_usage (c_args (reporting c y)) s' old /\ shows_usage (c_args (comparing c x y)) s2 both /\ compares_usage (c_args c) new old both.
Proof. exact summaries_compared. Qed.
Print Assumptions c150_summary.

(** Exchanging the project and its reference gives the same rows, with the opposite differences *)
Theorem c150_summary_turned : forall d c render encode ord pf,
  of_types (c_args c) -> a_format (c_args c) = FTable \/ a_format (c_args c) = FText \/ a_format (c_args c) = FCsv ->
  forall x y k r o o' fs fs' s s', summarised d (comparing c x y) k (Some r) ->
  run_files d (get_memory_types chip_info) render encode ord pf (comparing c x y) o (start fs) = (Done tt, s) ->
  run_files d (get_memory_types chip_info) render encode ord pf (comparing c y x) o' (start fs') = (Done tt, s') ->
  exists gs gs', shows_usage (c_args (comparing c x y)) s gs /\ shows_usage (c_args (comparing c y x)) s' gs' /\ turned_usage gs gs'.
Proof. exact summaries_turned. Qed.
Print Assumptions c150_summary_turned.

(** The differences of two comparisons in a row add up to those of the first project and the last;
    those of sections if all rows are asked for *)
Theorem c150_summary_steps_partial : forall d c render encode ord pf,
  of_types (c_args c) -> a_format (c_args c) = FTable \/ a_format (c_args c) = FText \/ a_format (c_args c) = FCsv ->
  forall x y z k1 k2 k3 o o' o2 fs fs' fs2 s s' s2, summarised d (comparing c x y) k1 (Some k2) -> summarised d (comparing c y z) k2 (Some k3) ->
  run_files d (get_memory_types chip_info) render encode ord pf (comparing c x y) o (start fs) = (Done tt, s) ->
  run_files d (get_memory_types chip_info) render encode ord pf (comparing c y z) o' (start fs') = (Done tt, s') ->
  run_files d (get_memory_types chip_info) render encode ord pf (comparing c x z) o2 (start fs2) = (Done tt, s2) ->
  exists gs gs' all, shows_usage (c_args (comparing c x y)) s gs /\ shows_usage (c_args (comparing c y z)) s' gs' /\ shows_usage (c_args (comparing c x z)) s2 all /\ steps_usage (c_args c) gs gs' all.
Proof. exact summaries_steps. Qed.
Print Assumptions c150_summary_steps_partial.

(** ** example: the two builds of C139, and one with as many bytes as the newest, in other places *)
Definition cu_lines : list str := fx_table ++ fx_head :: map fx [
  ".iram0.vectors  0x40080400        0x8";
  " .vec.a         0x40080400        0x8 lib.a(a.o)";
  "";
  ".iram0.text     0x40080800        0x18";
  " .text.a        0x40080800        0x10 lib.a(a.o)";
  " .text.b        0x40080810        0x8 lib.a(b.o)";
  ""]%string.
Lemma cu_map_ok : printed_map fx_regions [ax_vectors 8; ax_code 16 8] None (splitlines (ax_text cu_lines)).
Proof.
  replace (splitlines (ax_text cu_lines)) with cu_lines by (vm_compute; reflexivity). apply pm_crt_absent; [exact fx_table_ok|t_prefix|].
  change (script_lines [ax_vectors 8; ax_code 16 8] ([] ++ ([fx ".iram0.vectors  0x40080400        0x8"] ++ [] ++ List.concat [[fx " .vec.a         0x40080400        0x8 lib.a(a.o)"]] ++ [fx ""]) ++
    ([] ++ ([fx ".iram0.text     0x40080800        0x18"] ++ [] ++ List.concat [[fx " .text.a        0x40080800        0x10 lib.a(a.o)"]; [fx " .text.b        0x40080810        0x8 lib.a(b.o)"]] ++ [fx ""]) ++ []))).
  apply script_cons; [constructor| |apply script_cons; [constructor| |constructor; constructor]].
  - apply section_lines_intro; [|constructor| |t_blank].
    + apply (sh_one (ax_vectors 8) (fx "  ") (fx "0x40080400") (fx "        ") (fx "0x8") []); [split; [t_word|t_prefix]|t_num|t_num|t_gap|t_gap|t_blank].
    + constructor; [|constructor]. match goal with |- item_lines ?i ?l => apply (item_lines_intro i l []) end; [|reflexivity|constructor].
      apply head_one with (g := fx "         ") (r := fx "0x40080400        0x8 lib.a(a.o)"); [split; [t_word|left; t_prefix]|t_gap| |t_line].
      apply (fx_rest _ "0x40080400" "        " "0x8" " " "lib.a(a.o)"); [t_num|t_gap|t_num|t_gap|cbl|discriminate|ax_member "a.o"%string|cbl].
  - apply section_lines_intro; [|constructor| |t_blank].
    + apply (sh_one (ax_code 16 8) (fx "     ") (fx "0x40080800") (fx "        ") (fx "0x18") []); [split; [t_word|t_prefix]|t_num|t_num|t_gap|t_gap|t_blank].
    + constructor; [|constructor; [|constructor]]; (match goal with |- item_lines ?i ?l => apply (item_lines_intro i l []) end; [|reflexivity|constructor]).
      * apply head_one with (g := fx "        ") (r := fx "0x40080800        0x10 lib.a(a.o)"); [split; [t_word|left; t_prefix]|t_gap| |t_line].
        apply (fx_rest _ "0x40080800" "        " "0x10" " " "lib.a(a.o)"); [t_num|t_gap|t_num|t_gap|cbl|discriminate|ax_member "a.o"%string|cbl].
      * apply head_one with (g := fx "        ") (r := fx "0x40080810        0x8 lib.a(b.o)"); [split; [t_word|left; t_prefix]|t_gap| |t_line].
        apply (fx_rest _ "0x40080810" "        " "0x8" " " "lib.a(b.o)"); [t_num|t_gap|t_num|t_gap|cbl|discriminate|ax_member "b.o"%string|cbl].
Qed.
Definition cu_disk : disk :=
  Disk (d_cwd ax_disk) (fun fn => if fn =?= in_dir dir3 (tx "app.map") then Some (ax_text cu_lines) else d_text ax_disk fn)
    (fun fn => if fn =?= in_dir dir3 (tx "project_description.json") then Some px_desc else if fn =?= in_dir dir3 (tx "config/sdkconfig.json") then Some (JObj []) else d_json ax_disk fn) (fun _ => false) (fun _ => None).
Definition cu_k : account := Account fx_regions [ax_vectors 8; ax_code 16 8] None types_esp32.
Definition cu_cmd (unify unchanged : bool) : cmd :=
  px_cmd (Args FTable false false false false None false None false true unify false unchanged false (Some false) None (tx "1") None false false).
Lemma cu_projects a : a_use_dwarf a = Some false -> project_at cu_disk a cx_new ax_k /\ project_at cu_disk a cx_old ax_r /\ project_at cu_disk a cx_first cu_k.
Proof.
  intros U.
  destruct (ax_built cu_disk dir1 ax_new 16 8 8 (fun _ => eq_refl) dir1_ok eq_refl ltac:(vm_compute; reflexivity) ax_new_ok) as (B1 & F1); [lia|lia|lia|].
  destruct (ax_built cu_disk dir2 ax_old 8 16 4 (fun _ => eq_refl) dir2_ok eq_refl ltac:(vm_compute; reflexivity) ax_old_ok) as (B2 & F2); [lia|lia|lia|].
  destruct (ax_built cu_disk dir3 cu_lines 8 16 8 (fun _ => eq_refl) dir3_ok eq_refl ltac:(vm_compute; reflexivity) cu_map_ok) as (B3 & F3); [lia|lia|lia|].
  assert (W : forall dir, without_dwarf cu_disk dir a) by (intros dir; unfold without_dwarf; rewrite U; now left).
  split; [|split].
  - exists dir1, (tx "app.map"), (ax_text ax_new), None. split; [reflexivity|]. split; [exact B1|]. split; [apply W|]. right. exact F1.
  - exists dir2, (tx "app.map"), (ax_text ax_old), None. split; [reflexivity|]. split; [exact B2|]. split; [apply W|]. right. exact F2.
  - exists dir3, (tx "app.map"), (ax_text cu_lines), None. split; [reflexivity|]. split; [exact B3|]. split; [apply W|]. right. exact F3.
Qed.
Lemma cu_summarised n u x y k r : In (x, k) [(cx_new, ax_k); (cx_old, ax_r); (cx_first, cu_k)] -> In (y, r) [(cx_new, ax_k); (cx_old, ax_r); (cx_first, cu_k)] -> summarised cu_disk (comparing (cu_cmd n u) x y) k (Some r).
Proof.
  destruct (cu_projects (c_args (comparing (cu_cmd n u) x y)) eq_refl) as (P1 & P2 & P3). intros I J. split; [|split; [exists y; split; [reflexivity|]|reflexivity]].
  - cbn [comparing c_input]. destruct I as [E|[E|[E|[]]]]; injection E as <- <-; assumption.
  - destruct J as [E|[E|[E|[]]]]; injection E as <- <-; assumption.
Qed.
Definition cu_alone (c : cmd) (x : str) := run_files cu_disk (get_memory_types chip_info) mx_render mx_encode mx_order mx_pct (reporting c x) no_faults (start []).
Definition cu_both (c : cmd) (x y : str) := run_files cu_disk (get_memory_types chip_info) mx_render mx_encode mx_order mx_pct (comparing c x y) no_faults (start []).
(** the name and the used bytes of each row *)
Definition cu_used (tb : table) : list (str * str) := map (fun r => (strip (nth 0 r []), strip (nth 1 r []))) (tb_rows tb).
(** the cells with the used bytes, without the spaces in them *)
Definition cu_cells (tb : table) : list str := map (fun r => filter (fun c => negb (Ascii.eqb c " ")) (nth 1 r [])) (tb_rows tb).
Definition cu_plain : cmd := cu_cmd false false.
Definition cu_full : cmd := cu_cmd true true.
Example c150_example : exists s1 s2 s3 s4 t1 t2 t3 t4,
  of_types (c_args cu_plain) /\ summarised cu_disk (comparing cu_plain cx_new cx_old) ax_k (Some ax_r) /\ summarised cu_disk (comparing cu_plain cx_old cx_new) ax_r (Some ax_k) /\
  cu_alone cu_plain cx_new = (Done tt, s1) /\ s_printed s1 = [PTable t1] /\ cu_used t1 = [(tx "IRAM", tx "32"); (tx ".text", tx "16"); (tx ".vectors", tx "16")] /\
  cu_alone cu_plain cx_old = (Done tt, s2) /\ s_printed s2 = [PTable t2] /\ cu_used t2 = [(tx "IRAM", tx "28"); (tx ".vectors", tx "8"); (tx ".text", tx "20")] /\
  cu_both cu_plain cx_new cx_old = (Done tt, s3) /\ s_printed s3 = [PTable t3] /\ map fst (cu_used t3) = [tx "IRAM"; tx ".text"; tx ".vectors"] /\ cu_cells t3 = [tx "32+4"; tx "16-4"; tx "16+8"] /\
  cu_both cu_plain cx_old cx_new = (Done tt, s4) /\ s_printed s4 = [PTable t4] /\ map fst (cu_used t4) = [tx "IRAM"; tx ".vectors"; tx ".text"] /\ cu_cells t4 = [tx "28-4"; tx "8-8"; tx "20+4"].
Proof.
  do 8 eexists. split; [repeat split|]. split; [apply cu_summarised; cbn; tauto|]. split; [apply cu_summarised; cbn; tauto|].
  do 2 (split; [vm_compute; reflexivity|]; split; [reflexivity|]; split; [vm_compute; reflexivity|]).
  split; [vm_compute; reflexivity|]. split; [reflexivity|]. split; [vm_compute; reflexivity|]. split; [vm_compute; reflexivity|].
  split; [vm_compute; reflexivity|]. split; [reflexivity|]. split; vm_compute; reflexivity.
Qed.
(** with --unify and --show-unchanged: the three comparisons of the three builds *)
Example c150_steps_example : exists s1 s2 s3 t1 t2 t3,
  summarised cu_disk (comparing cu_full cx_new cx_old) ax_k (Some ax_r) /\ summarised cu_disk (comparing cu_full cx_old cx_first) ax_r (Some cu_k) /\
  cu_both cu_full cx_new cx_old = (Done tt, s1) /\ s_printed s1 = [PTable t1] /\ cu_cells t1 = [tx "32+4"; tx "16-4"; tx "16+8"] /\ map fst (cu_used t1) = [tx "IRAM"; tx ".text"; tx ".vectors"] /\
  cu_both cu_full cx_old cx_first = (Done tt, s2) /\ s_printed s2 = [PTable t2] /\ cu_cells t2 = [tx "28-4"; tx "80"; tx "20-4"] /\ map fst (cu_used t2) = [tx "IRAM"; tx ".vectors"; tx ".text"] /\
  cu_both cu_full cx_new cx_first = (Done tt, s3) /\ s_printed s3 = [PTable t3] /\ cu_cells t3 = [tx "320"; tx "16-8"; tx "16+8"] /\ map fst (cu_used t3) = [tx "IRAM"; tx ".text"; tx ".vectors"].
Proof.
  do 6 eexists. split; [apply cu_summarised; cbn; tauto|]. split; [apply cu_summarised; cbn; tauto|].
  do 2 (split; [vm_compute; reflexivity|]; split; [reflexivity|]; split; [vm_compute; reflexivity|]; split; [vm_compute; reflexivity|]).
  split; [vm_compute; reflexivity|]. split; [reflexivity|]. split; vm_compute; reflexivity.
Qed.

(** Without --show-unchanged that is false of sections.  A memory type whose used bytes are the same
    is left out with all its sections: the newest build and the last one have the same number of bytes
    in IRAM, but 8 of them have moved from .text to .vectors, and the comparison is empty *)
Theorem c150_refuted : exists d c x y k r s s' s2 tb tb' tb2 row row',
  of_types (c_args c) /\ a_format (c_args c) = FTable /\ a_show_unchanged (c_args c) = false /\ summarised d (comparing c x y) k (Some r) /\
  run_files d (get_memory_types chip_info) mx_render mx_encode mx_order mx_pct (reporting c x) no_faults (start []) = (Done tt, s) /\ s_printed s = [PTable tb] /\
  run_files d (get_memory_types chip_info) mx_render mx_encode mx_order mx_pct (reporting c y) no_faults (start []) = (Done tt, s') /\ s_printed s' = [PTable tb'] /\
  run_files d (get_memory_types chip_info) mx_render mx_encode mx_order mx_pct (comparing c x y) no_faults (start []) = (Done tt, s2) /\ s_printed s2 = [PTable tb2] /\
  In row (tb_rows tb) /\ In row' (tb_rows tb') /\ nth 0 row [] = tx "   .text" /\ nth 0 row' [] = tx "   .text" /\ nth 1 row [] = tx "16" /\ nth 1 row' [] = tx "24" /\ tb_rows tb2 = [].
Proof.
  exists cu_disk, cu_plain, cx_new, cx_first, ax_k, cu_k. do 6 eexists. eexists (nth 1 _ []). eexists (nth 2 _ []).
  split; [repeat split|]. split; [reflexivity|]. split; [reflexivity|]. split; [apply cu_summarised; cbn; tauto|].
  do 3 (split; [vm_compute; reflexivity|]; split; [reflexivity|]).
  split; [cbn [tb_rows]; apply nth_In; cbn; lia|]. split; [cbn [tb_rows]; apply nth_In; cbn; lia|]. do 4 (split; [vm_compute; reflexivity|]). reflexivity.
Qed.
Print Assumptions c150_refuted.
