(** * Properties C125 and C126: the JSON summary, alone or compared with a reference *)
From Coq Require Import Ascii String List ZArith Lia Bool Sorted.
From Verif Require Import Base MemMap SpecTree SpecOps Filter SpecFilter Pipeline SpecPipe SpecBuild SpecBytes SpecShape PyStr MapFile SpecMap FixMap
  ElfRead SpecElf FixElf Project SpecProject FixProject ProofProject2 SpecEnd Chips SpecChips ProofChips Deps Table SpecTable Formats Main SpecMain FixMain Command SpecCommand SpecFail SpecReport SpecMerge SpecLayout
  PropProject PropEnd PropCommand PropFail PropReport PropMerge ProofLayout.
Import ListNotations.
Open Scope list_scope.
Open Scope Z_scope.

(** C125: the numbers of the JSON summary are those of the project; with --diff the memory types
    and sections of the reference are listed too, and --sort-diff sorts by the
    difference *)
Theorem c125_json_summary : forall d c k r o files s render encode ord pf,
  reported d c k r \/ merged d c k r -> of_types (c_args c) -> a_format (c_args c) = FJson2 ->
  run_files d (get_memory_types chip_info) render encode ord pf c o (start files) = (Done tt, s) ->
  exists js, s_printed s = [PJson js] /\ layout_right k r (c_args c) js.
Proof. exact layout_printed. Qed.
Print Assumptions c125_json_summary.

(** C126: from a JSON report with --diff one can read the differences.  So it is for the
    report on archives: the same text is not printed for references in which an archive of the
    project has other sizes *)
Theorem c126_differences_partial : forall d c c' k r q o o' fs fs' s s' render encode ord pf i v w,
  reported d c k r -> reported d c' k q -> asked false (c_args c) -> asked false (c_args c') ->
  (given (a_archive_details (c_args c)) = true -> a_use_dwarf (c_args c) <> Some true) -> (given (a_archive_details (c_args c')) = true -> a_use_dwarf (c_args c') <> Some true) ->
  a_format (c_args c) = FJson2 -> a_format (c_args c') = FJson2 ->
  run_files d (get_memory_types chip_info) render encode ord pf c o (start fs) = (Done tt, s) ->
  run_files d (get_memory_types chip_info) render encode ord pf c' o' (start fs') = (Done tt, s') -> s_printed s = s_printed s' ->
  places i k -> measured k r (own_bytes (of_archive (it_archive i)) ColTotal) v -> measured k q (own_bytes (of_archive (it_archive i)) ColTotal) w -> v = w.
Proof. exact same_rows. Qed.
Print Assumptions c126_differences_partial.

(** ** examples *)
Local Notation tx := (fun s => list_ascii_of_string s%string).
Definition lay_args (archives : bool) (r : option str) : args :=
  Args FJson2 archives false false false None false (option_map (fun x => in_dir x (tx "app.map")) r) true false false false false false (Some false) None (tx "1") None false true.
Definition lay_cmd (dir : str) (archives : bool) (r : option str) : cmd := Cmd (lay_args archives r) (in_dir dir (tx "app.map")) false false None.
Definition lay_run (dir : str) (archives : bool) (r : option str) := run_files vx_disk (get_memory_types chip_info) mx_render mx_encode mx_order mx_pct (lay_cmd dir archives r) no_faults (start []).
Lemma lay_new a : a_use_dwarf a = Some false -> project_at vx_disk a (in_dir dir1 (tx "app.map")) vx_new.
Proof.
  intros U. exists dir1, (tx "app.map"), vx_text, None. split; [reflexivity|]. split; [exact vx_built1|]. split; [unfold without_dwarf; rewrite U; left; reflexivity|]. right. apply vx_filled.
  intros o [<-|[<-|[]]]; eexists; repeat split.
Qed.
Lemma lay_old a : a_use_dwarf a = Some false -> project_at vx_disk a (in_dir dir2 (tx "app.map")) vx_old.
Proof.
  intros U. exists dir2, (tx "app.map"), rx_text, None. split; [reflexivity|]. split; [exact vx_built2|]. split; [unfold without_dwarf; rewrite U; left; reflexivity|]. right. apply vx_filled.
  intros o [<-|[]]; eexists; repeat split.
Qed.
Lemma lay_reported b : reported vx_disk (lay_cmd dir1 b (Some dir2)) vx_new (Some vx_old).
Proof. split; [now apply lay_new|]. split; [|split; reflexivity]. eexists. split; [reflexivity|now apply lay_old]. Qed.
Definition lay_layout (parts : dict str Z) (used : Z) : jsummary := JSummary used [JType (tx "IRAM") 130048 used (130048 - used) parts].
Definition lay_parts : dict str Z := [(tx ".iram1.text", 16); (tx ".iram0.text", 16)].
Example c125_example : exists s s' s'',
  reported vx_disk (lay_cmd dir1 false (Some dir2)) vx_new (Some vx_old) /\ of_types (lay_args false (Some dir2)) /\
  lay_run dir1 false (Some dir2) = (Done tt, s) /\ s_printed s = [PJson (lay_layout lay_parts 32)] /\
  (** the smaller one as the project: the section that is only in the reference is listed *)
  lay_run dir2 false (Some dir1) = (Done tt, s') /\ s_printed s' = [PJson (lay_layout [(tx ".iram0.text", 16); (tx ".iram1.text", 0)] 16)] /\
  (** --unify *)
  merged vx_disk (px_cmd (vx_args FJson2 false None)) vx_new (Some vx_old) /\
  vx_run (vx_args FJson2 false None) = (Done tt, s'') /\ s_printed s'' = [PJson (lay_layout [(tx ".text", 32)] 32)].
Proof.
  do 3 eexists. split; [apply lay_reported|]. split; [repeat split|]. split; [vm_compute; reflexivity|]. split; [vm_compute; reflexivity|].
  split; [vm_compute; reflexivity|]. split; [vm_compute; reflexivity|]. split; [apply vx_merged|]. split; [vm_compute; reflexivity|]. vm_compute. reflexivity.
Qed.
Example c126_example : exists s rows, asked false (lay_args true (Some dir2)) /\ lay_run dir1 true (Some dir2) = (Done tt, s) /\ s_printed s = [PEntries rows] /\
  rx_brief rows = [ (tx "esp-idf/b/libx.a", (tx "libx.a", 16, 16)); (tx "esp-idf/a/libx.a", (tx "libx.a", 16, 16)); (tx "esp-idf/main/libmain.a", (tx "libmain.a", 0, -16)) ].
Proof. do 2 eexists. split; [reflexivity|]. split; [vm_compute; reflexivity|]. split; [vm_compute; reflexivity|]. vm_compute. reflexivity. Qed.

(** C126 does not hold for the summary: what is printed for a project that has 16 bytes more
    than the reference is the same as for a project compared with itself *)
Definition lay_run1 (dir : str) (r : option str) := run_files rx_disk (get_memory_types chip_info) mx_render mx_encode mx_order mx_pct (lay_cmd dir false r) no_faults (start []).
Lemma lay_new1 a : a_use_dwarf a = Some false -> project_at rx_disk a (in_dir dir1 (tx "app.map")) rx_new.
Proof. intros U. exists dir1, (tx "app.map"), px_text, (Some fx_entries). split; [reflexivity|]. split; [exact rx_built1|]. split; [unfold without_dwarf; rewrite U; left; reflexivity|]. right. exact px_filled. Qed.
Lemma lay_old1 a : a_use_dwarf a = Some false -> project_at rx_disk a (in_dir dir2 (tx "app.map")) rx_old.
Proof. intros U. exists dir2, (tx "app.map"), rx_text, None. split; [reflexivity|]. split; [exact rx_built2|]. split; [unfold without_dwarf; rewrite U; left; reflexivity|]. right. exact rx_filled. Qed.
Lemma lay_used dir r k q s js : reported rx_disk (lay_cmd dir false r) k q -> lay_run1 dir r = (Done tt, s) -> s_printed s = [PJson js] ->
  forall j, js_layout js = [j] -> used_bytes (j_name j) k (j_used j).
Proof.
  intros R E P j Ej. destruct (layout_printed _ _ _ _ _ _ _ _ _ _ _ (or_introl R) ltac:(repeat split) ltac:(reflexivity) E) as (js' & P' & L). rewrite P in P'. injection P' as <-.
  apply lr_type in L. rewrite Ej in L. inversion_clear L as [|? ? H _]. exact (jt_used _ _ _ _ H).
Qed.
Theorem c126_differences_refuted : exists d c c' k r q v w s s',
  reported d c k (Some r) /\ reported d c' k (Some q) /\ of_types (c_args c) /\ of_types (c_args c') /\ a_format (c_args c) = FJson2 /\ a_format (c_args c') = FJson2 /\
  a_show_unchanged (c_args c) = a_show_unchanged (c_args c') /\
  run_files d (get_memory_types chip_info) mx_render mx_encode mx_order mx_pct c no_faults (start []) = (Done tt, s) /\
  run_files d (get_memory_types chip_info) mx_render mx_encode mx_order mx_pct c' no_faults (start []) = (Done tt, s') /\
  s_printed s = s_printed s' /\
  measured k (Some r) (used_bytes (tx "IRAM")) v /\ measured k (Some q) (used_bytes (tx "IRAM")) w /\ snd v = 16 /\ snd w = 0.
Proof.
  assert (R1 : reported rx_disk (lay_cmd dir1 false (Some dir2)) rx_new (Some rx_old)).
  { split; [now apply lay_new1|]. split; [|split; reflexivity]. eexists. split; [reflexivity|now apply lay_old1]. }
  assert (R2 : reported rx_disk (lay_cmd dir1 false (Some dir1)) rx_new (Some rx_new)).
  { split; [now apply lay_new1|]. split; [|split; reflexivity]. eexists. split; [reflexivity|now apply lay_new1]. }
  assert (R3 : reported rx_disk (lay_cmd dir2 false None) rx_old None).
  { split; [now apply lay_old1|]. split; [reflexivity|split; reflexivity]. }
  assert (New : used_bytes (tx "IRAM") rx_new 32).
  { eapply (lay_used dir1 (Some dir2) _ _ _ _ R1 ltac:(vm_compute; reflexivity) ltac:(vm_compute; reflexivity) (JType _ _ _ _ _) eq_refl). }
  assert (Old : used_bytes (tx "IRAM") rx_old 16).
  { eapply (lay_used dir2 None _ _ _ _ R3 ltac:(vm_compute; reflexivity) ltac:(vm_compute; reflexivity) (JType _ _ _ _ _) eq_refl). }
  exists rx_disk, (lay_cmd dir1 false (Some dir2)), (lay_cmd dir1 false (Some dir1)), rx_new, rx_old, rx_new, (32, 16), (32, 0). do 2 eexists.
  split; [exact R1|]. split; [exact R2|]. do 2 (split; [repeat split|]). do 3 (split; [reflexivity|]). split; [vm_compute; reflexivity|]. split; [vm_compute; reflexivity|]. split; [vm_compute; reflexivity|].
  split; [split; [exact New|exists 16; now split]|]. split; [split; [exact New|exists 32; now split]|]. now split.
Qed.
Print Assumptions c126_differences_refuted.
