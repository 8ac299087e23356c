(** * Property C140: comparing projects with each other *)
From Coq Require Import Ascii String List ZArith Lia Bool.
From Verif Require Import Base MemMap SpecTree SpecOps Filter SpecFilter Pipeline SpecPipe SpecBuild SpecBytes SpecShape PyStr MapFile SpecMap FixMap
  ElfRead SpecElf FixElf Project SpecProject FixProject ProofProject2 SpecEnd Chips SpecChips ProofChips Deps Table SpecTable Formats Main SpecMain FixMain Command SpecCommand SpecFail SpecReport SpecAdds SpecSteps
  PropProject PropEnd PropCommand PropFail PropReport PropAdds ProofBytes ProofSteps.
Import ListNotations.
Open Scope list_scope.
Open Scope Z_scope.

Local Notation tx := list_ascii_of_string.

(** C140: the reports on archives or object files, as JSON.  Exchanging the project and its
    reference gives the same rows, with the opposite differences. *)
Theorem c140_turned : forall d c files render encode ord pf,
  asked files (c_args c) -> (given (a_archive_details (c_args c)) = true -> a_use_dwarf (c_args c) <> Some true) -> a_format (c_args c) = FJson2 ->
  forall x y k r o o' fs fs' s s', reported d (comparing c x y) k (Some r) -> tells_files files k (Some r) ->
  run_files d (get_memory_types chip_info) render encode ord pf (comparing c x y) o (start fs) = (Done tt, s) ->
  run_files d (get_memory_types chip_info) render encode ord pf (comparing c y x) o' (start fs') = (Done tt, s') ->
  exists rows rows', s_printed s = [PEntries rows] /\ s_printed s' = [PEntries rows'] /\ turned rows rows'.
Proof. exact turned_runs. Qed.
Print Assumptions c140_turned.

(** Comparing a project with a second, and that with a third, gives differences that add up to
    those of the comparison of the first with the third *)
Theorem c140_steps : forall d c files render encode ord pf,
  asked files (c_args c) -> (given (a_archive_details (c_args c)) = true -> a_use_dwarf (c_args c) <> Some true) -> a_format (c_args c) = FJson2 ->
  forall x y z k1 k2 k3 o o' o2 fs fs' fs2 s s' s2, reported d (comparing c x y) k1 (Some k2) -> reported d (comparing c y z) k2 (Some k3) ->
  tells_files files k1 (Some k2) -> tells_files files k2 (Some k3) ->
  run_files d (get_memory_types chip_info) render encode ord pf (comparing c x y) o (start fs) = (Done tt, s) ->
  run_files d (get_memory_types chip_info) render encode ord pf (comparing c y z) o' (start fs') = (Done tt, s') ->
  run_files d (get_memory_types chip_info) render encode ord pf (comparing c x z) o2 (start fs2) = (Done tt, s2) ->
  exists rows rows' all, s_printed s = [PEntries rows] /\ s_printed s' = [PEntries rows'] /\ s_printed s2 = [PEntries all] /\ steps (c_args c) rows rows' all.
Proof. exact step_runs. Qed.
Print Assumptions c140_steps.

(** ** example: three builds of a project; the two of C139 and a yet older one *)
Definition cx_lines : list str := fx_table ++ fx_head :: map fx [
  ".iram0.vectors  0x40080400        0x8";
  " .vec.a         0x40080400        0x8 lib.a(a.o)";
  "";
  ".iram0.text     0x40080800        0xc";
  " .text.a        0x40080800        0x8 lib.a(a.o)";
  " .text.b        0x40080808        0x4 lib.a(b.o)";
  ""]%string.
Lemma cx_map_ok : printed_map fx_regions [ax_vectors 8; ax_code 8 4] None (splitlines (ax_text cx_lines)).
Proof.
  replace (splitlines (ax_text cx_lines)) with cx_lines by (vm_compute; reflexivity). apply pm_crt_absent; [exact fx_table_ok|t_prefix|].
  change (script_lines [ax_vectors 8; ax_code 8 4] ([] ++ ([fx ".iram0.vectors  0x40080400        0x8"] ++ [] ++ List.concat [[fx " .vec.a         0x40080400        0x8 lib.a(a.o)"]] ++ [fx ""]) ++
    ([] ++ ([fx ".iram0.text     0x40080800        0xc"] ++ [] ++ List.concat [[fx " .text.a        0x40080800        0x8 lib.a(a.o)"]; [fx " .text.b        0x40080808        0x4 lib.a(b.o)"]] ++ [fx ""]) ++ []))).
  apply script_cons; [constructor| |apply script_cons; [constructor| |constructor; constructor]].
  - apply section_lines_intro; [|constructor| |t_blank].
    + apply (sh_one (ax_vectors 8) (fx "  ") (fx "0x40080400") (fx "        ") (fx "0x8") []); [split; [t_word|t_prefix]|t_num|t_num|t_gap|t_gap|t_blank].
    + constructor; [|constructor]. match goal with |- item_lines ?i ?l => apply (item_lines_intro i l []) end; [|reflexivity|constructor].
      apply head_one with (g := fx "         ") (r := fx "0x40080400        0x8 lib.a(a.o)"); [split; [t_word|left; t_prefix]|t_gap| |t_line].
      apply (fx_rest _ "0x40080400" "        " "0x8" " " "lib.a(a.o)"); [t_num|t_gap|t_num|t_gap|cbl|discriminate|ax_member "a.o"%string|cbl].
  - apply section_lines_intro; [|constructor| |t_blank].
    + apply (sh_one (ax_code 8 4) (fx "     ") (fx "0x40080800") (fx "        ") (fx "0xc") []); [split; [t_word|t_prefix]|t_num|t_num|t_gap|t_gap|t_blank].
    + constructor; [|constructor; [|constructor]]; (match goal with |- item_lines ?i ?l => apply (item_lines_intro i l []) end; [|reflexivity|constructor]).
      * apply head_one with (g := fx "        ") (r := fx "0x40080800        0x8 lib.a(a.o)"); [split; [t_word|left; t_prefix]|t_gap| |t_line].
        apply (fx_rest _ "0x40080800" "        " "0x8" " " "lib.a(a.o)"); [t_num|t_gap|t_num|t_gap|cbl|discriminate|ax_member "a.o"%string|cbl].
      * apply head_one with (g := fx "        ") (r := fx "0x40080808        0x4 lib.a(b.o)"); [split; [t_word|left; t_prefix]|t_gap| |t_line].
        apply (fx_rest _ "0x40080808" "        " "0x4" " " "lib.a(b.o)"); [t_num|t_gap|t_num|t_gap|cbl|discriminate|ax_member "b.o"%string|cbl].
Qed.
Definition dir3 : str := tx "/srv/ci/before".
Lemma dir3_ok : directory dir3.
Proof. exists (map tx ["srv"; "ci"; "before"]%string). split; [|reflexivity]. repeat (constructor; [apply proper_ok; reflexivity|]). constructor. Qed.
Definition cx_disk : disk :=
  Disk (d_cwd ax_disk) (fun fn => if fn =?= in_dir dir3 (tx "app.map") then Some (ax_text cx_lines) else d_text ax_disk fn)
    (fun fn => if fn =?= in_dir dir3 (tx "project_description.json") then Some px_desc else if fn =?= in_dir dir3 (tx "config/sdkconfig.json") then Some (JObj []) else d_json ax_disk fn) (fun _ => false) (fun _ => None).
Definition cx_oldest : account := Account fx_regions [ax_vectors 8; ax_code 8 4] None types_esp32.
Definition cx_cmd : cmd :=
  px_cmd (Args FJson2 false false false false None true None false true false false true false (Some false) None (tx "1") None true true).
Definition cx_new : str := in_dir dir1 (tx "app.map").
Definition cx_old : str := in_dir dir2 (tx "app.map").
Definition cx_first : str := in_dir dir3 (tx "app.map").
Lemma cx_projects a : a_use_dwarf a = Some false -> project_at cx_disk a cx_new ax_k /\ project_at cx_disk a cx_old ax_r /\ project_at cx_disk a cx_first cx_oldest.
Proof.
  intros U.
  destruct (ax_built cx_disk dir1 ax_new 16 8 8 (fun _ => eq_refl) dir1_ok eq_refl ltac:(vm_compute; reflexivity) ax_new_ok) as (B1 & F1); [lia|lia|lia|].
  destruct (ax_built cx_disk dir2 ax_old 8 16 4 (fun _ => eq_refl) dir2_ok eq_refl ltac:(vm_compute; reflexivity) ax_old_ok) as (B2 & F2); [lia|lia|lia|].
  destruct (ax_built cx_disk dir3 cx_lines 8 8 4 (fun _ => eq_refl) dir3_ok eq_refl ltac:(vm_compute; reflexivity) cx_map_ok) as (B3 & F3); [lia|lia|lia|].
  assert (W : forall dir, without_dwarf cx_disk dir a) by (intros dir; unfold without_dwarf; rewrite U; now left).
  split; [|split].
  - exists dir1, (tx "app.map"), (ax_text ax_new), None. split; [reflexivity|]. split; [exact B1|]. split; [apply W|]. right. exact F1.
  - exists dir2, (tx "app.map"), (ax_text ax_old), None. split; [reflexivity|]. split; [exact B2|]. split; [apply W|]. right. exact F2.
  - exists dir3, (tx "app.map"), (ax_text cx_lines), None. split; [reflexivity|]. split; [exact B3|]. split; [apply W|]. right. exact F3.
Qed.
Lemma cx_tells : tells_files true ax_k (Some ax_r) /\ tells_files true ax_r (Some cx_oldest).
Proof.
  split; intros _ i [(o & Io & _ & Ii & _)|(o & Io & _ & Ii & _)]; cbn in Io; repeat (destruct Io as [<-|Io]; [cbn in Ii; repeat (destruct Ii as [<-|Ii]; [t_not_in|]); contradiction|]); contradiction.
Qed.
Definition cx_run (x y : str) := run_files cx_disk (get_memory_types chip_info) mx_render mx_encode mx_order mx_pct (comparing cx_cmd x y) no_faults (start []).
Example c140_example : exists s1 s2 s3 s4 r1 r2 r3 r4,
  asked true (c_args cx_cmd) /\ reported cx_disk (comparing cx_cmd cx_new cx_old) ax_k (Some ax_r) /\ reported cx_disk (comparing cx_cmd cx_old cx_first) ax_r (Some cx_oldest) /\
  tells_files true ax_k (Some ax_r) /\ tells_files true ax_r (Some cx_oldest) /\
  cx_run cx_new cx_old = (Done tt, s1) /\ s_printed s1 = [PEntries r1] /\
  ax_figures r1 = [ (tx "lib.a:b.o", 8, 4, [(tx ".iram0.text", 8, 4); (tx ".iram0.vectors", 0, 0)]); (tx "lib.a:a.o", 24, 0, [(tx ".iram0.vectors", 16, 8); (tx ".iram0.text", 8, -8)]) ] /\
  cx_run cx_old cx_first = (Done tt, s2) /\ s_printed s2 = [PEntries r2] /\
  ax_figures r2 = [ (tx "lib.a:a.o", 24, 8, [(tx ".iram0.text", 16, 8); (tx ".iram0.vectors", 8, 0)]); (tx "lib.a:b.o", 4, 0, [(tx ".iram0.text", 4, 0); (tx ".iram0.vectors", 0, 0)]) ] /\
  cx_run cx_new cx_first = (Done tt, s3) /\ s_printed s3 = [PEntries r3] /\
  ax_figures r3 = [ (tx "lib.a:a.o", 24, 8, [(tx ".iram0.vectors", 16, 8); (tx ".iram0.text", 8, 0)]); (tx "lib.a:b.o", 8, 4, [(tx ".iram0.text", 8, 4); (tx ".iram0.vectors", 0, 0)]) ] /\
  cx_run cx_old cx_new = (Done tt, s4) /\ s_printed s4 = [PEntries r4] /\
  ax_figures r4 = [ (tx "lib.a:a.o", 24, 0, [(tx ".iram0.text", 16, 8); (tx ".iram0.vectors", 8, -8)]); (tx "lib.a:b.o", 4, -4, [(tx ".iram0.vectors", 0, 0); (tx ".iram0.text", 4, -4)]) ].
Proof.
  destruct (cx_projects (c_args (comparing cx_cmd cx_new cx_old)) eq_refl) as (P1 & P2 & _). destruct (cx_projects (c_args (comparing cx_cmd cx_old cx_first)) eq_refl) as (_ & Q2 & Q3).
  do 8 eexists. split; [repeat split|]. split; [split; [exact P1|split; [eexists; split; [reflexivity|exact P2]|split; reflexivity]]|]. split; [split; [exact Q2|split; [eexists; split; [reflexivity|exact Q3]|split; reflexivity]]|].
  split; [apply cx_tells|]. split; [apply cx_tells|].
  do 3 (split; [vm_compute; reflexivity|]; split; [reflexivity|]; split; [vm_compute; reflexivity|]). split; [vm_compute; reflexivity|]. split; [reflexivity|]. vm_compute. reflexivity.
Qed.
