(** * Property C155: the sizes of memory types in several comparisons *)
From Coq Require Import Ascii String List ZArith Lia Bool.
From Verif Require Import Base MemMap SpecTree SpecOps Filter SpecFilter Pipeline SpecPipe SpecBuild SpecBytes SpecShape SpecSyms PyStr MapFile SpecMap FixMap
  ElfRead SpecElf FixElf Project SpecProject FixProject ProofProject2 SpecEnd Chips SpecChips ProofChips ProofCommand4 Deps Table SpecTable Formats Main SpecMain FixMain Command SpecCommand SpecFail SpecReport SpecMerge SpecAdds SpecSteps SpecCompare SpecGroup SpecForm SpecCompareUsage SpecSumForm SpecSizes SpecSizeSteps
  PropProject PropEnd PropCommand PropFail PropReport PropMerge PropSteps PropSizes ProofSizeSteps.
Import ListNotations.
Open Scope list_scope.
Open Scope Z_scope.

Local Notation tx := (fun s => list_ascii_of_string s%string).

(** C155: exchanging the project and its reference gives the sizes of the reference, with the opposite
    differences *)
Theorem c155_turned : forall d c render encode ord pf, of_types (c_args c) -> a_format (c_args c) = FTable \/ a_format (c_args c) = FText \/ a_format (c_args c) = FCsv ->
  forall x y k r o o' fs fs' s s', summarised d (comparing c x y) k (Some r) ->
  run_files d (get_memory_types chip_info) render encode ord pf (comparing c x y) o (start fs) = (Done tt, s) ->
  run_files d (get_memory_types chip_info) render encode ord pf (comparing c y x) o' (start fs') = (Done tt, s') ->
  exists gs gs', shows_usage (c_args (comparing c x y)) s gs /\ shows_usage (c_args (comparing c y x)) s' gs' /\ turned_usage gs gs' /\ turned_sizes (c_args c) gs gs'.
Proof. exact sizes_turned. Qed.
Print Assumptions c155_turned.
(** and the differences of two comparisons in a row add up *)
Theorem c155_steps : forall d c render encode ord pf, of_types (c_args c) -> a_format (c_args c) = FTable \/ a_format (c_args c) = FText \/ a_format (c_args c) = FCsv ->
  forall x y z k1 k2 k3 o o' o2 fs fs' fs2 s s' s2, summarised d (comparing c x y) k1 (Some k2) -> summarised d (comparing c y z) k2 (Some k3) ->
  run_files d (get_memory_types chip_info) render encode ord pf (comparing c x y) o (start fs) = (Done tt, s) ->
  run_files d (get_memory_types chip_info) render encode ord pf (comparing c y z) o' (start fs') = (Done tt, s') ->
  run_files d (get_memory_types chip_info) render encode ord pf (comparing c x z) o2 (start fs2) = (Done tt, s2) ->
  exists gs gs' all, shows_usage (c_args (comparing c x y)) s gs /\ shows_usage (c_args (comparing c y z)) s' gs' /\ shows_usage (c_args (comparing c x z)) s2 all /\
    steps_usage (c_args c) gs gs' all /\ steps_sizes (c_args c) gs gs' all.
Proof. exact sizes_steps. Qed.
Print Assumptions c155_steps.

(** ** example: the two builds of C154, and one before with 32 KiB of IRAM *)
Definition sy_regions : list region := [Region (fx "iram0_0_seg") 1074267136 32768 (fx "xr"); Region (fx "*default*") 0 4294967295 []].
Definition sy_table : list str := map fx [
  "";
  "Memory Configuration";
  "";
  "Name             Origin             Length             Attributes";
  "iram0_0_seg      0x40080400         0x00008000         xr";
  "*default*        0x00000000         0xffffffff";
  ""]%string.
Lemma sy_table_ok : region_table sy_regions sy_table.
Proof.
  change sy_regions with (List.concat [[Region (fx "iram0_0_seg") 1074267136 32768 (fx "xr")]; [Region (fx "*default*") 0 4294967295 []]; []]).
  apply (region_table_intro [fx ""] (fx "Memory Configuration") [fx ""] (fx "Name             Origin             Length             Attributes")).
  - repeat constructor; t_not_prefix.
  - t_prefix.
  - repeat constructor; t_not_prefix.
  - t_prefix.
  - constructor; [|constructor; [|constructor; [|constructor]]].
    + apply rl_attrs with (so := fx "0x40080400") (sl := fx "0x00008000"); [t_num|t_num|t_words].
    + apply rl_noattrs with (so := fx "0x00000000") (sl := fx "0xffffffff"); [t_num|t_num|t_words].
    + apply rl_blank. t_blank.
Qed.
Definition sy_lines : list str := sy_table ++ fx_head :: map fx [".iram0.text     0x40080400       0x10"; " .text.a        0x40080400       0x10 esp-idf/main/libmain.a(app main.c.obj)"; ""]%string.
Definition sy_text : str := flat_map (fun l => l ++ ["010"%char]) sy_lines.
Lemma sy_map_ok : printed_map sy_regions [rx_section] None (splitlines sy_text).
Proof.
  replace (splitlines sy_text) with sy_lines by (vm_compute; reflexivity). apply pm_crt_absent; [exact sy_table_ok|t_prefix|].
  change (script_lines [rx_section] ([] ++ ([fx ".iram0.text     0x40080400       0x10"] ++ [] ++ List.concat [[fx " .text.a        0x40080400       0x10 esp-idf/main/libmain.a(app main.c.obj)"]] ++ [fx ""]) ++ [])).
  apply script_cons; [constructor| |constructor; constructor].
  apply section_lines_intro; [|constructor| |t_blank].
  - apply (sh_one rx_section (fx "     ") (fx "0x40080400") (fx "       ") (fx "0x10") []); [split; [t_word|t_prefix]|t_num|t_num|t_gap|t_gap|t_blank].
  - constructor; [|constructor]. apply (item_lines_intro rx_item [fx " .text.a        0x40080400       0x10 esp-idf/main/libmain.a(app main.c.obj)"] []); [|reflexivity|constructor].
    apply head_one with (g := fx "        ") (r := fx "0x40080400       0x10 esp-idf/main/libmain.a(app main.c.obj)"); [split; [t_word|left; t_prefix]|t_gap| |t_line].
    apply (fx_rest _ "0x40080400" "       " "0x10" " " "esp-idf/main/libmain.a(app main.c.obj)"); [t_num|t_gap|t_num|t_gap|cbl|discriminate| |cbl].
    apply (loc_member (fx "esp-idf/main/libmain.a") (fx "app main.c.obj")). t_not_in.
Qed.
Definition sy_disk : disk :=
  Disk (d_cwd sz_disk) (fun fn => if fn =?= in_dir dir3 (tx "app.map") then Some sy_text else d_text sz_disk fn)
    (fun fn => if fn =?= in_dir dir3 (tx "project_description.json") then Some px_desc else if fn =?= in_dir dir3 (tx "config/sdkconfig.json") then Some (JObj []) else d_json sz_disk fn) (fun _ => false) (fun _ => None).
Lemma sy_image dir : description sy_disk dir = Some (JObj px_object) -> image_of sy_disk dir (tx "app.map") None.
Proof.
  intros D. apply (image_missing _ _ _ px_object (tx "app.elf") (in_dir dir (tx "app.elf")) D px_describes); [|reflexivity]. right. split; [|reflexivity]. intros (r & R). discriminate R.
Qed.
Lemma sy_built3 : built sy_disk dir3 (tx "app.map") sy_text sy_regions [rx_section] None None types_esp32.
Proof.
  destruct vx_built2 as [_ P _ _ R _ _ _ N]. split; try assumption.
  - exact dir3_ok.
  - vm_compute. reflexivity.
  - exact sy_map_ok.
  - apply sy_image. vm_compute. reflexivity.
  - exists (tx "esp32"). split; [|exact types_esp32_ok].
    apply (target_described _ _ _ _ px_object (tx "app.elf")); [vm_compute; reflexivity|exact px_describes|reflexivity|discriminate].
  - constructor; [|constructor]. intros _. split; [|split].
    + right. intros a (A & B). cbn in A, B. exists (Region (fx "iram0_0_seg") 1074267136 32768 (fx "xr")). split; [left; reflexivity|].
      split; [discriminate|]. cbn [r_origin r_length]. split; [lia|]. intros a' Ha'. apply px_iram. lia.
    + intros a b T (A1 & A2) (B1 & B2) L _ _. cbn in A1, A2, B1, B2. split.
      * intros r [<-|[<-|[]]] Nr H; cbn [r_origin r_length r_name] in *; lia.
      * intros t lo' hi It W H. apply windows_of_ok in W.
        destruct It as [<-|[<-|[<-|[<-|[<-|[<-|[<-|[]]]]]]]]; cbn in W; repeat (destruct W as [W|W]; [injection W as <- <-; lia|]); contradiction.
    + constructor; [cbn; lia|constructor].
Qed.
Lemma sy_built dir text rs l : built sz_disk dir (tx "app.map") text rs l None None types_esp32 -> d_text sy_disk (in_dir dir (tx "app.map")) = Some text -> description sy_disk dir = Some (JObj px_object) ->
  built sy_disk dir (tx "app.map") text rs l None None types_esp32.
Proof.
  intros [D P _ M R _ _ S N] T J. split; try assumption.
  - apply sy_image. exact J.
  - exists (tx "esp32"). split; [|exact types_esp32_ok].
    apply (target_described _ _ _ _ px_object (tx "app.elf")); [exact J|exact px_describes|reflexivity|discriminate].
Qed.
(** all rows are asked for *)
Definition sy_cmd : cmd := px_cmd (Args FTable false false false false None false None false true false false true false (Some false) None (tx "1") None false false).
Definition sy_first : account := Account sy_regions [rx_section] None types_esp32.
Definition sy_z : str := in_dir dir3 (tx "app.map").
Lemma sy_summarised x y k r : In (x, k) [(sz_x, vx_new); (sz_y, sz_old); (sy_z, sy_first)] -> In (y, r) [(sz_x, vx_new); (sz_y, sz_old); (sy_z, sy_first)] -> summarised sy_disk (comparing sy_cmd x y) k (Some r).
Proof.
  assert (H : forall a w q, a_use_dwarf a = Some false -> In (w, q) [(sz_x, vx_new); (sz_y, sz_old); (sy_z, sy_first)] -> project_at sy_disk a w q).
  { intros a w q U I. assert (W : forall dir, without_dwarf sy_disk dir a) by (intros dir; unfold without_dwarf; rewrite U; now left).
    destruct I as [E|[E|[E|[]]]]; injection E as <- <-.
    - exists dir1, (tx "app.map"), vx_text, None. split; [reflexivity|]. split; [apply sy_built; [exact sz_built1|vm_compute; reflexivity|vm_compute; reflexivity]|]. split; [apply W|]. right. apply vx_filled.
      intros o [<-|[<-|[]]]; eexists; repeat split.
    - exists dir2, (tx "app.map"), sz_text, None. split; [reflexivity|]. split; [apply sy_built; [exact sz_built2|vm_compute; reflexivity|vm_compute; reflexivity]|]. split; [apply W|]. right. apply vx_filled.
      intros o [<-|[]]; eexists; repeat split.
    - exists dir3, (tx "app.map"), sy_text, None. split; [reflexivity|]. split; [exact sy_built3|]. split; [apply W|]. right. apply vx_filled.
      intros o [<-|[]]; eexists; repeat split. }
  intros I J. split; [now apply H|]. split; [|reflexivity]. exists y. split; [reflexivity|]. now apply H.
Qed.
Definition sy_run (x y : str) := run_files sy_disk (get_memory_types chip_info) mx_render mx_encode mx_order mx_pct (comparing sy_cmd x y) no_faults (start []).
Example c155_example : exists s1 s2 s3 s4 t1 t2 t3 t4,
  of_types (c_args sy_cmd) /\ summarised sy_disk (comparing sy_cmd sz_x sz_y) vx_new (Some sz_old) /\ summarised sy_disk (comparing sy_cmd sz_y sy_z) sz_old (Some sy_first) /\
  sy_run sz_x sz_y = (Done tt, s1) /\ s_printed s1 = [PTable t1] /\ hd [] (sz_cells t1) = tx "130048+64512" /\
  sy_run sz_y sz_x = (Done tt, s2) /\ s_printed s2 = [PTable t2] /\ hd [] (sz_cells t2) = tx "65536-64512" /\
  sy_run sz_y sy_z = (Done tt, s3) /\ s_printed s3 = [PTable t3] /\ hd [] (sz_cells t3) = tx "65536+32768" /\
  sy_run sz_x sy_z = (Done tt, s4) /\ s_printed s4 = [PTable t4] /\ hd [] (sz_cells t4) = tx "130048+97280".
Proof.
  do 8 eexists. split; [repeat split|]. split; [apply sy_summarised; cbn; tauto|]. split; [apply sy_summarised; cbn; tauto|].
  do 3 (split; [vm_compute; reflexivity|]; split; [reflexivity|]; split; [vm_compute; reflexivity|]).
  split; [vm_compute; reflexivity|]. split; [reflexivity|]. vm_compute. reflexivity.
Qed.
