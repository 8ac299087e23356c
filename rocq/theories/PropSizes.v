(** * Property C154: the sizes of memory types in comparisons and as JSON *)
From Coq Require Import Ascii String List ZArith Lia Bool.
From Verif Require Import Base MemMap SpecTree SpecOps Filter SpecFilter Pipeline SpecPipe SpecBuild SpecBytes SpecShape SpecSyms PyStr MapFile SpecMap FixMap
  ElfRead SpecElf FixElf Project SpecProject FixProject ProofProject2 SpecEnd Chips SpecChips ProofChips ProofCommand4 Deps Table SpecTable Formats Main SpecMain FixMain Command SpecCommand SpecFail SpecReport SpecMerge SpecAdds SpecSteps SpecCompare SpecGroup SpecForm SpecCompareUsage SpecSumForm SpecSizes
  PropProject PropEnd PropCommand PropFail PropReport PropMerge ProofSizes.
Import ListNotations.
Open Scope list_scope.
Open Scope Z_scope.

Local Notation tx := (fun s => list_ascii_of_string s%string).

(** C154: a comparison of summaries has the sizes of memory types of the project, with the
    differences to those of the reference *)
Theorem c154_compared : forall d c render encode ord pf, of_types (c_args c) -> a_format (c_args c) = FTable \/ a_format (c_args c) = FText \/ a_format (c_args c) = FCsv ->
  forall x y k r o o' o2 fs fs' fs2 s s' s2, summarised d (comparing c x y) k (Some r) ->
  run_files d (get_memory_types chip_info) render encode ord pf (reporting c x) o (start fs) = (Done tt, s) ->
  run_files d (get_memory_types chip_info) render encode ord pf (reporting c y) o' (start fs') = (Done tt, s') ->
  run_files d (get_memory_types chip_info) render encode ord pf (comparing c x y) o2 (start fs2) = (Done tt, s2) ->
  exists new old both, shows_usage (c_args (reporting c x)) s new /\ shows_usage (c_args (reporting c y)) s' old /\ shows_usage (c_args (comparing c x y)) s2 both /\
    compares_usage (c_args c) new old both /\ compares_sizes (c_args c) new old both.
Proof. exact sizes_compared. Qed.
Print Assumptions c154_compared.
(** and the JSON summary has the sizes of the table *)
Theorem c154_formats : forall d c c' k r o o' fs fs' s s' render encode ord pf,
  summarised d c k r -> other_form c c' -> a_use_flash_size (c_args c') = a_use_flash_size (c_args c) -> of_types (c_args c) ->
  a_format (c_args c) = FTable \/ a_format (c_args c) = FText \/ a_format (c_args c) = FCsv -> a_format (c_args c') = FJson2 ->
  run_files d (get_memory_types chip_info) render encode ord pf c o (start fs) = (Done tt, s) ->
  run_files d (get_memory_types chip_info) render encode ord pf c' o' (start fs') = (Done tt, s') ->
  exists gs js, shows_usage (c_args c) s gs /\ s_printed s' = [PJson js] /\ same_summary (c_args c') gs js /\ same_sizes gs js.
Proof. exact sizes_form. Qed.
Print Assumptions c154_formats.
(** for that, the sizes are determined by the memory regions of the map file and the chip *)
Theorem c154_determined : forall types rs gs gs' t, windows_separate types -> Forall2 (region_parts types) rs gs -> Forall2 (region_parts types) rs gs' -> type_size t (concat gs) = type_size t (concat gs').
Proof. exact size_unique. Qed.
Print Assumptions c154_determined.

(** ** example: the older build had 64 KiB of IRAM *)
Definition sz_regions : list region := [Region (fx "iram0_0_seg") 1074267136 65536 (fx "xr"); Region (fx "*default*") 0 4294967295 []].
Definition sz_table : list str := map fx [
  "";
  "Memory Configuration";
  "";
  "Name             Origin             Length             Attributes";
  "iram0_0_seg      0x40080400         0x00010000         xr";
  "*default*        0x00000000         0xffffffff";
  ""]%string.
Lemma sz_table_ok : region_table sz_regions sz_table.
Proof.
  change sz_regions with (List.concat [[Region (fx "iram0_0_seg") 1074267136 65536 (fx "xr")]; [Region (fx "*default*") 0 4294967295 []]; []]).
  apply (region_table_intro [fx ""] (fx "Memory Configuration") [fx ""] (fx "Name             Origin             Length             Attributes")).
  - repeat constructor; t_not_prefix.
  - t_prefix.
  - repeat constructor; t_not_prefix.
  - t_prefix.
  - constructor; [|constructor; [|constructor; [|constructor]]].
    + apply rl_attrs with (so := fx "0x40080400") (sl := fx "0x00010000"); [t_num|t_num|t_words].
    + apply rl_noattrs with (so := fx "0x00000000") (sl := fx "0xffffffff"); [t_num|t_num|t_words].
    + apply rl_blank. t_blank.
Qed.
Definition sz_lines : list str := sz_table ++ fx_head :: map fx [".iram0.text     0x40080400       0x10"; " .text.a        0x40080400       0x10 esp-idf/main/libmain.a(app main.c.obj)"; ""]%string.
Definition sz_text : str := flat_map (fun l => l ++ ["010"%char]) sz_lines.
Lemma sz_map_ok : printed_map sz_regions [rx_section] None (splitlines sz_text).
Proof.
  replace (splitlines sz_text) with sz_lines by (vm_compute; reflexivity). apply pm_crt_absent; [exact sz_table_ok|t_prefix|].
  change (script_lines [rx_section] ([] ++ ([fx ".iram0.text     0x40080400       0x10"] ++ [] ++ List.concat [[fx " .text.a        0x40080400       0x10 esp-idf/main/libmain.a(app main.c.obj)"]] ++ [fx ""]) ++ [])).
  apply script_cons; [constructor| |constructor; constructor].
  apply section_lines_intro; [|constructor| |t_blank].
  - apply (sh_one rx_section (fx "     ") (fx "0x40080400") (fx "       ") (fx "0x10") []); [split; [t_word|t_prefix]|t_num|t_num|t_gap|t_gap|t_blank].
  - constructor; [|constructor]. apply (item_lines_intro rx_item [fx " .text.a        0x40080400       0x10 esp-idf/main/libmain.a(app main.c.obj)"] []); [|reflexivity|constructor].
    apply head_one with (g := fx "        ") (r := fx "0x40080400       0x10 esp-idf/main/libmain.a(app main.c.obj)"); [split; [t_word|left; t_prefix]|t_gap| |t_line].
    apply (fx_rest _ "0x40080400" "       " "0x10" " " "esp-idf/main/libmain.a(app main.c.obj)"); [t_num|t_gap|t_num|t_gap|cbl|discriminate| |cbl].
    apply (loc_member (fx "esp-idf/main/libmain.a") (fx "app main.c.obj")). t_not_in.
Qed.
Definition sz_disk : disk :=
  {| d_cwd := d_cwd vx_disk; d_text := fun fn => if fn =?= in_dir dir1 (tx "app.map") then Some vx_text else if fn =?= in_dir dir2 (tx "app.map") then Some sz_text else None;
     d_json := d_json vx_disk; d_isfile := fun fn => false; d_bytes := fun fn => None |}.
Lemma sz_image dir : description sz_disk dir = Some (JObj px_object) -> image_of sz_disk dir (tx "app.map") None.
Proof.
  intros D. apply (image_missing _ _ _ px_object (tx "app.elf") (in_dir dir (tx "app.elf")) D px_describes); [|reflexivity]. right. split; [|reflexivity]. intros (r & R). discriminate R.
Qed.
Lemma sz_built1 : built sz_disk dir1 (tx "app.map") vx_text fx_regions [vx_section1; vx_section2] None None types_esp32.
Proof.
  destruct vx_built1 as [D P _ M R _ _ S N]. split; try assumption.
  - vm_compute. reflexivity.
  - apply sz_image. vm_compute. reflexivity.
  - exists (tx "esp32"). split; [|exact types_esp32_ok].
    apply (target_described _ _ _ _ px_object (tx "app.elf")); [vm_compute; reflexivity|exact px_describes|reflexivity|discriminate].
Qed.
Lemma sz_built2 : built sz_disk dir2 (tx "app.map") sz_text sz_regions [rx_section] None None types_esp32.
Proof.
  destruct vx_built2 as [D P _ _ R _ _ _ N]. split; try assumption.
  - vm_compute. reflexivity.
  - exact sz_map_ok.
  - apply sz_image. vm_compute. reflexivity.
  - exists (tx "esp32"). split; [|exact types_esp32_ok].
    apply (target_described _ _ _ _ px_object (tx "app.elf")); [vm_compute; reflexivity|exact px_describes|reflexivity|discriminate].
  - constructor; [|constructor]. intros _. split; [|split].
    + right. intros a (A & B). cbn in A, B. exists (Region (fx "iram0_0_seg") 1074267136 65536 (fx "xr")). split; [left; reflexivity|].
      split; [discriminate|]. cbn [r_origin r_length]. split; [lia|]. intros a' Ha'. apply px_iram. lia.
    + intros a b T (A1 & A2) (B1 & B2) L _ _. cbn in A1, A2, B1, B2. split.
      * intros r [<-|[<-|[]]] Nr H; cbn [r_origin r_length r_name] in *; lia.
      * intros t lo' hi It W H. apply windows_of_ok in W.
        destruct It as [<-|[<-|[<-|[<-|[<-|[<-|[<-|[]]]]]]]]; cbn in W; repeat (destruct W as [W|W]; [injection W as <- <-; lia|]); contradiction.
    + constructor; [cbn; lia|constructor].
Qed.
Definition sz_old : account := Account sz_regions [rx_section] None types_esp32.
Definition sz_x : str := in_dir dir1 (tx "app.map").
Definition sz_y : str := in_dir dir2 (tx "app.map").
Definition sz_cmd (f : format) : cmd :=
  px_cmd (Args f false false false false None false (Some sz_y) false true false false false false (Some false) None (tx "1") None false false).
Lemma sz_summarised f : summarised sz_disk (comparing (sz_cmd f) sz_x sz_y) vx_new (Some sz_old).
Proof.
  split; [|split; [|reflexivity]].
  - exists dir1, (tx "app.map"), vx_text, None. split; [reflexivity|]. split; [exact sz_built1|]. split; [left; reflexivity|]. right. apply vx_filled.
    intros o [<-|[<-|[]]]; eexists; repeat split.
  - exists sz_y. split; [reflexivity|]. exists dir2, (tx "app.map"), sz_text, None. split; [reflexivity|]. split; [exact sz_built2|]. split; [left; reflexivity|]. right. apply vx_filled.
    intros o [<-|[]]; eexists; repeat split.
Qed.
Definition sz_run (c : cmd) := run_files sz_disk (get_memory_types chip_info) mx_render mx_encode mx_order mx_pct c no_faults (start []).
(** the cells with the sizes, without the spaces in them *)
Definition sz_cells (tb : table) : list str := map (fun r => filter (fun c => negb (Ascii.eqb c " ")) (nth 4 r [])) (tb_rows tb).
Example c154_example : exists s1 s2 s3 s4 t1 t2 t3 js,
  of_types (c_args (sz_cmd FTable)) /\ summarised sz_disk (comparing (sz_cmd FTable) sz_x sz_y) vx_new (Some sz_old) /\ other_form (comparing (sz_cmd FTable) sz_x sz_y) (comparing (sz_cmd FJson2) sz_x sz_y) /\
  sz_run (reporting (sz_cmd FTable) sz_x) = (Done tt, s1) /\ s_printed s1 = [PTable t1] /\ sz_cells t1 = [tx "130048"; tx ""; tx ""] /\
  sz_run (reporting (sz_cmd FTable) sz_y) = (Done tt, s2) /\ s_printed s2 = [PTable t2] /\ sz_cells t2 = [tx "65536"; tx ""] /\
  sz_run (comparing (sz_cmd FTable) sz_x sz_y) = (Done tt, s3) /\ s_printed s3 = [PTable t3] /\ sz_cells t3 = [tx "130048+64512"; tx ""] /\
  sz_run (comparing (sz_cmd FJson2) sz_x sz_y) = (Done tt, s4) /\ s_printed s4 = [PJson js] /\ map (fun j => (j_name j, j_total j)) (js_layout js) = [(tx "IRAM", 130048)].
Proof.
  do 8 eexists. split; [repeat split|]. split; [apply sz_summarised|]. split; [repeat split|].
  do 3 (split; [vm_compute; reflexivity|]; split; [reflexivity|]; split; [vm_compute; reflexivity|]).
  split; [vm_compute; reflexivity|]. split; [reflexivity|]. vm_compute. reflexivity.
Qed.
(** the parts of a region, without and with an empty one *)
Example c154_parts_example : exists gs gs', let r := Region (fx "seg") 1074267136 1024 (fx "xr") in
  windows_separate types_esp32 /\ gs <> gs' /\ Forall2 (region_parts types_esp32) [r] gs /\ Forall2 (region_parts types_esp32) [r] gs' /\ type_size (tx "IRAM") (concat gs) = 1024.
Proof.
  set (t := ChipType "IRAM" 1074200576 0 327680). set (p := SRegion (fx "seg") 1074267136 1024 (fx "xr") t). set (e := SRegion (fx "seg") 1074268160 0 (fx "xr") t).
  exists [[p]], [[p; e]]. cbv zeta. split; [exact (proj1 (chips_ok _ _ types_esp32_ok))|]. split; [discriminate|].
  assert (It : In t types_esp32) by (vm_compute; tauto).
  assert (W : window t 1074200576 1074528256) by (left; now split).
  assert (Fc : first_covering types_esp32 1074267136 t).
  { destruct (covered_first types_esp32 1074267136) as (u & U); [apply px_iram; lia|]. assert (u = t); [|now subst].
    destruct U as (l1 & l2 & E & C & _). assert (Iu : In u types_esp32) by (rewrite E; apply in_elt). destruct C as (lo & hi & Wu & B). apply windows_of_ok in Wu.
    destruct Iu as [<-|[<-|[<-|[<-|[<-|[<-|[<-|[]]]]]]]]; cbn in Wu; repeat (destruct Wu as [Wu|Wu]; [injection Wu as <- <-; first [lia|reflexivity]|]); contradiction. }
  split; [|split; [|vm_compute; reflexivity]]; (constructor; [|constructor]); exists 1074268160.
  - split; [exact (tiles_cons p _ [] (tiles_nil _))|]. split; [|now left]. constructor; [|constructor].
    split; [exists 1074200576, 1074528256; cbn; split; [exact W|lia]|]. do 3 (split; [first [exact It|reflexivity]|]). split; [cbn; lia|]. intros _. split; [exact Fc|]. exists 1074200576, 1074528256. cbn. split; [exact W|lia].
  - split; [exact (tiles_cons p _ [e] (tiles_cons e _ [] (tiles_nil _)))|]. split; [|now left]. constructor; [|constructor; [|constructor]].
    + split; [exists 1074200576, 1074528256; cbn; split; [exact W|lia]|]. do 3 (split; [first [exact It|reflexivity]|]). split; [cbn; lia|]. intros _. split; [exact Fc|]. exists 1074200576, 1074528256. cbn. split; [exact W|lia].
    + split; [exists 1074200576, 1074528256; cbn; split; [exact W|lia]|]. do 3 (split; [first [exact It|reflexivity]|]). split; [cbn; lia|]. cbn. lia.
Qed.
