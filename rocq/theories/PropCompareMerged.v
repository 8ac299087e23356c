(** * Property C149: comparisons with --unify *)
From Coq Require Import Ascii String List ZArith Lia Bool Sorted.
From Verif Require Import Base MemMap SpecTree SpecOps Filter SpecFilter Pipeline SpecPipe SpecBuild SpecBytes SpecShape SpecSyms PyStr MapFile SpecMap FixMap
  ElfRead SpecElf FixElf Project SpecProject FixProject ProofProject2 SpecEnd Chips SpecChips ProofChips Deps Table SpecTable Formats Main SpecMain FixMain Command SpecCommand SpecFail SpecReport SpecSymbols
  SpecAdds SpecSteps SpecCompare SpecMerge SpecMergeFiles SpecMergeSyms SpecCompareMerged
  PropProject PropEnd PropCommand PropFail PropReport PropMerge PropMergeFiles PropMergeSyms ProofCommand3 ProofCompareMerged3.
Import ListNotations.
Open Scope list_scope.
Open Scope Z_scope.

(** C149: what C146, C140 and C139 say of comparisons holds with --unify.
    Archives: the comparison is the difference of the two reports; *)
Theorem c149_archives : forall d c render encode ord pf,
  a_format (c_args c) = FJson2 -> asked false (c_args c) -> (given (a_archive_details (c_args c)) = true -> a_use_dwarf (c_args c) <> Some true) ->
  forall x y k r o o' o2 fs fs' fs2 s s' s2, merged d (comparing c x y) k (Some r) ->
  run_files d (get_memory_types chip_info) render encode ord pf (reporting c x) o (start fs) = (Done tt, s) ->
  run_files d (get_memory_types chip_info) render encode ord pf (reporting c y) o' (start fs') = (Done tt, s') ->
  run_files d (get_memory_types chip_info) render encode ord pf (comparing c x y) o2 (start fs2) = (Done tt, s2) ->
  exists new old both, s_printed s = [PEntries new] /\ s_printed s' = [PEntries old] /\ s_printed s2 = [PEntries both] /\ compares (c_args c) new old both.
Proof. exact archives_compared. Qed.
Print Assumptions c149_archives.
(** exchanging the project and its reference gives the opposite differences; *)
Theorem c149_archives_turned : forall d c render encode ord pf,
  a_format (c_args c) = FJson2 -> asked false (c_args c) -> (given (a_archive_details (c_args c)) = true -> a_use_dwarf (c_args c) <> Some true) ->
  forall x y k r o o' fs fs' s s', merged d (comparing c x y) k (Some r) ->
  run_files d (get_memory_types chip_info) render encode ord pf (comparing c x y) o (start fs) = (Done tt, s) ->
  run_files d (get_memory_types chip_info) render encode ord pf (comparing c y x) o' (start fs') = (Done tt, s') ->
  exists rows rows', s_printed s = [PEntries rows] /\ s_printed s' = [PEntries rows'] /\ turned rows rows'.
Proof. exact archives_turned. Qed.
Print Assumptions c149_archives_turned.
(** the differences of two comparisons in a row add up *)
Theorem c149_archives_steps : forall d c render encode ord pf,
  a_format (c_args c) = FJson2 -> asked false (c_args c) -> (given (a_archive_details (c_args c)) = true -> a_use_dwarf (c_args c) <> Some true) ->
  forall x y z k1 k2 k3 o o' o2 fs fs' fs2 s s' s2, merged d (comparing c x y) k1 (Some k2) -> merged d (comparing c y z) k2 (Some k3) ->
  run_files d (get_memory_types chip_info) render encode ord pf (comparing c x y) o (start fs) = (Done tt, s) ->
  run_files d (get_memory_types chip_info) render encode ord pf (comparing c y z) o' (start fs') = (Done tt, s') ->
  run_files d (get_memory_types chip_info) render encode ord pf (comparing c x z) o2 (start fs2) = (Done tt, s2) ->
  exists rows rows' all, s_printed s = [PEntries rows] /\ s_printed s' = [PEntries rows'] /\ s_printed s2 = [PEntries all] /\ steps (c_args c) rows rows' all.
Proof. exact archives_steps. Qed.
Print Assumptions c149_archives_steps.

(** Object files: all of this holds of the totals and of the figures of the memory types, and of
    those of a section for a name whose object files are in archives with one base name
    ([files_good]); of the others see [c149_refuted] *)
Theorem c149_files_partial : forall d c render encode ord pf,
  a_format (c_args c) = FJson2 -> asked true (c_args c) ->
  forall x y k r o o' o2 fs fs' fs2 s s' s2, merged d (comparing c x y) k (Some r) ->
  run_files d (get_memory_types chip_info) render encode ord pf (reporting c x) o (start fs) = (Done tt, s) ->
  run_files d (get_memory_types chip_info) render encode ord pf (reporting c y) o' (start fs') = (Done tt, s') ->
  run_files d (get_memory_types chip_info) render encode ord pf (comparing c x y) o2 (start fs2) = (Done tt, s2) ->
  exists new old both, s_printed s = [PEntries new] /\ s_printed s' = [PEntries old] /\ s_printed s2 = [PEntries both] /\ compares_in (files_good k r) (c_args c) new old both.
Proof. exact files_compared. Qed.
Print Assumptions c149_files_partial.
Theorem c149_files_turned_partial : forall d c render encode ord pf,
  a_format (c_args c) = FJson2 -> asked true (c_args c) ->
  forall x y k r o o' fs fs' s s', merged d (comparing c x y) k (Some r) ->
  run_files d (get_memory_types chip_info) render encode ord pf (comparing c x y) o (start fs) = (Done tt, s) ->
  run_files d (get_memory_types chip_info) render encode ord pf (comparing c y x) o' (start fs') = (Done tt, s') ->
  exists rows rows', s_printed s = [PEntries rows] /\ s_printed s' = [PEntries rows'] /\ turned_in (files_good k r) rows rows'.
Proof. exact files_turned. Qed.
Print Assumptions c149_files_turned_partial.
Theorem c149_files_steps_partial : forall d c render encode ord pf,
  a_format (c_args c) = FJson2 -> asked true (c_args c) ->
  forall x y z k1 k2 k3 o o' o2 fs fs' fs2 s s' s2, merged d (comparing c x y) k1 (Some k2) -> merged d (comparing c y z) k2 (Some k3) ->
  run_files d (get_memory_types chip_info) render encode ord pf (comparing c x y) o (start fs) = (Done tt, s) ->
  run_files d (get_memory_types chip_info) render encode ord pf (comparing c y z) o' (start fs') = (Done tt, s') ->
  run_files d (get_memory_types chip_info) render encode ord pf (comparing c x z) o2 (start fs2) = (Done tt, s2) ->
  exists rows rows' all, s_printed s = [PEntries rows] /\ s_printed s' = [PEntries rows'] /\ s_printed s2 = [PEntries all] /\
    steps_in (fun n c => files_good k1 k2 n c /\ files_good k2 k3 n c /\ files_good k1 k3 n c) (c_args c) rows rows' all.
Proof. exact files_steps. Qed.
Print Assumptions c149_files_steps_partial.

(** The symbols of the archives with base name [a]: likewise, where a section's figure is right for a
    name whose symbols are in object files with one base name *)
Theorem c149_symbols_partial : forall d c render encode ord pf,
  a_format (c_args c) = FJson2 -> forall a, asked_symbols (c_args c) a ->
  forall x y k r o o' o2 fs fs' fs2 s s' s2, symbols_merged d (comparing c x y) k (Some r) ->
  run_files d (get_memory_types chip_info) render encode ord pf (reporting c x) o (start fs) = (Done tt, s) ->
  run_files d (get_memory_types chip_info) render encode ord pf (reporting c y) o' (start fs') = (Done tt, s') ->
  run_files d (get_memory_types chip_info) render encode ord pf (comparing c x y) o2 (start fs2) = (Done tt, s2) ->
  exists new old both, s_printed s = [PEntries new] /\ s_printed s' = [PEntries old] /\ s_printed s2 = [PEntries both] /\ compares_in (symbols_good a k r) (c_args c) new old both.
Proof. exact symbols_compared. Qed.
Print Assumptions c149_symbols_partial.
Theorem c149_symbols_turned_partial : forall d c render encode ord pf,
  a_format (c_args c) = FJson2 -> forall a, asked_symbols (c_args c) a ->
  forall x y k r o o' fs fs' s s', symbols_merged d (comparing c x y) k (Some r) ->
  run_files d (get_memory_types chip_info) render encode ord pf (comparing c x y) o (start fs) = (Done tt, s) ->
  run_files d (get_memory_types chip_info) render encode ord pf (comparing c y x) o' (start fs') = (Done tt, s') ->
  exists rows rows', s_printed s = [PEntries rows] /\ s_printed s' = [PEntries rows'] /\ turned_in (symbols_good a k r) rows rows'.
Proof. exact symbols_turned. Qed.
Print Assumptions c149_symbols_turned_partial.
Theorem c149_symbols_steps_partial : forall d c render encode ord pf,
  a_format (c_args c) = FJson2 -> forall a, asked_symbols (c_args c) a ->
  forall x y z k1 k2 k3 o o' o2 fs fs' fs2 s s' s2, symbols_merged d (comparing c x y) k1 (Some k2) -> symbols_merged d (comparing c y z) k2 (Some k3) ->
  run_files d (get_memory_types chip_info) render encode ord pf (comparing c x y) o (start fs) = (Done tt, s) ->
  run_files d (get_memory_types chip_info) render encode ord pf (comparing c y z) o' (start fs') = (Done tt, s') ->
  run_files d (get_memory_types chip_info) render encode ord pf (comparing c x z) o2 (start fs2) = (Done tt, s2) ->
  exists rows rows' all, s_printed s = [PEntries rows] /\ s_printed s' = [PEntries rows'] /\ s_printed s2 = [PEntries all] /\
    steps_in (fun n c => symbols_good a k1 k2 n c /\ symbols_good a k2 k3 n c /\ symbols_good a k1 k3 n c) (c_args c) rows rows' all.
Proof. exact symbols_steps. Qed.
Print Assumptions c149_symbols_steps_partial.

(** ** examples: the projects of C144 and C147, compared with builds that lack the second section *)
Local Notation tx := (fun s => list_ascii_of_string s%string).
Definition cm_lines (a b : str) : list str := fx_table ++ fx_head :: [fx ".iram0.text     0x40080400       0x10"; a; b; fx ""].
Definition cm_text (a b : str) : str := flat_map (fun l => l ++ ["010"%char]) (cm_lines a b).
Lemma cm_map_uf : printed_map fx_regions [uf_section1] None (splitlines (cm_text uf_line1 uf_line2)).
Proof.
  replace (splitlines (cm_text uf_line1 uf_line2)) with (cm_lines uf_line1 uf_line2) by (vm_compute; reflexivity). apply pm_crt_absent; [exact fx_table_ok|t_prefix|].
  change (script_lines [uf_section1] ([] ++ ([fx ".iram0.text     0x40080400       0x10"] ++ [] ++ List.concat [[uf_line1]; [uf_line2]] ++ [fx ""]) ++ [])).
  apply script_cons; [constructor| |constructor; constructor]. apply section_lines_intro; [|constructor| |t_blank].
  - apply (sh_one uf_section1 (fx "     ") (fx "0x40080400") (fx "       ") (fx "0x10") []); [split; [t_word|t_prefix]|t_num|t_num|t_gap|t_gap|t_blank].
  - constructor; [|constructor; [|constructor]].
    + apply (item_lines_intro uf_item1 [uf_line1] []); [|reflexivity|constructor].
      apply head_one with (g := fx "        ") (r := fx "0x40080400        0x8 esp-idf/a/libx.a(a.o)"); [split; [t_word|left; t_prefix]|t_gap| |t_line].
      apply (fx_rest _ "0x40080400" "        " "0x8" " " "esp-idf/a/libx.a(a.o)"); [t_num|t_gap|t_num|t_gap|cbl|discriminate| |cbl].
      apply (loc_member (fx "esp-idf/a/libx.a") (fx "a.o")). t_not_in.
    + apply (item_lines_intro uf_item2 [uf_line2] []); [|reflexivity|constructor].
      apply head_one with (g := fx "        ") (r := fx "0x40080408        0x8 liby.a(c.o)"); [split; [t_word|left; t_prefix]|t_gap| |t_line].
      apply (fx_rest _ "0x40080408" "        " "0x8" " " "liby.a(c.o)"); [t_num|t_gap|t_num|t_gap|cbl|discriminate| |cbl].
      apply (loc_member (fx "liby.a") (fx "c.o")). t_not_in.
Qed.
Lemma cm_map_un : printed_map fx_regions [un_section1] None (splitlines (cm_text un_line1 un_line2)).
Proof.
  replace (splitlines (cm_text un_line1 un_line2)) with (cm_lines un_line1 un_line2) by (vm_compute; reflexivity). apply pm_crt_absent; [exact fx_table_ok|t_prefix|].
  change (script_lines [un_section1] ([] ++ ([fx ".iram0.text     0x40080400       0x10"] ++ [] ++ List.concat [[un_line1]; [un_line2]] ++ [fx ""]) ++ [])).
  apply script_cons; [constructor| |constructor; constructor]. apply section_lines_intro; [|constructor| |t_blank].
  - apply (sh_one un_section1 (fx "     ") (fx "0x40080400") (fx "       ") (fx "0x10") []); [split; [t_word|t_prefix]|t_num|t_num|t_gap|t_gap|t_blank].
  - constructor; [|constructor; [|constructor]].
    + apply (item_lines_intro un_item1 [un_line1] []); [|reflexivity|constructor].
      apply head_one with (g := fx "        ") (r := fx "0x40080400        0x8 esp-idf/a/libx.a(a.o)"); [split; [t_word|left; t_prefix]|t_gap| |t_line].
      apply (fx_rest _ "0x40080400" "        " "0x8" " " "esp-idf/a/libx.a(a.o)"); [t_num|t_gap|t_num|t_gap|cbl|discriminate| |cbl].
      apply (loc_member (fx "esp-idf/a/libx.a") (fx "a.o")). t_not_in.
    + apply (item_lines_intro un_item2 [un_line2] []); [|reflexivity|constructor].
      apply head_one with (g := fx "        ") (r := fx "0x40080408        0x8 esp-idf/a/libx.a(c.o)"); [split; [t_word|left; t_prefix]|t_gap| |t_line].
      apply (fx_rest _ "0x40080408" "        " "0x8" " " "esp-idf/a/libx.a(c.o)"); [t_num|t_gap|t_num|t_gap|cbl|discriminate| |cbl].
      apply (loc_member (fx "esp-idf/a/libx.a") (fx "c.o")). t_not_in.
Qed.
Definition cm_new : str := in_dir dir1 (tx "app.map").
Definition cm_old : str := in_dir dir2 (tx "app.map").
Definition cm_disk (new old : str) : disk :=
  {| d_cwd := d_cwd disk1; d_text := fun fn => if fn =?= cm_new then Some new else if fn =?= cm_old then Some old else None;
     d_json := d_json rx_disk; d_isfile := fun fn => false; d_bytes := fun fn => None |}.
Lemma cm_built new old dir text l : dir = dir1 \/ dir = dir2 -> d_text (cm_disk new old) (in_dir dir (tx "app.map")) = Some text -> printed_map fx_regions l None (splitlines text) ->
  (l = [uf_section1] \/ l = [uf_section1; uf_section2] \/ l = [un_section1] \/ l = [un_section1; un_section2]) ->
  built (cm_disk new old) dir (tx "app.map") text fx_regions l None None types_esp32.
Proof.
  intros Hd Ht Hm Hl. assert (De : description (cm_disk new old) dir = Some (JObj px_object)) by (destruct Hd as [-> | ->]; vm_compute; reflexivity).
  destruct px_built as [D1 P _ _ _ _ _ _ _]. destruct rx_built2 as [D2 _ _ _ _ _ _ _ _]. split.
  - destruct Hd as [-> | ->]; [exact D1|exact D2].
  - exact P.
  - exact Ht.
  - exact Hm.
  - destruct Hl as [-> |[-> |[-> | ->]]]; repeat (constructor; [split; [constructor; [intros a n []|constructor; [intros a n []|constructor]]|split; [constructor; [split; [cbn; lia|reflexivity]|constructor]|split; [discriminate|exact Logic.I]]]|]); constructor.
  - apply (image_missing _ _ _ px_object (tx "app.elf") (in_dir dir (tx "app.elf")) De px_describes); [|reflexivity]. right. split; [|reflexivity]. intros (r & R). discriminate R.
  - exists (tx "esp32"). split; [|exact types_esp32_ok]. apply (target_described _ _ _ _ px_object (tx "app.elf")); [exact De|exact px_describes|reflexivity|discriminate].
  - destruct Hl as [-> |[-> |[-> | ->]]]; repeat (constructor; [intros _; match goal with |- ?G => match G with context [?o] => match type of o with printed => destruct (vx_fits o) as (F1 & F2); [cbn; lia|cbn; lia|] end end end;
      split; [exact F1|]; split; [exact F2|]; repeat (constructor; [cbn; lia|]); constructor|]); constructor.
  - assert (One : forall (q : printed) l1 o l2 o' l3, [q] <> l1 ++ o :: l2 ++ o' :: l3).
    { intros q l1 o l2 o' l3 E. destruct l1 as [|x l1]; [|destruct l1; discriminate E]. injection E as _ E. destruct l2; discriminate E. }
    assert (Two : forall q q' : printed, pr_name q <> pr_name q' -> forall l1 o l2 o' l3, [q; q'] = l1 ++ o :: l2 ++ o' :: l3 -> pr_name o <> pr_name o').
    { intros q q' N l1 o l2 o' l3 E. destruct l1 as [|x l1]; [|injection E as _ E; exfalso; exact (One _ _ _ _ _ _ E)]. injection E as <- E. destruct l2 as [|y l2]; [injection E as <- _; exact N|]. injection E as _ E. destruct l2; discriminate E. }
    intros l1 o l2 o' l3 E _ _. destruct Hl as [-> |[-> |[-> | ->]]]; [exfalso; exact (One _ _ _ _ _ _ E)|apply (Two _ _) in E; [exact E|discriminate]|exfalso; exact (One _ _ _ _ _ _ E)|apply (Two _ _) in E; [exact E|discriminate]].
Qed.
Definition cm_uf : disk := cm_disk uf_text (cm_text uf_line1 uf_line2).
Definition cm_un : disk := cm_disk un_text (cm_text un_line1 un_line2).
Definition cm_uf_old : account := Account fx_regions [uf_section1] None types_esp32.
Definition cm_un_old : account := Account fx_regions [un_section1] None types_esp32.
Lemma cm_filled l : (forall o, In o l -> o = uf_section1 \/ o = uf_section2 \/ o = un_section1 \/ o = un_section2) -> filled None types_esp32 l.
Proof.
  intros H. apply Forall_forall. intros o Io C T a (B1 & B2) G. destruct (H o Io) as [-> |[-> |[-> | ->]]]; cbn in B1, B2.
  - destruct (Z.ltb_spec a 1074267144); [exists uf_item1, a|exists uf_item2, a]; (split; [cbn; tauto|]; split; [cbn; lia|exact G]).
  - destruct (Z.ltb_spec a 1074267160); [exists uf_item3, a|exists uf_item4, a]; (split; [cbn; tauto|]; split; [cbn; lia|exact G]).
  - destruct (Z.ltb_spec a 1074267144); [exists un_item1, a|exists un_item2, a]; (split; [cbn; tauto|]; split; [cbn; lia|exact G]).
  - destruct (Z.ltb_spec a 1074267160); [exists un_item3, a|exists un_item4, a]; (split; [cbn; tauto|]; split; [cbn; lia|exact G]).
Qed.
Lemma cm_projects a : a_use_dwarf a = Some false -> project_at cm_uf a cm_new uf_new /\ project_at cm_uf a cm_old cm_uf_old.
Proof.
  intros U. split.
  - exists dir1, (tx "app.map"), uf_text, None. split; [reflexivity|]. split; [apply cm_built; [now left|vm_compute; reflexivity|exact uf_map_ok|tauto]|]. split; [unfold without_dwarf; rewrite U; left; reflexivity|]. right. apply cm_filled. intros o [<-|[<-|[]]]; tauto.
  - exists dir2, (tx "app.map"), (cm_text uf_line1 uf_line2), None. split; [reflexivity|]. split; [apply cm_built; [now right|vm_compute; reflexivity|exact cm_map_uf|tauto]|]. split; [unfold without_dwarf; rewrite U; left; reflexivity|]. right. apply cm_filled. intros o [<-|[]]; tauto.
Qed.
Lemma cm_clear : clear_symbols cm_un_old None.
Proof.
  split.
  - exists un_counts. split; [exact un_counted|]. replace (flat_map _ _) with [un_item1; un_item2] by (vm_compute; reflexivity). constructor; [constructor; [left; cbn; lia|constructor]|]. repeat constructor.
  - repeat (constructor; [intros _; cbn [by_symbols pr_items]; vm_compute; repeat (constructor; [intros X; repeat (destruct X as [X|X]; [discriminate X|]); exact X|]); constructor|]). constructor.
Qed.
Lemma cm_symbols a : a_use_dwarf a = Some false -> symbols_project cm_un a cm_new un_new /\ symbols_project cm_un a cm_old cm_un_old.
Proof.
  intros U. split.
  - exists dir1, (tx "app.map"), un_text, None, un_new, None. split; [reflexivity|]. split; [apply cm_built; [left; reflexivity|vm_compute; reflexivity|exact un_map_ok|tauto]|]. split; [left; exact U|].
    split; [right; apply cm_filled; intros o [<-|[<-|[]]]; tauto|]. split; [constructor|]. split; [exact un_clear|vm_compute; reflexivity].
  - exists dir2, (tx "app.map"), (cm_text un_line1 un_line2), None, cm_un_old, None. split; [reflexivity|]. split; [apply cm_built; [right; reflexivity|vm_compute; reflexivity|exact cm_map_un|tauto]|]. split; [left; exact U|].
    split; [right; apply cm_filled; intros o [<-|[]]; tauto|]. split; [constructor|]. split; [exact cm_clear|vm_compute; reflexivity].
Qed.
Definition cm_cmd (archives files : bool) (details : option str) (unchanged : bool) : cmd :=
  px_cmd (Args FJson2 archives false false false details files None true false true false unchanged false (Some false) None (tx "1") None false true).
Lemma cm_merged archives files details u : merged cm_uf (comparing (cm_cmd archives files details u) cm_new cm_old) uf_new (Some cm_uf_old).
Proof. destruct (cm_projects (c_args (comparing (cm_cmd archives files details u) cm_new cm_old)) eq_refl) as (P & Q). split; [exact P|]. split; [exists cm_old; split; [reflexivity|exact Q]|]. split; reflexivity. Qed.
Definition cm_alone (d : disk) (c : cmd) (x : str) := run_files d (get_memory_types chip_info) mx_render mx_encode mx_order mx_pct (reporting c x) no_faults (start []).
Definition cm_both (d : disk) (c : cmd) (x y : str) := run_files d (get_memory_types chip_info) mx_render mx_encode mx_order mx_pct (comparing c x y) no_faults (start []).
Definition cm_brief (rows : dict str sentry) := map (fun kv => (fst kv, se_size (snd kv), se_diff (snd kv), map (fun x => (snd (fst (fst x)), snd (fst x), snd x)) (uf_sections (snd kv)))) rows.
Lemma cm_merged_turned archives files details u : merged cm_uf (comparing (cm_cmd archives files details u) cm_old cm_new) cm_uf_old (Some uf_new).
Proof. destruct (cm_projects (c_args (comparing (cm_cmd archives files details u) cm_old cm_new)) eq_refl) as (P & Q). split; [exact Q|]. split; [exists cm_new; split; [reflexivity|exact P]|]. split; reflexivity. Qed.
Lemma cm_smerged details u : symbols_merged cm_un (comparing (cm_cmd false false details u) cm_new cm_old) un_new (Some cm_un_old).
Proof. destruct (cm_symbols (c_args (comparing (cm_cmd false false details u) cm_new cm_old)) eq_refl) as (P & Q). split; [exact P|]. split; [exists cm_old; split; [reflexivity|exact Q]|]. split; reflexivity. Qed.
Lemma cm_smerged_turned details u : symbols_merged cm_un (comparing (cm_cmd false false details u) cm_old cm_new) cm_un_old (Some un_new).
Proof. destruct (cm_symbols (c_args (comparing (cm_cmd false false details u) cm_old cm_new)) eq_refl) as (P & Q). split; [exact Q|]. split; [exists cm_new; split; [reflexivity|exact P]|]. split; reflexivity. Qed.
(** archives: the two named libx.a are one row; liby.a is the same in both builds *)
Definition cm_archives : cmd := cm_cmd true false None false.
Example c149_archives_example : exists s1 s2 s3 s4 r1 r2 r3 r4,
  asked false (c_args cm_archives) /\ merged cm_uf (comparing cm_archives cm_new cm_old) uf_new (Some cm_uf_old) /\ merged cm_uf (comparing cm_archives cm_old cm_new) cm_uf_old (Some uf_new) /\
  cm_alone cm_uf cm_archives cm_new = (Done tt, s1) /\ s_printed s1 = [PEntries r1] /\
  cm_brief r1 = [(tx "libx.a", 16, 0, [(tx ".text", 16, 0)]); (tx "libz.a", 8, 0, [(tx ".text", 8, 0)]); (tx "liby.a", 8, 0, [(tx ".text", 8, 0)])] /\
  cm_alone cm_uf cm_archives cm_old = (Done tt, s2) /\ s_printed s2 = [PEntries r2] /\
  cm_brief r2 = [(tx "libx.a", 8, 0, [(tx ".text", 8, 0)]); (tx "liby.a", 8, 0, [(tx ".text", 8, 0)])] /\
  cm_both cm_uf cm_archives cm_new cm_old = (Done tt, s3) /\ s_printed s3 = [PEntries r3] /\
  cm_brief r3 = [(tx "libx.a", 16, 8, [(tx ".text", 16, 8)]); (tx "libz.a", 8, 8, [(tx ".text", 8, 8)])] /\
  cm_both cm_uf cm_archives cm_old cm_new = (Done tt, s4) /\ s_printed s4 = [PEntries r4] /\
  cm_brief r4 = [(tx "libx.a", 8, -8, [(tx ".text", 8, -8)]); (tx "libz.a", 0, -8, [(tx ".text", 0, -8)])].
Proof.
  do 8 eexists. split; [reflexivity|]. split; [apply cm_merged|]. split; [apply cm_merged_turned|].
  do 3 (split; [vm_compute; reflexivity|]; split; [reflexivity|]; split; [vm_compute; reflexivity|]). split; [vm_compute; reflexivity|]. split; [reflexivity|]. vm_compute. reflexivity.
Qed.
(** object files: a.o is in archives named libx.a only *)
Lemma cm_good c : files_good uf_new cm_uf_old (tx "a.o") c.
Proof.
  intros _. exists (tx "libx.a"). intros i P Fi.
  assert (Ii : i = uf_item1 \/ i = uf_item2 \/ i = uf_item3 \/ i = uf_item4).
  { destruct P as [(o & Io & _ & Ii & _)|(o & Io & _ & Ii & _)]; [destruct Io as [<-|[<-|[]]]|destruct Io as [<-|[]]]; destruct Ii as [<-|[<-|[]]]; tauto. }
  assert (A : forall p, after_last "/"%char (p ++ "/"%char :: tx "libx.a") (tx "libx.a")) by (intros p; split; [t_not_in|right; now exists p]).
  assert (X : after_last "/"%char (tx "c.o") (tx "c.o")) by (split; [t_not_in|now left]).
  destruct Ii as [-> |[-> |[-> | ->]]]; [apply (A (tx "esp-idf/a"))| |apply (A (tx "esp-idf/b"))|]; exfalso; apply (after_last_unique _ _ _ _ X) in Fi; discriminate Fi.
Qed.
Definition cm_files : cmd := cm_cmd false true None false.
Example c149_files_example : exists s1 s2 s3 s4 r1 r2 r3 r4, (forall c, files_good uf_new cm_uf_old (tx "a.o") c) /\
  asked true (c_args cm_files) /\ merged cm_uf (comparing cm_files cm_new cm_old) uf_new (Some cm_uf_old) /\ merged cm_uf (comparing cm_files cm_old cm_new) cm_uf_old (Some uf_new) /\
  cm_alone cm_uf cm_files cm_new = (Done tt, s1) /\ s_printed s1 = [PEntries r1] /\ cm_brief r1 = [(tx "a.o", 16, 0, [(tx ".text", 16, 0)]); (tx "c.o", 16, 0, [(tx ".text", 8, 0)])] /\
  cm_alone cm_uf cm_files cm_old = (Done tt, s2) /\ s_printed s2 = [PEntries r2] /\ cm_brief r2 = [(tx "a.o", 8, 0, [(tx ".text", 8, 0)]); (tx "c.o", 8, 0, [(tx ".text", 8, 0)])] /\
  cm_both cm_uf cm_files cm_new cm_old = (Done tt, s3) /\ s_printed s3 = [PEntries r3] /\ cm_brief r3 = [(tx "a.o", 16, 8, [(tx ".text", 16, 8)]); (tx "c.o", 16, 8, [(tx ".text", 8, 0)])] /\
  cm_both cm_uf cm_files cm_old cm_new = (Done tt, s4) /\ s_printed s4 = [PEntries r4] /\ cm_brief r4 = [(tx "a.o", 8, -8, [(tx ".text", 8, -8)]); (tx "c.o", 8, -8, [(tx ".text", 0, -8)])].
Proof.
  do 8 eexists. split; [exact cm_good|]. split; [repeat split|]. split; [apply cm_merged|]. split; [apply cm_merged_turned|].
  do 3 (split; [vm_compute; reflexivity|]; split; [reflexivity|]; split; [vm_compute; reflexivity|]). split; [vm_compute; reflexivity|]. split; [reflexivity|]. vm_compute. reflexivity.
Qed.
(** symbols *)
Definition cm_details : cmd := cm_cmd false false (Some (tx "libx.a")) false.
Example c149_symbols_example : exists s1 s2 s3 s4 r1 r2 r3 r4,
  asked_symbols (c_args cm_details) (tx "libx.a") /\ symbols_merged cm_un (comparing cm_details cm_new cm_old) un_new (Some cm_un_old) /\ symbols_merged cm_un (comparing cm_details cm_old cm_new) cm_un_old (Some un_new) /\
  cm_alone cm_un cm_details cm_new = (Done tt, s1) /\ s_printed s1 = [PEntries r1] /\ cm_brief r1 = [(tx ".text.a", 16, 0, [(tx ".text", 16, 0)]); (tx ".text.c", 16, 0, [(tx ".text", 8, 0)])] /\
  cm_alone cm_un cm_details cm_old = (Done tt, s2) /\ s_printed s2 = [PEntries r2] /\ cm_brief r2 = [(tx ".text.a", 8, 0, [(tx ".text", 8, 0)]); (tx ".text.c", 8, 0, [(tx ".text", 8, 0)])] /\
  cm_both cm_un cm_details cm_new cm_old = (Done tt, s3) /\ s_printed s3 = [PEntries r3] /\ cm_brief r3 = [(tx ".text.a", 16, 8, [(tx ".text", 16, 8)]); (tx ".text.c", 16, 8, [(tx ".text", 8, 0)])] /\
  cm_both cm_un cm_details cm_old cm_new = (Done tt, s4) /\ s_printed s4 = [PEntries r4] /\ cm_brief r4 = [(tx ".text.a", 8, -8, [(tx ".text", 8, -8)]); (tx ".text.c", 8, -8, [(tx ".text", 0, -8)])].
Proof.
  do 8 eexists. split; [split; [reflexivity|split; [reflexivity|discriminate]]|]. split; [apply cm_smerged|]. split; [apply cm_smerged_turned|].
  do 3 (split; [vm_compute; reflexivity|]; split; [reflexivity|]; split; [vm_compute; reflexivity|]). split; [vm_compute; reflexivity|]. split; [reflexivity|]. vm_compute. reflexivity.
Qed.

(** ** a section's figures, for a name that is in several archives *)
(** c.o is in liby.a, and in libz.a in the newer build. The older build is reported with 8 bytes of
    it in .text, and so is the newer one; the comparison of the older with the newer one says 0
    bytes and 8 less *)
Theorem c149_refuted : exists d c x y k r s s' s2 s3 new old both round,
  a_format (c_args c) = FJson2 /\ asked true (c_args c) /\ merged d (comparing c x y) k (Some r) /\
  run_files d (get_memory_types chip_info) mx_render mx_encode mx_order mx_pct (reporting c x) no_faults (start []) = (Done tt, s) /\ s_printed s = [PEntries new] /\
  run_files d (get_memory_types chip_info) mx_render mx_encode mx_order mx_pct (reporting c y) no_faults (start []) = (Done tt, s') /\ s_printed s' = [PEntries old] /\
  run_files d (get_memory_types chip_info) mx_render mx_encode mx_order mx_pct (comparing c x y) no_faults (start []) = (Done tt, s2) /\ s_printed s2 = [PEntries both] /\
  run_files d (get_memory_types chip_info) mx_render mx_encode mx_order mx_pct (comparing c y x) no_faults (start []) = (Done tt, s3) /\ s_printed s3 = [PEntries round] /\
  ~ compares (c_args c) new old both /\ ~ turned both round.
Proof.
  exists cm_uf, cm_files, cm_old, cm_new, cm_uf_old, uf_new. do 8 eexists. split; [reflexivity|]. split; [repeat split|]. split; [apply cm_merged_turned|].
  do 4 (split; [vm_compute; reflexivity|]; split; [reflexivity|]). split.
  - intros (_ & H). specialize (H (tx "c.o") _ (ColSect (tx "IRAM") (tx ".text")) (8, 0) (8, 0) (or_intror (or_introl eq_refl))).
    assert (X : (0, -8) = (8, 8 - 8)); [|discriminate X]. apply H; left; eexists; (split; [right; left; reflexivity|reflexivity]).
  - intros (_ & H). specialize (H (tx "c.o") (ColSect (tx "IRAM") (tx ".text")) (0, -8) (8, 0)).
    assert (X : (8, 0) = (0 - -8, - -8)); [|discriminate X]. apply H; left; eexists; (split; [right; left; reflexivity|reflexivity]).
Qed.
Print Assumptions c149_refuted.
