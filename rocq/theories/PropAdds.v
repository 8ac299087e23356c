(** * Property C139: the report of archives is the sum of the report of object files *)
From Coq Require Import Ascii String List ZArith Lia Bool.
From Verif Require Import Base MemMap SpecTree SpecOps Filter SpecFilter Pipeline SpecPipe SpecBuild SpecBytes SpecShape PyStr MapFile SpecMap FixMap
  ElfRead SpecElf FixElf Project SpecProject FixProject ProofProject2 SpecEnd Chips SpecChips ProofChips Deps Table SpecTable Formats Main SpecMain FixMain Command SpecCommand SpecFail SpecReport SpecAdds
  PropProject PropEnd PropCommand PropFail PropReport ProofBytes ProofAdds.
Import ListNotations.
Open Scope list_scope.
Open Scope Z_scope.

Local Notation tx := list_ascii_of_string.

(** C139: the reports of archives and of object files of a project, as JSON, alone or compared
    with a reference.  The difference of an archive is the sum of those of its object files.
    The differences of the object files of an archive that is not reported cancel.  If nothing
    is left out because it is the same in the reference, every figure of an archive (bytes and
    difference; of all memory, of a memory type, of a section) is the sum of those of its
    object files, and the archives reported are those of the object files reported.  The full
    claim, see [differences_add_up], has this for the differences in memory types and sections
    also when rows are left out; that is refuted below. *)
Theorem c139_reports_add_partial : forall d c k r o o' fs fs' s s' render encode ord pf,
  reported d (report_on false c) k r -> tells_files true k r -> a_format (c_args c) = FJson2 ->
  run_files d (get_memory_types chip_info) render encode ord pf (report_on false c) o (start fs) = (Done tt, s) ->
  run_files d (get_memory_types chip_info) render encode ord pf (report_on true c) o' (start fs') = (Done tt, s') ->
  exists archives files, s_printed s = [PEntries archives] /\ s_printed s' = [PEntries files] /\ adds_up (c_args c) archives files.
Proof. exact reports_add. Qed.
Print Assumptions c139_reports_add_partial.

(** ** example: code of an object file has moved to another section *)
Definition ax_item (n : string) (a z : Z) (o : string) : item := Item (fx n) a z (fx "lib.a") (fx o) [].
Definition ax_vectors (v : Z) : printed := Printed (fx ".iram0.vectors") 1074267136 v [ax_item ".vec.a" 1074267136 v "a.o"].
Definition ax_code (a b : Z) : printed := Printed (fx ".iram0.text") 1074268160 (a + b) [ax_item ".text.a" 1074268160 a "a.o"; ax_item ".text.b" (1074268160 + a) b "b.o"].
Definition ax_old : list str := fx_table ++ fx_head :: map fx [
  ".iram0.vectors  0x40080400        0x8";
  " .vec.a         0x40080400        0x8 lib.a(a.o)";
  "";
  ".iram0.text     0x40080800       0x14";
  " .text.a        0x40080800       0x10 lib.a(a.o)";
  " .text.b        0x40080810        0x4 lib.a(b.o)";
  ""]%string.
Definition ax_new : list str := fx_table ++ fx_head :: map fx [
  ".iram0.vectors  0x40080400       0x10";
  " .vec.a         0x40080400       0x10 lib.a(a.o)";
  "";
  ".iram0.text     0x40080800       0x10";
  " .text.a        0x40080800        0x8 lib.a(a.o)";
  " .text.b        0x40080808        0x8 lib.a(b.o)";
  ""]%string.
Definition ax_text (l : list str) : str := flat_map (fun l => l ++ ["010"%char]) l.
Definition ax_disk : disk :=
  Disk (d_cwd rx_disk) (fun fn => if fn =?= in_dir dir1 (tx "app.map") then Some (ax_text ax_new) else if fn =?= in_dir dir2 (tx "app.map") then Some (ax_text ax_old) else None)
    (d_json rx_disk) (fun _ => false) (fun _ => None).

Ltac ax_member o := apply (loc_member (fx "lib.a") (fx o)); t_not_in.
Lemma ax_old_ok : printed_map fx_regions [ax_vectors 8; ax_code 16 4] None (splitlines (ax_text ax_old)).
Proof.
  replace (splitlines (ax_text ax_old)) with ax_old by (vm_compute; reflexivity). apply pm_crt_absent; [exact fx_table_ok|t_prefix|].
  change (script_lines [ax_vectors 8; ax_code 16 4] ([] ++ ([fx ".iram0.vectors  0x40080400        0x8"] ++ [] ++ List.concat [[fx " .vec.a         0x40080400        0x8 lib.a(a.o)"]] ++ [fx ""]) ++
    ([] ++ ([fx ".iram0.text     0x40080800       0x14"] ++ [] ++ List.concat [[fx " .text.a        0x40080800       0x10 lib.a(a.o)"]; [fx " .text.b        0x40080810        0x4 lib.a(b.o)"]] ++ [fx ""]) ++ []))).
  apply script_cons; [constructor| |apply script_cons; [constructor| |constructor; constructor]].
  - apply section_lines_intro; [|constructor| |t_blank].
    + apply (sh_one (ax_vectors 8) (fx "  ") (fx "0x40080400") (fx "        ") (fx "0x8") []); [split; [t_word|t_prefix]|t_num|t_num|t_gap|t_gap|t_blank].
    + constructor; [|constructor]. match goal with |- item_lines ?i ?l => apply (item_lines_intro i l []) end; [|reflexivity|constructor].
      apply head_one with (g := fx "         ") (r := fx "0x40080400        0x8 lib.a(a.o)"); [split; [t_word|left; t_prefix]|t_gap| |t_line].
      apply (fx_rest _ "0x40080400" "        " "0x8" " " "lib.a(a.o)"); [t_num|t_gap|t_num|t_gap|cbl|discriminate|ax_member "a.o"%string|cbl].
  - apply section_lines_intro; [|constructor| |t_blank].
    + apply (sh_one (ax_code 16 4) (fx "     ") (fx "0x40080800") (fx "       ") (fx "0x14") []); [split; [t_word|t_prefix]|t_num|t_num|t_gap|t_gap|t_blank].
    + constructor; [|constructor; [|constructor]]; (match goal with |- item_lines ?i ?l => apply (item_lines_intro i l []) end; [|reflexivity|constructor]).
      * apply head_one with (g := fx "        ") (r := fx "0x40080800       0x10 lib.a(a.o)"); [split; [t_word|left; t_prefix]|t_gap| |t_line].
        apply (fx_rest _ "0x40080800" "       " "0x10" " " "lib.a(a.o)"); [t_num|t_gap|t_num|t_gap|cbl|discriminate|ax_member "a.o"%string|cbl].
      * apply head_one with (g := fx "        ") (r := fx "0x40080810        0x4 lib.a(b.o)"); [split; [t_word|left; t_prefix]|t_gap| |t_line].
        apply (fx_rest _ "0x40080810" "        " "0x4" " " "lib.a(b.o)"); [t_num|t_gap|t_num|t_gap|cbl|discriminate|ax_member "b.o"%string|cbl].
Qed.
Lemma ax_new_ok : printed_map fx_regions [ax_vectors 16; ax_code 8 8] None (splitlines (ax_text ax_new)).
Proof.
  replace (splitlines (ax_text ax_new)) with ax_new by (vm_compute; reflexivity). apply pm_crt_absent; [exact fx_table_ok|t_prefix|].
  change (script_lines [ax_vectors 16; ax_code 8 8] ([] ++ ([fx ".iram0.vectors  0x40080400       0x10"] ++ [] ++ List.concat [[fx " .vec.a         0x40080400       0x10 lib.a(a.o)"]] ++ [fx ""]) ++
    ([] ++ ([fx ".iram0.text     0x40080800       0x10"] ++ [] ++ List.concat [[fx " .text.a        0x40080800        0x8 lib.a(a.o)"]; [fx " .text.b        0x40080808        0x8 lib.a(b.o)"]] ++ [fx ""]) ++ []))).
  apply script_cons; [constructor| |apply script_cons; [constructor| |constructor; constructor]].
  - apply section_lines_intro; [|constructor| |t_blank].
    + apply (sh_one (ax_vectors 16) (fx "  ") (fx "0x40080400") (fx "       ") (fx "0x10") []); [split; [t_word|t_prefix]|t_num|t_num|t_gap|t_gap|t_blank].
    + constructor; [|constructor]. match goal with |- item_lines ?i ?l => apply (item_lines_intro i l []) end; [|reflexivity|constructor].
      apply head_one with (g := fx "         ") (r := fx "0x40080400       0x10 lib.a(a.o)"); [split; [t_word|left; t_prefix]|t_gap| |t_line].
      apply (fx_rest _ "0x40080400" "       " "0x10" " " "lib.a(a.o)"); [t_num|t_gap|t_num|t_gap|cbl|discriminate|ax_member "a.o"%string|cbl].
  - apply section_lines_intro; [|constructor| |t_blank].
    + apply (sh_one (ax_code 8 8) (fx "     ") (fx "0x40080800") (fx "       ") (fx "0x10") []); [split; [t_word|t_prefix]|t_num|t_num|t_gap|t_gap|t_blank].
    + constructor; [|constructor; [|constructor]]; (match goal with |- item_lines ?i ?l => apply (item_lines_intro i l []) end; [|reflexivity|constructor]).
      * apply head_one with (g := fx "        ") (r := fx "0x40080800        0x8 lib.a(a.o)"); [split; [t_word|left; t_prefix]|t_gap| |t_line].
        apply (fx_rest _ "0x40080800" "        " "0x8" " " "lib.a(a.o)"); [t_num|t_gap|t_num|t_gap|cbl|discriminate|ax_member "a.o"%string|cbl].
      * apply head_one with (g := fx "        ") (r := fx "0x40080808        0x8 lib.a(b.o)"); [split; [t_word|left; t_prefix]|t_gap| |t_line].
        apply (fx_rest _ "0x40080808" "        " "0x8" " " "lib.a(b.o)"); [t_num|t_gap|t_num|t_gap|cbl|discriminate|ax_member "b.o"%string|cbl].
Qed.
Ltac ax_cbn := cbn [pr_addr pr_size pr_name pr_items it_addr it_size it_pads it_name it_archive it_object].
Lemma ax_inside N a z (l : list item) : 1074267136 <= a -> 0 <= z -> a + z <= 1074397184 ->
  section_mapped fx_regions types_esp32 (printed_section (Printed N a z l)) /\ unbroken fx_regions types_esp32 (printed_section (Printed N a z l)).
Proof.
  intros H1 H2 H3. split.
  - right. intros x (A & B). cbn in A, B. exists (Region (fx "iram0_0_seg") 1074267136 130048 (fx "xr")). split; [left; reflexivity|].
    split; [discriminate|]. cbn [r_origin r_length]. split; [lia|]. intros a' Ha'. apply px_iram. lia.
  - intros x b T (A1 & A2) (B1 & B2) L _ _. cbn in A1, A2, B1, B2. split.
    + intros r [<-|[<-|[]]] X H; cbn [r_origin r_length r_name] in *; [lia|]. lia.
    + intros t lo hi It W H. apply windows_of_ok in W.
      destruct It as [<-|[<-|[<-|[<-|[<-|[<-|[<-|[]]]]]]]]; cbn in W; repeat (destruct W as [W|W]; [injection W as <- <-; lia|]); contradiction.
Qed.
Lemma ax_built d dir l v a b : (forall fn, d_isfile d fn = false) -> directory dir -> description d dir = Some (JObj px_object) -> d_text d (in_dir dir (tx "app.map")) = Some (ax_text l) ->
  printed_map fx_regions [ax_vectors v; ax_code a b] None (splitlines (ax_text l)) -> 0 < v <= 1024 -> 0 < a <= 1024 -> 0 < b <= 1024 ->
  built d dir (tx "app.map") (ax_text l) fx_regions [ax_vectors v; ax_code a b] None None types_esp32 /\ filled None types_esp32 [ax_vectors v; ax_code a b].
Proof.
  intros Di Dd De Dt Mp Hv Ha Hb. split; [split|].
  - exact Dd.
  - apply proper_ok. reflexivity.
  - exact Dt.
  - exact Mp.
  - constructor; [|constructor; [|constructor]]; (split; [|split]).
    + constructor; [intros x n []|constructor].
    + constructor.
    + exact I.
    + constructor; [intros x n []|constructor; [intros x n []|constructor]].
    + constructor; [|constructor]. unfold regular_item, ax_code, ax_item. ax_cbn. split; [lia|]. reflexivity.
    + split; [|exact I]. unfold ax_item. ax_cbn. lia.
  - apply (image_missing _ _ _ px_object (tx "app.elf") (in_dir dir (tx "app.elf")) De px_describes); [|apply Di]. right. split; [|reflexivity]. intros (r & R). discriminate R.
  - exists (tx "esp32"). split; [|exact types_esp32_ok].
    apply (target_described _ _ _ _ px_object (tx "app.elf")); [exact De|exact px_describes|reflexivity|discriminate].
  - constructor; [|constructor; [|constructor]]; intros _; (split; [|split]).
    + apply ax_inside; lia.
    + apply ax_inside; lia.
    + unfold ax_vectors, ax_item; constructor; [ax_cbn; lia|constructor].
    + apply ax_inside; lia.
    + apply ax_inside; lia.
    + unfold ax_code, ax_item; constructor; [ax_cbn; lia|constructor; [ax_cbn; lia|constructor]].
  - intros l1 o l2 o' l3 E. destruct l1 as [|x l1].
    + injection E as <- E. destruct l2 as [|y l2]; [injection E as <- <-; discriminate|]. injection E as _ E. destruct l2; discriminate E.
    + injection E as _ E. destruct l1 as [|y l1]; [injection E as _ E; destruct l2; discriminate E|]. injection E as _ E. destruct l1; discriminate E.
  - constructor; [|constructor; [|constructor]]; intros C T x B G.
    + change (1074267136 <= x < 1074267136 + v) in B. exists (ax_item ".vec.a" 1074267136 v "a.o"), 1074267136. split; [left; reflexivity|]. split; [unfold ax_item; ax_cbn; lia|].
      destruct G as [(N & X)|(N & t & F & Et)]; [left; now split|]. right. split; [exact N|].
      exists t. split; [|exact Et]. rewrite (first_covering_unique _ _ _ _ F (px_first x ltac:(lia))). apply px_first. lia.
    + change (1074268160 <= x < 1074268160 + (a + b)) in B. exists (ax_item ".text.a" 1074268160 a "a.o"), 1074268160. split; [left; reflexivity|]. split; [unfold ax_item; ax_cbn; lia|].
      destruct G as [(N & X)|(N & t & F & Et)]; [left; now split|]. right. split; [exact N|].
      exists t. split; [|exact Et]. rewrite (first_covering_unique _ _ _ _ F (px_first x ltac:(lia))). apply px_first. lia.
Qed.
Definition ax_k : account := Account fx_regions [ax_vectors 16; ax_code 8 8] None types_esp32.
Definition ax_r : account := Account fx_regions [ax_vectors 8; ax_code 16 4] None types_esp32.
Definition ax_cmd (unchanged : bool) : cmd :=
  px_cmd (Args FJson2 false false false false None false (Some (in_dir dir2 (tx "app.map"))) false true false false unchanged false (Some false) None (tx "1") None true true).
Lemma ax_reported u : reported ax_disk (report_on false (ax_cmd u)) ax_k (Some ax_r).
Proof.
  destruct (ax_built ax_disk dir1 ax_new 16 8 8 (fun _ => eq_refl) dir1_ok eq_refl ltac:(vm_compute; reflexivity) ax_new_ok) as (B1 & F1); [lia|lia|lia|].
  destruct (ax_built ax_disk dir2 ax_old 8 16 4 (fun _ => eq_refl) dir2_ok eq_refl ltac:(vm_compute; reflexivity) ax_old_ok) as (B2 & F2); [lia|lia|lia|].
  split; [|split; [|split; reflexivity]].
  - exists dir1, (tx "app.map"), (ax_text ax_new), None. split; [reflexivity|]. split; [exact B1|]. split; [left; reflexivity|]. right. exact F1.
  - exists (in_dir dir2 (tx "app.map")). split; [reflexivity|]. exists dir2, (tx "app.map"), (ax_text ax_old), None. split; [reflexivity|]. split; [exact B2|]. split; [left; reflexivity|]. right. exact F2.
Qed.
Lemma ax_tells : tells_files true ax_k (Some ax_r).
Proof.
  intros _ i [(o & Io & _ & Ii & _)|(o & Io & _ & Ii & _)]; cbn in Io; repeat (destruct Io as [<-|Io]; [cbn in Ii; repeat (destruct Ii as [<-|Ii]; [t_not_in|]); contradiction|]); contradiction.
Qed.
Definition ax_run (files u : bool) := run_files ax_disk (get_memory_types chip_info) mx_render mx_encode mx_order mx_pct (report_on files (ax_cmd u)) no_faults (start []).
Definition ax_figures (d : dict str sentry) :=
  map (fun kv => (fst kv, se_size (snd kv), se_diff (snd kv), concat (map (fun T => map (fun S => (fst S, ss_size (snd S), ss_diff (snd S))) (st_sections (snd T))) (se_types (snd kv))))) d.
Example c139_example : exists s archives s' files,
  reported ax_disk (report_on false (ax_cmd true)) ax_k (Some ax_r) /\ tells_files true ax_k (Some ax_r) /\ shows_all (c_args (ax_cmd true)) /\
  ax_run false true = (Done tt, s) /\ s_printed s = [PEntries archives] /\
  ax_figures archives = [(tx "lib.a", 32, 4, [(tx ".iram0.vectors", 16, 8); (tx ".iram0.text", 16, -4)])] /\
  ax_run true true = (Done tt, s') /\ s_printed s' = [PEntries files] /\
  ax_figures files = [ (tx "lib.a:b.o", 8, 4, [(tx ".iram0.text", 8, 4); (tx ".iram0.vectors", 0, 0)]);
                       (tx "lib.a:a.o", 24, 0, [(tx ".iram0.vectors", 16, 8); (tx ".iram0.text", 8, -8)]) ].
Proof.
  do 4 eexists. split; [apply ax_reported|]. split; [exact ax_tells|]. split; [right; reflexivity|].
  split; [vm_compute; reflexivity|]. split; [reflexivity|]. split; [vm_compute; reflexivity|]. split; [vm_compute; reflexivity|]. split; [reflexivity|]. vm_compute. reflexivity.
Qed.

(** the same without --show-unchanged: a.o, of which 8 bytes have moved from one section to the
    other, is left out of the report of object files.  The archive has 4 bytes less in
    .iram0.text, but its only object file in the report has 4 bytes more there. *)
Theorem c139_moved_refuted : exists d c k r o fs s s' render encode ord pf archives files,
  reported d (report_on false c) k r /\ tells_files true k r /\ a_format (c_args c) = FJson2 /\
  run_files d (get_memory_types chip_info) render encode ord pf (report_on false c) o (start fs) = (Done tt, s) /\
  run_files d (get_memory_types chip_info) render encode ord pf (report_on true c) o (start fs) = (Done tt, s') /\
  s_printed s = [PEntries archives] /\ s_printed s' = [PEntries files] /\ ~ differences_add_up archives files.
Proof.
  exists ax_disk, (ax_cmd false), ax_k, (Some ax_r), no_faults, []. do 2 eexists. exists mx_render, mx_encode, mx_order, mx_pct. do 2 eexists.
  split; [apply ax_reported|]. split; [exact ax_tells|]. split; [reflexivity|]. split; [vm_compute; reflexivity|]. split; [vm_compute; reflexivity|]. split; [reflexivity|]. split; [reflexivity|].
  intros A. specialize (A (tx "lib.a") (part_of (tx "lib.a")) _ (ColSect (tx "IRAM") (tx ".iram0.text")) (part_of_ok _) (or_introl eq_refl)). vm_compute in A. discriminate A.
Qed.
Print Assumptions c139_moved_refuted.
