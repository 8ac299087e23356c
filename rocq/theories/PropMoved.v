(** * Property C142: what is only moved does not show up in the reports *)
From Coq Require Import Ascii String List ZArith Lia Bool Permutation.
From Verif Require Import Base MemMap SpecTree SpecOps Filter SpecFilter Pipeline SpecPipe SpecBuild SpecBytes SpecShape PyStr MapFile SpecMap FixMap
  ElfRead SpecElf FixElf Project SpecProject FixProject ProofProject2 SpecEnd Chips SpecChips ProofChips Deps Table SpecTable Formats Main SpecMain FixMain Command SpecCommand SpecFail SpecReport SpecAdds SpecMoved
  PropProject PropEnd PropCommand PropFail PropReport PropAdds ProofBytes ProofMoved.
Import ListNotations.
Open Scope list_scope.
Open Scope Z_scope.

Local Notation tx := list_ascii_of_string.

(** C142: two builds of which one has the output sections and the input sections of the other,
    perhaps in another order, at other addresses of the same memory types and under other
    names of input sections.  The JSON reports on archives or object files of the two, alone
    or compared with the same reference, have the same rows with the same figures. *)
Theorem c142_same : forall files d c fn k k' r o o' fs fs' s s' render encode ord pf,
  reported d c k r -> reported d (with_input c fn) k' r -> moved k k' -> asked files (c_args c) -> (given (a_archive_details (c_args c)) = true -> a_use_dwarf (c_args c) <> Some true) ->
  tells_files files k r -> a_format (c_args c) = FJson2 ->
  run_files d (get_memory_types chip_info) render encode ord pf c o (start fs) = (Done tt, s) ->
  run_files d (get_memory_types chip_info) render encode ord pf (with_input c fn) o' (start fs') = (Done tt, s') ->
  exists rows rows', s_printed s = [PEntries rows] /\ s_printed s' = [PEntries rows'] /\ rows_in rows rows' /\ rows_in rows' rows.
Proof. exact moved_same. Qed.
Print Assumptions c142_same.

(** the two builds compared with each other: nothing is reported, and with --show-unchanged
    every difference is nought *)
Theorem c142_compared : forall files d c k k' o fs s render encode ord pf,
  reported d c k (Some k') -> moved k k' -> asked files (c_args c) -> (given (a_archive_details (c_args c)) = true -> a_use_dwarf (c_args c) <> Some true) ->
  tells_files files k (Some k') -> a_format (c_args c) = FJson2 ->
  run_files d (get_memory_types chip_info) render encode ord pf c o (start fs) = (Done tt, s) ->
  exists rows, s_printed s = [PEntries rows] /\ (a_show_unchanged (c_args c) = false -> rows = []) /\
    forall n e c, In (n, e) rows -> snd (col_value e c) = 0.
Proof. exact moved_nothing. Qed.
Print Assumptions c142_compared.

(** ** example: the code comes before the vectors, and b.o before a.o *)
Definition mo_code : printed := Printed (fx ".iram0.text") 1074267136 16 [ax_item ".text.b.1" 1074267136 8 "b.o"; ax_item ".text.a" 1074267144 8 "a.o"].
Definition mo_vectors : printed := Printed (fx ".iram0.vectors") 1074268160 16 [ax_item ".vec.a" 1074268160 16 "a.o"].
Definition mo_lines : list str := fx_table ++ fx_head :: map fx [
  ".iram0.text     0x40080400       0x10";
  " .text.b.1      0x40080400        0x8 lib.a(b.o)";
  " .text.a        0x40080408        0x8 lib.a(a.o)";
  "";
  ".iram0.vectors  0x40080800       0x10";
  " .vec.a         0x40080800       0x10 lib.a(a.o)";
  ""]%string.
Definition mo_disk : disk :=
  Disk (d_cwd rx_disk) (fun fn => if fn =?= in_dir dir1 (tx "app.map") then Some (ax_text ax_new) else if fn =?= in_dir dir2 (tx "app.map") then Some (ax_text mo_lines) else None)
    (d_json rx_disk) (fun _ => false) (fun _ => None).
Lemma mo_ok : printed_map fx_regions [mo_code; mo_vectors] None (splitlines (ax_text mo_lines)).
Proof.
  replace (splitlines (ax_text mo_lines)) with mo_lines by (vm_compute; reflexivity). apply pm_crt_absent; [exact fx_table_ok|t_prefix|].
  change (script_lines [mo_code; mo_vectors] (
    [] ++ ([fx ".iram0.text     0x40080400       0x10"] ++ [] ++ List.concat [[fx " .text.b.1      0x40080400        0x8 lib.a(b.o)"]; [fx " .text.a        0x40080408        0x8 lib.a(a.o)"]] ++ [fx ""]) ++
    ([] ++ ([fx ".iram0.vectors  0x40080800       0x10"] ++ [] ++ List.concat [[fx " .vec.a         0x40080800       0x10 lib.a(a.o)"]] ++ [fx ""]) ++ []))).
  apply script_cons; [constructor| |apply script_cons; [constructor| |constructor; constructor]].
  - apply section_lines_intro; [|constructor| |t_blank].
    + apply (sh_one mo_code (fx "     ") (fx "0x40080400") (fx "       ") (fx "0x10") []); [split; [t_word|t_prefix]|t_num|t_num|t_gap|t_gap|t_blank].
    + constructor; [|constructor; [|constructor]]; (match goal with |- item_lines ?i ?l => apply (item_lines_intro i l []) end; [|reflexivity|constructor]).
      * apply head_one with (g := fx "      ") (r := fx "0x40080400        0x8 lib.a(b.o)"); [split; [t_word|left; t_prefix]|t_gap| |t_line].
        apply (fx_rest _ "0x40080400" "        " "0x8" " " "lib.a(b.o)"); [t_num|t_gap|t_num|t_gap|cbl|discriminate|ax_member "b.o"%string|cbl].
      * apply head_one with (g := fx "        ") (r := fx "0x40080408        0x8 lib.a(a.o)"); [split; [t_word|left; t_prefix]|t_gap| |t_line].
        apply (fx_rest _ "0x40080408" "        " "0x8" " " "lib.a(a.o)"); [t_num|t_gap|t_num|t_gap|cbl|discriminate|ax_member "a.o"%string|cbl].
  - apply section_lines_intro; [|constructor| |t_blank].
    + apply (sh_one mo_vectors (fx "  ") (fx "0x40080800") (fx "       ") (fx "0x10") []); [split; [t_word|t_prefix]|t_num|t_num|t_gap|t_gap|t_blank].
    + constructor; [|constructor]. match goal with |- item_lines ?i ?l => apply (item_lines_intro i l []) end; [|reflexivity|constructor].
      apply head_one with (g := fx "         ") (r := fx "0x40080800       0x10 lib.a(a.o)"); [split; [t_word|left; t_prefix]|t_gap| |t_line].
      apply (fx_rest _ "0x40080800" "       " "0x10" " " "lib.a(a.o)"); [t_num|t_gap|t_num|t_gap|cbl|discriminate|ax_member "a.o"%string|cbl].
Qed.
Lemma mo_built : built mo_disk dir2 (tx "app.map") (ax_text mo_lines) fx_regions [mo_code; mo_vectors] None None types_esp32 /\ filled None types_esp32 [mo_code; mo_vectors].
Proof.
  split; [split|].
  - exact dir2_ok.
  - apply proper_ok. reflexivity.
  - vm_compute. reflexivity.
  - exact mo_ok.
  - constructor; [|constructor; [|constructor]]; (split; [|split]).
    + constructor; [intros x n []|constructor; [intros x n []|constructor]].
    + constructor; [|constructor]. unfold regular_item, mo_code, ax_item. ax_cbn. split; [lia|]. reflexivity.
    + split; [|exact I]. unfold ax_item. ax_cbn. lia.
    + constructor; [intros x n []|constructor].
    + constructor.
    + exact I.
  - apply (image_missing _ _ _ px_object (tx "app.elf") (in_dir dir2 (tx "app.elf"))); [reflexivity|exact px_describes| |reflexivity]. right. split; [|reflexivity]. intros (r & R). discriminate R.
  - exists (tx "esp32"). split; [|exact types_esp32_ok].
    apply (target_described _ _ _ _ px_object (tx "app.elf")); [reflexivity|exact px_describes|reflexivity|discriminate].
  - constructor; [|constructor; [|constructor]]; intros _; (split; [|split]).
    + apply ax_inside; lia.
    + apply ax_inside; lia.
    + unfold mo_code, ax_item; constructor; [ax_cbn; lia|constructor; [ax_cbn; lia|constructor]].
    + apply ax_inside; lia.
    + apply ax_inside; lia.
    + unfold mo_vectors, ax_item; constructor; [ax_cbn; lia|constructor].
  - intros l1 o l2 o' l3 E. destruct l1 as [|x l1].
    + injection E as <- E. destruct l2 as [|y l2]; [injection E as <- <-; discriminate|]. injection E as _ E. destruct l2; discriminate E.
    + injection E as _ E. destruct l1 as [|y l1]; [injection E as _ E; destruct l2; discriminate E|]. injection E as _ E. destruct l1; discriminate E.
  - constructor; [|constructor; [|constructor]]; intros C T x B G.
    + change (1074267136 <= x < 1074267136 + 16) in B. exists (ax_item ".text.a" 1074267144 8 "a.o"), 1074267144. split; [right; left; reflexivity|]. split; [unfold ax_item; ax_cbn; lia|].
      destruct G as [(N & X)|(N & t & F & Et)]; [left; now split|]. right. split; [exact N|].
      exists t. split; [|exact Et]. rewrite (first_covering_unique _ _ _ _ F (px_first x ltac:(lia))). apply px_first. lia.
    + change (1074268160 <= x < 1074268160 + 16) in B. exists (ax_item ".vec.a" 1074268160 16 "a.o"), 1074268160. split; [left; reflexivity|]. split; [unfold ax_item; ax_cbn; lia|].
      destruct G as [(N & X)|(N & t & F & Et)]; [left; now split|]. right. split; [exact N|].
      exists t. split; [|exact Et]. rewrite (first_covering_unique _ _ _ _ F (px_first x ltac:(lia))). apply px_first. lia.
Qed.
Definition mo_k : account := Account fx_regions [mo_code; mo_vectors] None types_esp32.
(** both are in IRAM *)
Lemma mo_memory N a a' n : 1074267136 <= a -> a + n <= 1074397184 -> 1074267136 <= a' -> a' + n <= 1074397184 -> same_memory types_esp32 N a a' n.
Proof.
  assert (H : forall x x' T, 1074267136 <= x < 1074397184 -> 1074267136 <= x' < 1074397184 -> byte_goes types_esp32 N x T -> byte_goes types_esp32 N x' T).
  { intros x x' T B B' [G|(G & t & F & Et)]; [now left|]. right. split; [exact G|]. exists t. split; [|exact Et]. rewrite (first_covering_unique _ _ _ _ F (px_first x ltac:(lia))). apply px_first. lia. }
  intros H1 H2 H3 H4 j T J. split; apply H; lia.
Qed.
Lemma mo_moved : moved ax_k mo_k.
Proof.
  split; [reflexivity|]. exists [mo_vectors; mo_code]. split; [apply perm_swap|].
  constructor; [|constructor; [|constructor]]; (split; [reflexivity|split; [reflexivity|split; [apply mo_memory; cbn; lia|split; [reflexivity|]]]]).
  - exists [ax_item ".vec.a" 1074268160 16 "a.o"]. split; [apply Permutation_refl|].
    constructor; [|constructor]. (split; [reflexivity|split; [reflexivity|split; [reflexivity|apply mo_memory; cbn; lia]]]).
  - exists [ax_item ".text.a" 1074267144 8 "a.o"; ax_item ".text.b.1" 1074267136 8 "b.o"]. split; [apply perm_swap|].
    constructor; [|constructor; [|constructor]]; (split; [reflexivity|split; [reflexivity|split; [reflexivity|apply mo_memory; cbn; lia]]]).
Qed.
Definition mo_cmd (diff : option str) (unchanged : bool) : cmd :=
  px_cmd (Args FJson2 false false false false None true diff false true false false unchanged false (Some false) None (tx "1") None true true).
Definition mo_map : str := in_dir dir2 (tx "app.map").
Lemma mo_at1 a : a_use_dwarf a = Some false -> project_at mo_disk a (in_dir dir1 (tx "app.map")) ax_k.
Proof.
  intros U. destruct (ax_built mo_disk dir1 ax_new 16 8 8 (fun _ => eq_refl) dir1_ok eq_refl ltac:(vm_compute; reflexivity) ax_new_ok) as (B1 & F1); [lia|lia|lia|].
  exists dir1, (tx "app.map"), (ax_text ax_new), None. split; [reflexivity|]. split; [exact B1|]. split; [unfold without_dwarf; rewrite U; left; reflexivity|]. right. exact F1.
Qed.
Lemma mo_at2 a : a_use_dwarf a = Some false -> project_at mo_disk a mo_map mo_k.
Proof.
  intros U. destruct mo_built as (B & F). exists dir2, (tx "app.map"), (ax_text mo_lines), None. split; [reflexivity|]. split; [exact B|]. split; [unfold without_dwarf; rewrite U; left; reflexivity|]. right. exact F.
Qed.
Lemma mo_reported u : reported mo_disk (mo_cmd (Some mo_map) u) ax_k (Some mo_k).
Proof. split; [now apply mo_at1|]. split; [|split; reflexivity]. exists mo_map. split; [reflexivity|]. now apply mo_at2. Qed.
Lemma mo_tells : tells_files true ax_k (Some mo_k).
Proof.
  intros _ i [(o & Io & _ & Ii & _)|(o & Io & _ & Ii & _)]; cbn in Io; repeat (destruct Io as [<-|Io]; [cbn in Ii; repeat (destruct Ii as [<-|Ii]; [t_not_in|]); contradiction|]); contradiction.
Qed.
Definition mo_run (c : cmd) := run_files mo_disk (get_memory_types chip_info) mx_render mx_encode mx_order mx_pct c no_faults (start []).
Example c142_example : exists s rows s' rows' s2 s3 rows3,
  reported mo_disk (mo_cmd None false) ax_k None /\ reported mo_disk (with_input (mo_cmd None false) mo_map) mo_k None /\ moved ax_k mo_k /\
  mo_run (mo_cmd None false) = (Done tt, s) /\ s_printed s = [PEntries rows] /\
  mo_run (with_input (mo_cmd None false) mo_map) = (Done tt, s') /\ s_printed s' = [PEntries rows'] /\
  ax_figures rows = [ (tx "lib.a:a.o", 24, 0, [(tx ".iram0.text", 8, 0); (tx ".iram0.vectors", 16, 0)]); (tx "lib.a:b.o", 8, 0, [(tx ".iram0.text", 8, 0); (tx ".iram0.vectors", 0, 0)]) ] /\
  ax_figures rows' = [ (tx "lib.a:a.o", 24, 0, [(tx ".iram0.vectors", 16, 0); (tx ".iram0.text", 8, 0)]); (tx "lib.a:b.o", 8, 0, [(tx ".iram0.vectors", 0, 0); (tx ".iram0.text", 8, 0)]) ] /\
  reported mo_disk (mo_cmd (Some mo_map) false) ax_k (Some mo_k) /\ tells_files true ax_k (Some mo_k) /\
  mo_run (mo_cmd (Some mo_map) false) = (Done tt, s2) /\ s_printed s2 = [PEntries []] /\
  mo_run (mo_cmd (Some mo_map) true) = (Done tt, s3) /\ s_printed s3 = [PEntries rows3] /\ List.length rows3 = 2%nat.
Proof.
  do 7 eexists. split; [split; [now apply mo_at1|split; [reflexivity|split; reflexivity]]|]. split; [split; [now apply mo_at2|split; [reflexivity|split; reflexivity]]|]. split; [exact mo_moved|].
  split; [vm_compute; reflexivity|]. split; [reflexivity|]. split; [vm_compute; reflexivity|]. split; [reflexivity|]. split; [vm_compute; reflexivity|]. split; [vm_compute; reflexivity|].
  split; [apply mo_reported|]. split; [exact mo_tells|]. split; [vm_compute; reflexivity|]. split; [reflexivity|]. split; [vm_compute; reflexivity|]. split; reflexivity.
Qed.
