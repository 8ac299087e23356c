(** * Property C133: output sections without size in the map file *)
From Coq Require Import Ascii String List ZArith Bool Lia.
From Verif Require Import Base MemMap Filter Pipeline PyStr MapFile SpecMap ElfRead SpecElf Deps Table Formats Main SpecMain Project Command Chips SpecProject SpecEnd FixMap FixMain FixProject PropProject PropCommand SpecEmpty ProofEmpty ProofEmpty2.
Import ListNotations.
Open Scope list_scope.
Open Scope Z_scope.

(** C133: one more output section without size in a map file changes neither the memory map
    that [get] returns (or its error), nor anything that the command does *)
Theorem c133_memory : forall d d' chips input text text', differ_in (abspath (d_cwd d) input) text text' d d' ->
  one_sizeless (splitlines text) (splitlines text') ->
  forall ls ud, get_files d' chips input ls ud = get_files d chips input ls ud.
Proof. exact same_memory. Qed.
Print Assumptions c133_memory.
Theorem c133_command : forall d d' chips fn text text', differ_in fn text text' d d' -> one_sizeless (splitlines text) (splitlines text') ->
  forall render encode ord pf c q s, run_files d' chips render encode ord pf c q s = run_files d chips render encode ord pf c q s.
Proof. exact same_run. Qed.
Print Assumptions c133_command.

(** the full claim would also cover an empty output section whose address and size are on
    the next line; it is false: the size that is read there is used for the explicit data that
    follows an empty input section in a later output section (see C07) *)
Local Notation tx := (fun s => list_ascii_of_string s%string).
Definition ey_two : list str := map tx [".a.very.long.section.name"; "                0x3ffc0000        0x0"; ""]%string.
Definition ey_rest : list str := map tx [
  ".dram0.data     0x3ffb0000       0x10";
  " .data.a        0x3ffb0000        0x8 lib.a(a.o)";
  " .data.b        0x3ffb0008        0x0 lib.a(b.o)";
  "                0x3ffb0008        0x4 LONG 0x1";
  " .data.c        0x3ffb000c        0x4 lib.a(c.o)";
  ""]%string.
Definition ey_text (bare : list str) : str := flat_map (fun l => l ++ ["010"%char]) (fx_table ++ fx_head :: bare ++ ey_rest).
Definition ey_disk (bare : list str) : disk :=
  {| d_cwd := d_cwd disk1; d_json := d_json disk1; d_isfile := d_isfile disk1; d_bytes := d_bytes disk1;
     d_text := fun fn => if fn =?= in_dir dir1 (tx "app.map") then Some (ey_text bare) else d_text disk1 fn |}.
Theorem c133_two_lines_refuted : exists d d' input text text' pre bare rest m,
  sizeless_two bare /\ Forall line_silent bare /\ prefix "Linker script and memory map" (last pre []) /\
  splitlines text = pre ++ rest /\ splitlines text' = pre ++ bare ++ rest /\
  differ_in (abspath (d_cwd d) input) text text' d d' /\
  get_files d (get_memory_types chip_info) input false None = Err NameError /\ get_files d' (get_memory_types chip_info) input false None = Ok m.
Proof.
  exists (ey_disk []), (ey_disk ey_two), (in_dir dir1 (tx "app.map")), (ey_text []), (ey_text ey_two), (fx_table ++ [fx_head]), ey_two, ey_rest. eexists.
  split; [exists (tx ".a.very.long.section.name"), [], 0x3ffc0000, (tx "0x3ffc0000"), (tx "        "), (tx "0x0"), (tx "                0x3ffc0000        0x0"), []|].
  { split; [reflexivity|]. split; [split; [t_word|t_prefix]|]. split; [t_blank|]. split; [t_num|]. split; [t_gap|]. split; [t_num|]. split; [|t_blank].
    match goal with |- line_of ?t ?s => refine (proj1 (_ : line_of t s /\ trimmed t)); t_line end. }
  split; [repeat (constructor; [apply silent_dec; vm_compute; reflexivity|]); constructor|]. split; [t_prefix|].
  split; [vm_compute; reflexivity|]. split; [vm_compute; reflexivity|].
  split; [|split; [vm_compute; reflexivity|vm_compute; reflexivity]].
  rewrite (ProofProject1.abspath_in (d_cwd (ey_disk [])) dir1 (tx "app.map")); [|exact dir1_ok|apply proper_ok; vm_compute; reflexivity].
  repeat (split; [reflexivity|]). split; [|split; cbn [ey_disk d_text]; now rewrite keq_refl].
  intros f N. cbn [ey_disk d_text]. destruct (keqP f (in_dir dir1 (tx "app.map"))); [contradiction|reflexivity].
Qed.
Print Assumptions c133_two_lines_refuted.

(** ** examples: the three forms, and a project with one of them *)
Definition ex_before : list str := firstn 12 fx_script.
Definition ex_name : list str := map tx [".noinit"; ""]%string.
Definition ex_pattern : list str := map tx [".ext_ram.bss"; " *(.ext_ram.bss .ext_ram.bss.*)"; "                0x0 PROVIDE (x = .)"; ""]%string.
Definition ex_zero : list str := map tx [".rtc.text       0x40070000        0x0"; " *(.rtc.text)"; ""]%string.
Definition ex_lines (bare : list str) : list str := fx_table ++ fx_head :: ex_before ++ bare ++ skipn 12 fx_script ++ fx_tail.
Definition ex_text (bare : list str) : str := flat_map (fun l => l ++ ["010"%char]) (ex_lines bare).
Definition ex_disk (bare : list str) : disk :=
  {| d_cwd := d_cwd disk1; d_json := d_json disk1; d_isfile := d_isfile disk1; d_bytes := d_bytes disk1;
     d_text := fun fn => if fn =?= in_dir dir1 (tx "app.map") then Some (ex_text bare) else d_text disk1 fn |}.
Ltac t_lineof := match goal with |- line_of ?t ?s => refine (proj1 (_ : line_of t s /\ trimmed t)); t_line end.
Ltac t_trim := match goal with |- trimmed ?t => refine (proj2 (_ : line_of t t /\ trimmed t)); t_line end.
Ltac t_silent := repeat (constructor; [apply silent_dec; vm_compute; reflexivity|]); constructor.
Lemma ex_sizeless : sizeless ex_name /\ sizeless ex_pattern /\ sizeless ex_zero.
Proof.
  split; [|split].
  - apply (sl_name (tx ".noinit") [] []); [split; [t_word|t_prefix]|t_blank|t_blank].
  - apply (sl_pattern (tx ".ext_ram.bss") [] (tx " *(.ext_ram.bss .ext_ram.bss.*)") (tx "*(.ext_ram.bss .ext_ram.bss.*)") (map tx ["*(.ext_ram.bss"; ".ext_ram.bss.*)"]%string) [tx "                0x0 PROVIDE (x = .)"] []).
    + split; [t_word|t_prefix].
    + t_blank.
    + t_not_prefix.
    + t_lineof.
    + t_trim.
    + t_words.
    + right. t_prefix.
    + constructor; [|constructor]. split; [t_not_prefix|]. exists (tx "0x0 PROVIDE (x = .)"). split; [t_lineof|]. split; [t_trim|]. split; t_not_prefix.
    + t_blank.
  - apply (sl_zero (tx ".rtc.text") (tx "       ") 0x40070000 (tx "0x40070000") (tx "        ") (tx "0x0") [] [tx " *(.rtc.text)"] []).
    + split; [t_word|t_prefix].
    + t_num.
    + t_num.
    + t_gap.
    + t_gap.
    + t_blank.
    + constructor; [|constructor]. split; [t_not_prefix|]. exists (tx "*(.rtc.text)"). split; [t_lineof|]. split; [t_trim|]. split; t_not_prefix.
    + t_blank.
Qed.
Lemma ex_one bare : sizeless bare -> Forall line_silent bare -> one_sizeless (ex_lines []) (ex_lines bare).
Proof.
  intros S0 L. exists fx_table, fx_head, ex_before, bare, (skipn 12 fx_script ++ fx_tail). split; [reflexivity|]. split; [reflexivity|].
  split; [unfold fx_table; cbn [map]; repeat (constructor; [t_not_prefix|]); constructor|]. split; [t_prefix|].
  split; [unfold ex_before, fx_script; cbn [map firstn]; repeat (constructor; [t_not_prefix|]); constructor|].
  split; [|auto]. right. exists (removelast ex_before), []. split; [vm_compute; reflexivity|constructor].
Qed.
Lemma ex_differ a b : differ_in (in_dir dir1 (tx "app.map")) (ex_text a) (ex_text b) (ex_disk a) (ex_disk b).
Proof.
  repeat (split; [reflexivity|]). split; [|split; cbn [ex_disk d_text]; now rewrite keq_refl].
  intros f N. cbn [ex_disk d_text]. destruct (keqP f (in_dir dir1 (tx "app.map"))); [contradiction|reflexivity].
Qed.
Definition ex_run (bare : list str) := run_files (ex_disk bare) (get_memory_types chip_info) mx_render mx_encode mx_order mx_pct (px_cmd px_args) no_faults (start []).
Example c133_example : (one_sizeless (splitlines (ex_text [])) (splitlines (ex_text ex_name)) /\ one_sizeless (splitlines (ex_text [])) (splitlines (ex_text ex_pattern)) /\
    one_sizeless (splitlines (ex_text [])) (splitlines (ex_text ex_zero))) /\
  differ_in (abspath (d_cwd (ex_disk [])) (in_dir dir1 (tx "app.map"))) (ex_text []) (ex_text ex_name) (ex_disk []) (ex_disk ex_name) /\
  splitlines (ex_text []) = fx_lines /\ splitlines (ex_text ex_name) <> fx_lines /\ fst (ex_run ex_name) = Done tt /\ s_printed (snd (ex_run ex_name)) <> [].
Proof.
  destruct ex_sizeless as (S1 & S2 & S3). split; [split; [|split]|].
  1: replace (splitlines (ex_text [])) with (ex_lines []) by (vm_compute; reflexivity); replace (splitlines (ex_text ex_name)) with (ex_lines ex_name) by (vm_compute; reflexivity); apply ex_one; [exact S1|t_silent].
  1: replace (splitlines (ex_text [])) with (ex_lines []) by (vm_compute; reflexivity); replace (splitlines (ex_text ex_pattern)) with (ex_lines ex_pattern) by (vm_compute; reflexivity); apply ex_one; [exact S2|t_silent].
  1: replace (splitlines (ex_text [])) with (ex_lines []) by (vm_compute; reflexivity); replace (splitlines (ex_text ex_zero)) with (ex_lines ex_zero) by (vm_compute; reflexivity); apply ex_one; [exact S3|t_silent].
  split; [rewrite (ProofProject1.abspath_in (d_cwd (ex_disk [])) dir1 (tx "app.map")); [apply ex_differ|exact dir1_ok|apply proper_ok; vm_compute; reflexivity]|].
  split; [vm_compute; reflexivity|]. split; [vm_compute; discriminate|]. split; [vm_compute; reflexivity|vm_compute; discriminate].
Qed.
