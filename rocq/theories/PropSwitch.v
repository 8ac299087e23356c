(** * Property C137: --lto, --no-lto and the setting of the project *)
From Coq Require Import Ascii String List ZArith Lia Bool.
From Verif Require Import Base MemMap Filter Pipeline PyStr MapFile Deps Table Formats Project SpecProject FixMap FixProject FixLto Chips Main SpecMain FixMain Command SpecEnd SpecLto2 SpecSwitch
  ProofSwitch ProofSwitch2 PropProject PropCommand PropFile.
Import ListNotations.
Open Scope list_scope.
Open Scope Z_scope.
Local Notation tx := list_ascii_of_string.

(** C137: if all projects of the command are configured without link time optimisation,
    --no-lto changes nothing; if all are configured with it, --lto changes nothing in reports
    with archives, object files or symbols.  Exceptions, messages and files are the same too,
    with any faults. *)
Theorem c137_same : forall d chips render encode ord pf c b o s, b = false \/ detailed (c_args c) -> all_configured d b c -> c_input c <> [] ->
  run_files d chips render encode ord pf (with_lto None c) o s = run_files d chips render encode ord pf (with_lto (Some b) c) o s.
Proof. exact configured_same. Qed.
Print Assumptions c137_same.
(** in the other reports --lto and --no-lto do the same, whatever the projects are *)
Theorem c137_plain : forall d chips render encode ord pf c o s, ~ detailed (c_args c) ->
  run_files d chips render encode ord pf (with_lto (Some true) c) o s = run_files d chips render encode ord pf (with_lto (Some false) c) o s.
Proof. exact plain_same. Qed.
Print Assumptions c137_plain.
(** the summary: with --show-unused, what the command does without the option it also does
    with --lto and with --no-lto.  (Full claim: [summary_without_debugging], also without
    --show-unused and also if the debugging information cannot be read; both fail, see below.) *)
Theorem c137_summary_partial : forall d chips render encode ord pf c b o s s1, summary_asked (c_args c) -> a_show_unused (c_args c) = true ->
  run_files d chips render encode ord pf (with_lto None c) o s = (Done tt, s1) -> run_files d chips render encode ord pf (with_lto (Some b) c) o s = (Done tt, s1).
Proof.
  intros d chips render encode ord pf c b o s s1 A U R. destruct b; [|exact (summary_same d chips render encode ord pf c o s s1 A U R)].
  rewrite plain_same; [exact (summary_same d chips render encode ord pf c o s s1 A U R)|]. destruct A as (A1 & A2 & A3 & _ & A5). intros [D|[D|[D|D]]]; [congruence..|]. destruct A5 as [E|[E|[E|E]]]; congruence.
Qed.
Print Assumptions c137_summary_partial.

(** ** examples *)
(** an optimised project: all of .iram0.text comes from the optimiser *)
Definition yx_script : list str := map tx [
  "";
  ".iram0.text     0x40080400       0x20";
  " .text          0x40080400       0x20 /tmp/ccXyZ.ltrans0.ltrans.o";
  ""]%string.
Definition yx_text : str := flat_map (fun l => l ++ ["010"%char]) (fx_table ++ fx_head :: yx_script ++ fx_tail).
Definition yx_disk (text : str) (elf : list Z) : disk :=
  {| d_cwd := d_cwd ox_disk; d_text := fun fn => if fn =?= in_dir dir1 (tx "app.map") then Some text else None;
     d_json := d_json ox_disk; d_isfile := d_isfile ox_disk; d_bytes := fun fn => if fn =?= in_dir dir1 (tx "app.elf") then Some elf else None |}.
Definition yx_run (d : disk) := run_files d (get_memory_types chip_info) jx_render (fun s => s) mx_order mx_pct.
Lemma yx_configured text elf : all_configured (yx_disk text elf) true (px_cmd px_args).
Proof.
  intros fn [->|E] N; [|discriminate E]. exists dir1, (tx "app.map"). split; [exact dir1_ok|]. split; [exact (proper_ok (tx "app.map") eq_refl)|]. split; [reflexivity|].
  right. split; [reflexivity|]. eexists. split; vm_compute; reflexivity.
Qed.
Lemma px_summary : summary_asked (c_args (px_cmd px_args)).
Proof. repeat split. right. right. now right. Qed.
(** without debugging information in the ELF file the detected setting makes the summary lose
    the section: 0 bytes used instead of 32 *)
Theorem c137_summary_refuted : exists d s1 s2 j1 j2 n1 n2,
  all_configured d true (px_cmd px_args) /\ ~ summary_without_debugging (yx_run d) /\
  yx_run d (with_lto None (px_cmd px_args)) no_faults (start []) = (Done tt, s1) /\ s_printed s1 = [PJson (JSummary n1 [j1])] /\ j_used j1 = 0 /\
  yx_run d (with_lto (Some true) (px_cmd px_args)) no_faults (start []) = (Done tt, s2) /\ s_printed s2 = [PJson (JSummary n2 [j2])] /\ j_used j2 = 32.
Proof.
  exists (yx_disk yx_text px_elf). do 6 eexists. split; [apply yx_configured|]. split.
  - intros W. specialize (W (px_cmd px_args) no_faults (start [])).
    destruct (yx_run (yx_disk yx_text px_elf) (with_lto None (px_cmd px_args)) no_faults (start [])) as [r s] eqn:E.
    destruct (yx_run (yx_disk yx_text px_elf) (with_lto (Some true) (px_cmd px_args)) no_faults (start [])) as [r' s'] eqn:E'.
    vm_compute in E. injection E as <- <-. vm_compute in E'. injection E' as <- <-. specialize (W _ _ px_summary eq_refl eq_refl). vm_compute in W. discriminate W.
  - split; [vm_compute; reflexivity|]. split; [reflexivity|]. split; [reflexivity|]. split; [vm_compute; reflexivity|]. split; reflexivity.
Qed.
Print Assumptions c137_summary_refuted.
(** debugging information of an unknown version: no summary, although --lto shows one *)
Definition yx_broken : list Z := firstn (Z.to_nat ox_o4 + 4) ox_file ++ 99 :: skipn (Z.to_nat ox_o4 + 5) ox_file.
Theorem c137_unreadable_refuted : exists d s1 s2,
  all_configured d true (px_cmd px_args) /\ ~ summary_whatever_debugging (yx_run d) /\
  yx_run d (with_lto None (px_cmd px_args)) no_faults (start []) = (Raised Elf_Exception, s1) /\ s_printed s1 = [] /\
  yx_run d (with_lto (Some true) (px_cmd px_args)) no_faults (start []) = (Done tt, s2) /\ length (s_printed s2) = 1%nat.
Proof.
  exists (yx_disk px_text yx_broken). do 2 eexists. split; [apply yx_configured|]. split.
  - intros W. specialize (W (px_cmd px_args) no_faults (start [])).
    destruct (yx_run (yx_disk px_text yx_broken) (with_lto None (px_cmd px_args)) no_faults (start [])) as [r s] eqn:E.
    destruct (yx_run (yx_disk px_text yx_broken) (with_lto (Some true) (px_cmd px_args)) no_faults (start [])) as [r' s'] eqn:E'.
    vm_compute in E. injection E as <- <-. vm_compute in E'. injection E' as <- <-. destruct (W _ px_summary eq_refl) as (s1 & W1). discriminate W1.
  - split; [vm_compute; reflexivity|]. split; [reflexivity|]. split; [vm_compute; reflexivity|reflexivity].
Qed.
Print Assumptions c137_unreadable_refuted.
(** --lto switches the debugging information off for a tree, which shows archives and object
    files: the archive liblog.a is missing, its bytes are those of (exe) *)
Definition yx_tree : args := mx_args FTree None None false false false false None.
Definition yx_label (n : nat) (t : string) (p : list piece) : Prop := exists l, p = [PTree l] /\ In (n, tx t) l.
Theorem c137_tree_refuted : exists s1 s2,
  all_configured ox_disk true (px_cmd yx_tree) /\ ~ lto_as_configured ox_disk (yx_run ox_disk) /\
  yx_run ox_disk (with_lto None (px_cmd yx_tree)) no_faults (start []) = (Done tt, s1) /\ yx_label 3 "liblog.a 4" (s_printed s1) /\ yx_label 3 "(exe) 4" (s_printed s1) /\
  yx_run ox_disk (with_lto (Some true) (px_cmd yx_tree)) no_faults (start []) = (Done tt, s2) /\ yx_label 3 "(exe) 16" (s_printed s2).
Proof.
  assert (C : all_configured ox_disk true (px_cmd yx_tree)).
  { intros fn [->|E] N; [|discriminate E]. exists dir1, (tx "app.map"). split; [exact dir1_ok|]. split; [exact (proper_ok (tx "app.map") eq_refl)|]. split; [reflexivity|].
    right. split; [reflexivity|]. eexists. split; vm_compute; reflexivity. }
  do 2 eexists. split; [exact C|]. split.
  - intros W. specialize (W (px_cmd yx_tree) no_faults (start []) C). apply (f_equal (fun x => match s_printed (snd x) with [PTree l] => length l | _ => O end)) in W; [vm_compute in W; discriminate W|vm_compute; discriminate].
  - split; [vm_compute; reflexivity|]. split; [eexists; split; [reflexivity|cbn; tauto]|]. split; [eexists; split; [reflexivity|cbn; tauto]|].
    split; [vm_compute; reflexivity|]. eexists. split; [reflexivity|cbn; tauto].
Qed.
Print Assumptions c137_tree_refuted.
Definition yx_archives : cmd := px_cmd (px_rows true false).
Example c137_same_example : all_configured ox_disk true yx_archives /\ detailed (c_args yx_archives) /\ c_input yx_archives <> [] /\
  yx_run ox_disk (with_lto None yx_archives) no_faults (start []) <> yx_run ox_disk (with_lto (Some false) yx_archives) no_faults (start []).
Proof.
  split.
  - intros fn [->|E] N; [|discriminate E]. exists dir1, (tx "app.map"). split; [exact dir1_ok|]. split; [exact (proper_ok (tx "app.map") eq_refl)|]. split; [reflexivity|].
    right. split; [reflexivity|]. eexists. split; vm_compute; reflexivity.
  - split; [right; left; reflexivity|]. split; [vm_compute; discriminate|]. intros E. vm_compute in E. discriminate E.
Qed.
Definition yx_unused (u : option bool) : cmd :=
  let a := px_args in px_cmd (Args (a_format a) false false false false None false None (a_no_abbrev a) (a_abbrev a) false true false false u None (a_sort a) None false true).
Example c137_summary_example : exists s n l, summary_asked (c_args (yx_unused None)) /\ a_show_unused (c_args (yx_unused None)) = true /\
  yx_run (yx_disk yx_text px_elf) (yx_unused None) no_faults (start []) = (Done tt, s) /\ s_printed s = [PJson (JSummary n l)] /\ In (tx "IRAM", 32) (map (fun j => (j_name j, j_used j)) l).
Proof. do 3 eexists. split; [repeat split; right; right; now right|]. split; [reflexivity|]. split; [vm_compute; reflexivity|]. split; [reflexivity|]. cbn. tauto. Qed.
Example c137_plain_example : ~ detailed (c_args (px_cmd yx_tree)) /\ exists s, yx_run ox_disk (with_lto (Some true) (px_cmd yx_tree)) no_faults (start []) = (Done tt, s) /\ length (s_printed s) = 1%nat.
Proof. split; [intros [E|[E|[E|E]]]; discriminate E|]. eexists. split; [vm_compute; reflexivity|reflexivity]. Qed.
