(** * Property C152: the archives make up what the summary has, but for bytes in no input section *)
From Coq Require Import Ascii String List ZArith Lia Bool.
From Verif Require Import Base MemMap SpecTree SpecOps Filter SpecFilter Pipeline SpecPipe SpecBuild SpecBytes SpecShape SpecSyms PyStr MapFile SpecMap FixMap
  ElfRead SpecElf FixElf Project SpecProject FixProject ProofProject2 SpecEnd Chips SpecChips ProofChips Deps Table SpecTable Formats Main SpecMain FixMain Command SpecCommand SpecFail SpecReport SpecMerge SpecAdds SpecGroup SpecCompareUsage SpecMakeUp
  PropProject PropEnd PropCommand PropFail PropReport PropMerge PropAdds PropGroupUsage ProofMakeUp.
Import ListNotations.
Open Scope list_scope.
Open Scope Z_scope.

Local Notation tx := (fun s => list_ascii_of_string s%string).

(** C152: the summary, and the report on archives or object files as JSON, of a project alone or
    compared with a reference, nothing being left out because it is the same in the reference.
    If the input sections do not overlap, the bytes (and the difference) of each memory type and
    of each section are the sums of those of the rows, and the bytes in no input section *)
Theorem c152_whole : forall files d c render encode ord pf,
  of_types (c_args c) -> a_format (c_args c) = FTable \/ a_format (c_args c) = FText \/ a_format (c_args c) = FCsv ->
  forall k r o o' fs fs' s s', reported d (json_report files c) k r -> separate k -> match r with None => True | Some q => separate q end -> tells_files files k r -> shows_all (c_args c) ->
  run_files d (get_memory_types chip_info) render encode ord pf c o (start fs) = (Done tt, s) ->
  run_files d (get_memory_types chip_info) render encode ord pf (json_report files c) o' (start fs') = (Done tt, s') ->
  exists gs rows, shows_usage (c_args c) s gs /\ s_printed s' = [PEntries rows] /\ accounts_for k r gs rows.
Proof. exact summary_accounts. Qed.
Print Assumptions c152_whole.
(** if there are no such bytes, the sums are what the summary has *)
Theorem c152_packed : forall files d c render encode ord pf,
  of_types (c_args c) -> a_format (c_args c) = FTable \/ a_format (c_args c) = FText \/ a_format (c_args c) = FCsv ->
  forall k r o o' fs fs' s s', reported d (json_report files c) k r -> separate k -> match r with None => True | Some q => separate q end -> tells_files files k r -> shows_all (c_args c) ->
  packed k -> match r with None => True | Some q => packed q end ->
  run_files d (get_memory_types chip_info) render encode ord pf c o (start fs) = (Done tt, s) ->
  run_files d (get_memory_types chip_info) render encode ord pf (json_report files c) o' (start fs') = (Done tt, s') ->
  exists gs rows, shows_usage (c_args c) s gs /\ s_printed s' = [PEntries rows] /\ equals_sums gs rows.
Proof. exact summary_sums. Qed.
Print Assumptions c152_packed.

(** ** example: 8 of the 32 bytes of the project are in no input section *)
Definition wh_args : args :=
  Args FTable false false false false None false (Some (in_dir dir2 (tx "app.map"))) true false false false true false (Some false) None (tx "1") None false false.
Definition wh_cmd : cmd := px_cmd wh_args.
Lemma wh_reported files : reported rx_disk (json_report files wh_cmd) rx_new (Some rx_old).
Proof.
  split; [|split; [|split; reflexivity]].
  - exists dir1, (tx "app.map"), px_text, (Some fx_entries). split; [reflexivity|]. split; [exact rx_built1|]. split; [left; reflexivity|]. right. exact px_filled.
  - exists (in_dir dir2 (tx "app.map")). split; [reflexivity|]. exists dir2, (tx "app.map"), rx_text, None. split; [reflexivity|]. split; [exact rx_built2|]. split; [left; reflexivity|]. right. exact rx_filled.
Qed.
Lemma wh_separate : separate rx_new /\ separate rx_old.
Proof.
  split; intros o Io _.
  - destruct Io as [<-|[<-|[]]]; [|constructor; constructor]. constructor; [|constructor; constructor]. constructor; [|constructor]. intros x (A & B). unfold in_item in A, B. cbn in A, B. lia.
  - destruct Io as [<-|[]]. constructor; constructor.
Qed.
Definition wh_run (c : cmd) := run_files rx_disk (get_memory_types chip_info) mx_render mx_encode mx_order mx_pct c no_faults (start []).
Example c152_example : exists s tb s1 archives s2 files,
  reported rx_disk (json_report false wh_cmd) rx_new (Some rx_old) /\ reported rx_disk (json_report true wh_cmd) rx_new (Some rx_old) /\ separate rx_new /\ separate rx_old /\
  tells_files true rx_new (Some rx_old) /\ shows_all wh_args /\ of_types wh_args /\
  wh_run wh_cmd = (Done tt, s) /\ s_printed s = [PTable tb] /\ gu_cells tb = [(tx "IRAM", tx "32 +16"); (tx ".iram0.text", tx "32 +16")] /\
  wh_run (json_report false wh_cmd) = (Done tt, s1) /\ s_printed s1 = [PEntries archives] /\
  ax_figures archives = [(tx "esp-idf/main/libmain.a", 8, -8, [(tx ".iram0.text", 8, -8)]); (tx "(exe)", 16, 16, [(tx ".iram0.text", 16, 16)])] /\
  column_sum archives (ColType (tx "IRAM")) = (24, 8) /\
  wh_run (json_report true wh_cmd) = (Done tt, s2) /\ s_printed s2 = [PEntries files] /\ column_sum files (ColType (tx "IRAM")) = (24, 8).
Proof.
  do 6 eexists. split; [apply wh_reported|]. split; [apply wh_reported|]. split; [apply wh_separate|]. split; [apply wh_separate|]. split; [apply rx_tells|]. split; [right; reflexivity|]. split; [repeat split|].
  split; [vm_compute; reflexivity|]. split; [reflexivity|]. split; [vm_compute; reflexivity|]. split; [vm_compute; reflexivity|]. split; [reflexivity|]. split; [vm_compute; reflexivity|]. split; [vm_compute; reflexivity|].
  split; [vm_compute; reflexivity|]. split; [reflexivity|]. vm_compute. reflexivity.
Qed.

(** ** example: no such bytes *)
Definition wh_plain : cmd := px_cmd (Args FTable false false false false None false None true false false false false false (Some false) None (tx "1") None false false).
Definition wh_run2 (c : cmd) := run_files vx_disk (get_memory_types chip_info) mx_render mx_encode mx_order mx_pct c no_faults (start []).
Example c152_packed_example : exists s tb s1 archives,
  reported vx_disk (json_report false wh_plain) vx_new None /\ separate vx_new /\ packed vx_new /\ tells_files false vx_new None /\ shows_all (c_args wh_plain) /\ of_types (c_args wh_plain) /\
  wh_run2 wh_plain = (Done tt, s) /\ s_printed s = [PTable tb] /\ gu_cells tb = [(tx "IRAM", tx "32"); (tx ".iram1.text", tx "16"); (tx ".iram0.text", tx "16")] /\
  wh_run2 (json_report false wh_plain) = (Done tt, s1) /\ s_printed s1 = [PEntries archives] /\ column_sum archives (ColType (tx "IRAM")) = (32, 0) /\
  column_sum archives (ColSect (tx "IRAM") (tx ".iram1.text")) = (16, 0).
Proof.
  do 4 eexists. split; [|split; [|split; [|split; [discriminate|split; [left; reflexivity|split; [repeat split|]]]]]].
  - split; [|split; [reflexivity|split; reflexivity]]. exists dir1, (tx "app.map"), vx_text, None. split; [reflexivity|]. split; [exact vx_built1|]. split; [left; reflexivity|]. right. apply vx_filled.
    intros o [<-|[<-|[]]]; eexists; repeat split.
  - intros o [<-|[<-|[]]] _; constructor; constructor.
  - intros o x [<-|[<-|[]]] _ X; eexists; (split; [left; reflexivity|]); exact X.
  - split; [vm_compute; reflexivity|]. split; [reflexivity|]. split; [vm_compute; reflexivity|]. split; [vm_compute; reflexivity|]. split; [reflexivity|]. split; vm_compute; reflexivity.
Qed.
