(** * Projects that cannot be reported are diagnosed (C93), all others are reported (C94) *)
From Coq Require Import Ascii String List ZArith Lia Bool.
From Verif Require Import Base MemMap SpecTree Filter Pipeline SpecPipe PyStr MapFile SpecMap Deps Table SpecTable Formats ElfRead SpecElf Project SpecProject ProofProject1 ProofProject2 SpecEnd Chips SpecChips ProofChips Main SpecMain Command SpecCommand SpecFail ProofFail1 ProofFail2 ProofFail3 ProofFail4 FixMap FixElf FixProject PropProject PropEnd FixMain PropCommand.
Import ListNotations.
Open Scope list_scope.
Open Scope Z_scope.

(** ** C93: a message and SystemExit, no output, no file changed *)
(** the map file cannot be read, or is rejected *)
Theorem c93_unreadable_map : forall d chips render encode ord pf c dir name s,
  directory dir -> proper name -> c_input c = in_dir dir name -> unreadable_map d (in_dir dir name) ->
  diagnosed s (run_files d chips render encode ord pf c no_faults s).
Proof. exact unreadable_diagnosed. Qed.
Print Assumptions c93_unreadable_map.
(** [MapFile] rejects a text without the table of memory regions *)
Theorem c93_not_a_map : forall text, no_regions_table text -> map_text text = Err MapFileException.
Proof. exact no_regions_rejected. Qed.
Print Assumptions c93_not_a_map.
(** the function [get] raises MemMapException for them *)
Theorem c93_get_raises : forall d chips dir name t1 ls ud,
  directory dir -> proper name -> unreadable_map d (in_dir dir name) -> described_target d dir name t1 -> (ud = None -> proper_config d dir) ->
  get_files d chips (in_dir dir name) ls ud = Err MemMapException.
Proof. exact get_fails. Qed.
Print Assumptions c93_get_raises.
(** there is no description of the chip, or the chip cannot be determined *)
Theorem c93_unknown_chip : forall d render encode ord pf c s dir name text rs l crt im t,
  linked d dir name text rs l crt im t -> c_input c = in_dir dir name -> plain_report (c_args c) -> without_dwarf d dir (c_args c) -> unknown_chip t ->
  diagnosed s (run_files d (get_memory_types chip_info) render encode ord pf c no_faults s).
Proof. exact chip_diagnosed. Qed.
Print Assumptions c93_unknown_chip.
(** the same for the project to compare with *)
Theorem c93_bad_reference : forall d render encode ord pf c s dir name text rs l crt im t,
  linked d dir name text rs l crt im t -> c_input c = in_dir dir name -> plain_report (c_args c) -> without_dwarf d dir (c_args c) ->
  on_chip rs t -> bad_reference d (c_args c) ->
  diagnosed s (run_files d (get_memory_types chip_info) render encode ord pf c no_faults s).
Proof. exact bad_reference_diagnosed. Qed.
Print Assumptions c93_bad_reference.
(** there is no column to sort by *)
Theorem c93_bad_column : forall d render encode ord pf c s dir name text rs l crt im t,
  linked d dir name text rs l crt im t -> c_input c = in_dir dir name -> plain_report (c_args c) -> without_dwarf d dir (c_args c) ->
  on_chip rs t -> comparable d (c_args c) ->
  a_format (c_args c) = FTable \/ a_format (c_args c) = FText \/ a_format (c_args c) = FCsv -> of_types (c_args c) ->
  (forall i, ~ names_column usage_headers (a_sort (c_args c)) i) ->
  diagnosed s (run_files d (get_memory_types chip_info) render encode ord pf c no_faults s).
Proof. exact column_diagnosed. Qed.
Print Assumptions c93_bad_column.
(** an ELF file that [Elf] rejects is no failure: it counts as missing, for all commands and all faults *)
Theorem c93_bad_elf : forall d chips fn file render encode ord pf c o s,
  d_bytes d fn = Some file -> elf_init file = Err Elf_Exception ->
  run_files d chips render encode ord pf c o s = run_files (without_file d fn) chips render encode ord pf c o s.
Proof. exact bad_elf_ignored. Qed.
Print Assumptions c93_bad_elf.
Theorem c93_no_magic : forall file, ~ (exists r, file = [127; 69; 76; 70] ++ r) -> elf_init file = Err Elf_Exception.
Proof. exact no_magic. Qed.
Print Assumptions c93_no_magic.

(** ** C94: a linked project on a chip that has memory for its regions is always reported *)
Theorem c94_reported : forall d render encode ord pf c s dir name text rs l crt im t,
  linked d dir name text rs l crt im t -> c_input c = in_dir dir name -> plain_report (c_args c) -> without_dwarf d dir (c_args c) ->
  on_chip rs t -> comparable d (c_args c) -> sortable (c_args c) ->
  exists s', run_files d (get_memory_types chip_info) render encode ord pf c no_faults s = (Done tt, s').
Proof. exact reported. Qed.
Print Assumptions c94_reported.

(** ** examples *)
Lemma px_linked : linked disk1 dir1 (tx "app.map") px_text fx_regions fx_sections (Some fx_entries) (Some px_headers) (tx "esp32").
Proof.
  destruct px_built as [D P T M R I _ _ _]. split; try assumption. exists (tx "esp32"). split; [|left; split; [discriminate|reflexivity]].
  apply (target_given _ _ _ px_object (tx "app.elf")); [vm_compute; reflexivity|exact px_describes|reflexivity].
Qed.
Lemma px_on_chip : on_chip fx_regions (tx "esp32").
Proof.
  exists types_esp32. split; [exact types_esp32_ok|]. intros r a [<-|[<-|[]]] N B; [|now destruct N].
  apply px_iram. cbn in B. lia.
Qed.
Definition px_self : args :=
  let a := px_args in Args FTable false false false false None false (Some (in_dir dir1 (tx "app.map"))) false true true false false false (Some false) (Some (tx "out/report")) (tx "Used [bytes]") None false true.
Lemma px_comparable : comparable disk1 px_self.
Proof.
  right. exists dir1, (tx "app.map"), px_text, fx_regions, fx_sections, (Some fx_entries), (Some px_headers), (tx "esp32").
  split; [reflexivity|]. split; [exact px_linked|]. split; [left; reflexivity|exact px_on_chip].
Qed.
Example c94_example : exists s,
  linked disk1 dir1 (tx "app.map") px_text fx_regions fx_sections (Some fx_entries) (Some px_headers) (tx "esp32") /\
  plain_report px_self /\ without_dwarf disk1 dir1 px_self /\ on_chip fx_regions (tx "esp32") /\ comparable disk1 px_self /\ sortable px_self /\
  px_run px_self no_faults (start []) = (Done tt, s) /\ dget (tx "out/report") (s_files s) = Some (mx_encode (mx_render (s_console s) (s_printed s))) /\ s_printed s <> [].
Proof.
  eexists. split; [exact px_linked|]. split; [repeat split; discriminate|]. split; [left; reflexivity|]. split; [exact px_on_chip|]. split; [exact px_comparable|].
  split. { right. right. left. split; [repeat split|]. exists 1%nat. right. split; [reflexivity|]. split; [lia|]. split; [reflexivity|]. intros j Hj. assert (j = 0%nat) as -> by lia. discriminate. }
  split; [vm_compute; reflexivity|]. split; [vm_compute; reflexivity|discriminate].
Qed.

(** the same files, but for a map file, a description, an ELF file *)
Definition disk_with (map : option str) (desc : option json) (elf : list Z) : disk :=
  {| d_cwd := d_cwd disk1;
     d_text := fun fn => if fn =?= in_dir dir1 (tx "app.map") then map else d_text disk1 fn;
     d_json := fun fn => if fn =?= in_dir dir1 (tx "project_description.json") then desc else d_json disk1 fn;
     d_isfile := d_isfile disk1;
     d_bytes := fun fn => if fn =?= in_dir dir1 (tx "app.elf") then Some elf else d_bytes disk1 fn |}.
Definition run_on (d : disk) (a : args) := run_files d (get_memory_types chip_info) mx_render mx_encode mx_order mx_pct (px_cmd a) no_faults (start [(tx "out/report", tx "old")]).
Definition outcome (r : result unit * state) := (fst r, s_printed (snd r), s_files (snd r), s_notes (snd r)).
Definition failed_run : result unit * list piece * dict str str * list note := (Raised SystemExit, [], [(tx "out/report", tx "old")], [Died]).
Definition chip_desc (t : string) : json := JObj [ (tx "target", JStr t); (tx "app_elf", JStr "app.elf") ].
Definition unsorted : args := let a := px_args in Args FTable false false false false None false None false true false false false false (Some false) (Some (tx "out/report")) (tx "Size") None false true.
Definition bad_ref : args := let a := px_args in Args FTable false false false false None false (Some (in_dir dir1 (tx "none.map"))) false true true false false false (Some false) (Some (tx "out/report")) (tx "1") None false true.
Example c93_example :
  no_regions_table (tx "hello") /\ unknown_chip (tx "esp31") /\ (forall i, ~ names_column usage_headers (a_sort unsorted) i) /\
  outcome (run_on (disk_with None (Some px_desc) px_elf) px_self) = failed_run /\
  outcome (run_on (disk_with (Some (tx "hello")) (Some px_desc) px_elf) px_self) = failed_run /\
  outcome (run_on (disk_with (Some px_text) (Some (chip_desc "esp31")) px_elf) px_self) = failed_run /\
  outcome (run_on disk1 bad_ref) = failed_run /\
  outcome (run_on disk1 unsorted) = failed_run /\
  (exists s, run_on (disk_with (Some px_text) (Some px_desc) [1; 2; 3]) px_self = (Done tt, s)).
Proof.
  split. { left. intros s I (r & E). vm_compute in I. destruct I as [<-|[]]. discriminate E. }
  split; [vm_compute; reflexivity|].
  split. { intros i [(z & E & _)|(_ & _ & E & _)]; [vm_compute in E; discriminate|]. do 5 (destruct i as [|i]; [discriminate E|]). cbn in E. destruct i; discriminate E. }
  do 5 (split; [vm_compute; reflexivity|]). eexists. vm_compute. reflexivity.
Qed.

(** ** C93 is false of descriptions and ELF files that are damaged in other ways: the command
    ends with an exception that is not caught.  Here the description is a list, and the
    ELF file has no string table. *)
Definition px_ehdr0 : ehdr :=
  Ehdr [127; 69; 76; 70; 1; 1; 1; 0; 0; 0; 0; 0; 0; 0; 0; 0]
    2 94 1 0x40080400 0 (52 + blen px_shstr) 0 52 (phdr_size false) 0 (shdr_size false) 3 0.
Definition px_elf0 : list Z := ehdr_bytes false false px_ehdr0 ++ px_shstr ++ flat_map (shdr_bytes false false) px_shdrs.
Theorem c93_uncaught_refuted : exists d1 d2 c s s1 s2,
  d_text d1 (c_input c) = d_text disk1 (c_input c) /\ d_text d2 (c_input c) = d_text disk1 (c_input c) /\
  run_files d1 (get_memory_types chip_info) mx_render mx_encode mx_order mx_pct c no_faults s = (Raised AttributeError, s1) /\
  run_files d2 (get_memory_types chip_info) mx_render mx_encode mx_order mx_pct c no_faults s = (Raised ValueError, s2).
Proof.
  exists (disk_with (Some px_text) (Some (JList [])) px_elf), (disk_with (Some px_text) (Some px_desc) px_elf0), (px_cmd px_self), (start []).
  do 2 eexists. split; [vm_compute; reflexivity|]. split; [vm_compute; reflexivity|]. split; vm_compute; reflexivity.
Qed.
Print Assumptions c93_uncaught_refuted.
