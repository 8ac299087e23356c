(** * Property C132: project descriptions that lack something *)
From Coq Require Import Ascii String List ZArith Bool Lia.
From Verif Require Import Base MemMap Filter Pipeline PyStr MapFile SpecMap ElfRead SpecElf Deps Table Formats Main SpecMain Project Command Chips SpecProject SpecPath SpecEnd SpecLto2 FixMap FixMain FixProject PropProject PropPath PropCommand FixLto PropLto SpecDesc ProofDesc.
Import ListNotations.
Open Scope list_scope.
Open Scope Z_scope.

(** C132: without the target it is a KeyError, of [get] and of the command *)
Theorem c132_no_target : forall d chips dir name o app, directory dir -> proper name -> description d dir = Some (JObj o) -> describes_map o name app ->
  forall ls ud, lacks o "target" -> config_ok d dir ud -> get_files d chips (in_dir dir name) ls ud = Err KeyError.
Proof. exact get_no_target. Qed.
Print Assumptions c132_no_target.
Theorem c132_no_target_command : forall d chips dir name o app, directory dir -> proper name -> description d dir = Some (JObj o) -> describes_map o name app ->
  forall render encode ord pf c files text rs l crt, c_input c = in_dir dir name -> lacks o "target" -> config_ok d dir (a_use_dwarf (c_args c)) ->
  a_archive_dependencies (c_args c) = false -> a_format (c_args c) <> FDot ->
  d_text d (in_dir dir name) = Some text -> printed_map rs l crt (splitlines text) -> Forall regular l ->
  escapes KeyError files (run_files d chips render encode ord pf c no_faults (start files)).
Proof. exact run_no_target. Qed.
Print Assumptions c132_no_target_command.

(** a description that lacks something on the components is a KeyError; with the debugging
    information there is then no report *)
Theorem c132_components : forall o, incomplete_components o -> load_components (JObj o) = Err KeyError.
Proof. exact components_lack. Qed.
Print Assumptions c132_components.
Theorem c132_no_report : forall d chips dir name o app fn file e render encode ord pf c q files s,
  directory dir -> proper name -> description d dir = Some (JObj o) -> describes_map o name app -> c_input c = in_dir dir name ->
  incomplete_components o -> with_dwarf d dir (dwarf_option (c_args c)) -> located dir app fn -> d_isfile d fn = true -> d_bytes d fn = Some file -> elf_init file = Ok e ->
  run_files d chips render encode ord pf c q (start files) <> (Done tt, s).
Proof. exact run_incomplete. Qed.
Print Assumptions c132_no_report.

(** ** examples: no target; no components, as in descriptions of older versions; a component without directory *)
Local Notation tx := (fun s => list_ascii_of_string s%string).
Definition ix_without (k : string) : dict str json := filter (fun kv => negb (fst kv =?= tx k)) ox_object.
Definition ix_entry : dict str json :=
  dset (tx "build_component_info") (JObj [(tx "log", ox_component "/home/me/app/components/log" "/home/me/app/build/esp-idf/log/liblog.a");
    (tx "main", JObj [(tx "file", JStr (tx "/home/me/app/build/esp-idf/main/libmain.a"))])]) ox_object.
Definition ix_disk (o : dict str json) : disk :=
  {| d_cwd := d_cwd ox_disk; d_text := d_text ox_disk; d_isfile := d_isfile ox_disk; d_bytes := d_bytes ox_disk;
     d_json := fun fn => if fn =?= in_dir dir1 (tx "project_description.json") then Some (JObj o) else d_json ox_disk fn |}.
Definition ix_run (o : dict str json) := run_files (ix_disk o) (get_memory_types chip_info) mx_render mx_encode mx_order mx_pct
  (px_cmd (Args FTable true false false false None false None false true false false false false None None (tx "1") None false false)) no_faults (start []).
Definition ix_ok (o : dict str json) : Prop := description (ix_disk o) dir1 = Some (JObj o) /\ describes_map o (tx "app.map") (tx "app.elf").
Lemma ix_describes o : dget (tx "app_elf") o = Some (JStr (tx "app.elf")) -> ix_ok o.
Proof. intros E. split; [vm_compute; reflexivity|]. split; [exact E|]. exact (proj2 px_describes). Qed.
Ltac t_lacks := intros X; vm_compute in X; repeat (destruct X as [X|X]; [discriminate X|]); exact X.
Example c132_example : (ix_ok (ix_without "target") /\ lacks (ix_without "target") "target" /\ fst (ix_run (ix_without "target")) = Raised KeyError) /\
  (ix_ok (ix_without "build_component_info") /\ incomplete_components (ix_without "build_component_info") /\ fst (ix_run (ix_without "build_component_info")) = Raised KeyError) /\
  (ix_ok ix_entry /\ incomplete_components ix_entry /\ fst (ix_run ix_entry) = Raised KeyError) /\
  with_dwarf (ix_disk ix_entry) dir1 None /\ fst (ix_run ox_object) = Done tt.
Proof.
  split; [split; [apply ix_describes; reflexivity|split; [t_lacks|vm_compute; reflexivity]]|].
  split; [split; [apply ix_describes; reflexivity|split; [apply no_info; t_lacks|vm_compute; reflexivity]]|].
  split; [split; [apply ix_describes; reflexivity|split; [|vm_compute; reflexivity]]|].
  - eapply (no_entry ix_entry [_] (_, _) []); [vm_compute; reflexivity|vm_compute; reflexivity| |].
    + constructor; [|constructor]. cbn [snd]. eapply (component_some _ _ (tx "/home/me/app/build/esp-idf/log/liblog.a") (tx "/home/me/app/components/log") (tx "/") (map tx ["home"; "me"; "app"; "build"]%string) (map tx ["esp-idf"; "log"; "liblog.a"]%string) (tx "/") (map tx ["home"; "me"; "app"; "components"; "log"]%string));
        [eexists; split; vm_compute; reflexivity|discriminate|eexists; split; vm_compute; reflexivity| | | | | |].
      * t_starts 1%nat "home/me/app/build"%string.
      * t_names.
      * t_starts 1%nat "home/me/app/build/esp-idf/log/liblog.a"%string.
      * t_names.
      * t_starts 1%nat "home/me/app/components/log"%string.
      * t_names.
    + eexists. split; [reflexivity|]. right. exists (tx "/home/me/app/build/esp-idf/main/libmain.a"). split; [eexists; split; vm_compute; reflexivity|]. split; [discriminate|t_lacks].
  - split; [right; split; [reflexivity|]; eexists; split; [vm_compute; reflexivity|reflexivity]|]. vm_compute. reflexivity.
Qed.
