(** * The files of a project (C87) *)
From Coq Require Import Ascii String List ZArith Lia Bool.
From Verif Require Import Base MemMap Pipeline SpecPipe PyStr MapFile SpecMap Project SpecProject ProofProject1 ProofProject2 Chips FixElf FixMap FixProject.
Import ListNotations.
Open Scope list_scope.
Open Scope Z_scope.

(** ** C87: the report depends on four files that are found from the map file: the map
    file, project_description.json and config/sdkconfig.json beside it (the latter only when
    the use of DWARF is not decided by the caller), and the ELF file the description names.
    It does not depend on the working directory or on where the project is, except for
    the path that is shown. *)
Theorem c87_same_files : forall d d' dir dir' name chips ls ud,
  directory dir -> directory dir' -> proper name -> same_files d dir d' dir' name ud ->
  get_files d' chips (in_dir dir' name) ls ud = rmap (set_path (in_dir dir' name)) (get_files d chips (in_dir dir name) ls ud).
Proof. intros d d' dir dir' name chips ls ud D D' P. exact (same_files_get d d' dir dir' name chips D D' P ls ud). Qed.
Print Assumptions c87_same_files.

(** a description of another executable (the bootloader's map, say) counts as none *)
Theorem c87_undescribed : forall d d' dir dir' name chips ls ud,
  directory dir -> directory dir' -> proper name -> undescribed d dir name -> undescribed d' dir' name ->
  d_text d (in_dir dir name) = d_text d' (in_dir dir' name) -> (ud = None -> config d dir = config d' dir') ->
  get_files d' chips (in_dir dir' name) ls ud = rmap (set_path (in_dir dir' name)) (get_files d chips (in_dir dir name) ls ud).
Proof. intros d d' dir dir' name chips ls ud D D' P. exact (undescribed_get d d' dir dir' name chips D D' P ls ud). Qed.
Print Assumptions c87_undescribed.

(** the target is that of the description of this executable, else that of the map file *)
Theorem c87_target_described : forall d dir name chips ls ud m o app t,
  directory dir -> proper name -> get_files d chips (in_dir dir name) ls ud = Ok m ->
  description d dir = Some (JObj o) -> describes_map o name app -> dget (list_ascii_of_string "target") o = Some (JStr t) -> t <> [] ->
  m_target m = t.
Proof. exact described_target. Qed.
Print Assumptions c87_target_described.
Theorem c87_target_from_map : forall d dir name chips ls ud m text pm,
  directory dir -> proper name -> get_files d chips (in_dir dir name) ls ud = Ok m ->
  undescribed d dir name -> d_text d (in_dir dir name) = Some text -> map_text text = Ok pm -> m_target m = pm_target pm.
Proof. exact undescribed_target. Qed.
Print Assumptions c87_target_from_map.

(** a relative input path is looked up from the working directory, and the path that is shown is absolute *)
Theorem c87_relative : forall d cwd parts chips ls ud, directory cwd -> d_cwd d = shown_dir cwd -> parts <> [] -> Forall proper parts ->
  get_files d chips (relative_path parts) ls ud = get_files d chips (under cwd parts) ls ud.
Proof. exact relative_get. Qed.
Print Assumptions c87_relative.

(** ** examples *)
Definition proper_b (p : str) : bool :=
  negb (p =?= []) && negb (p =?= list_ascii_of_string ".") && negb (p =?= list_ascii_of_string "..") && negb (existsb (fun c => c =?= "/"%char) p).
Lemma proper_ok p : proper_b p = true -> proper p.
Proof.
  unfold proper_b, proper. intros H. apply andb_true_iff in H. destruct H as (H & H4). apply andb_true_iff in H. destruct H as (H & H3).
  apply andb_true_iff in H. destruct H as (H1 & H2). repeat split.
  - intros ->. discriminate.
  - intros ->. discriminate.
  - intros ->. discriminate.
  - intros I. assert (X : existsb (fun c => c =?= "/"%char) p = true) by (apply existsb_exists; eexists; split; [exact I|apply keq_refl]).
    rewrite X in H4. discriminate.
Qed.
Definition dir1 : str := tx "/home/me/app/build".
Definition dir2 : str := tx "/srv/ci/out".
Lemma dir1_ok : directory dir1.
Proof. exists (map tx ["home"; "me"; "app"; "build"]%string). split; [|reflexivity]. repeat (constructor; [apply proper_ok; reflexivity|]). constructor. Qed.
Lemma dir2_ok : directory dir2.
Proof. exists (map tx ["srv"; "ci"; "out"]%string). split; [|reflexivity]. repeat (constructor; [apply proper_ok; reflexivity|]). constructor. Qed.
Definition disk1 : disk := px_disk "/tmp" "/home/me/app/build".
Definition disk2 : disk := px_disk "/" "/srv/ci/out".
Definition px_object : dict str json := match px_desc with JObj o => o | _ => [] end.
Lemma px_describes : describes_map px_object (tx "app.map") (tx "app.elf").
Proof.
  split; [reflexivity|]. exists (tx "app.elf"), (tx "app"). split; [|split].
  - split; [|now left]. intros I. apply (proj2 (proj2 (proj2 (proper_ok (tx "app.elf") eq_refl)))) in I. exact I.
  - apply stem_of_fun. vm_compute. reflexivity.
  - apply stem_of_fun. vm_compute. reflexivity.
Qed.
(** boot.map is not described: the description is that of app.elf *)
Lemma boot_undescribed cwd : undescribed (px_disk cwd "/home/me/app/build") dir1 (tx "boot.map").
Proof.
  right. right. exists px_object, (tx "app.elf"). split; [vm_compute; reflexivity|]. split; [reflexivity|].
  intros (_ & b & st & (E1 & E2) & S1 & S2). apply stem_of_fun in S1, S2.
  assert (Hb : b = tx "app.elf").
  { destruct E2 as [E2|(x & E2)]; [now symmetry|]. exfalso.
    apply (proj2 (proj2 (proj2 (proper_ok (tx "app.elf") eq_refl)))). rewrite E2. unfold in_dir. apply in_or_app. right. now left. }
  rewrite Hb in S1. rewrite S1 in S2. vm_compute in S2. discriminate.
Qed.
(** the same project at two places: the used bytes are the same *)
Example c87_example_same : same_files disk1 dir1 disk2 dir2 (tx "app.map") None /\
  exists m, get_files disk1 (get_memory_types chip_info) (tx "/home/me/app/build/app.map") false None = Ok m /\
    option_map t_used (dget (list_ascii_of_string "IRAM") (m_types m)) = Some 32.
Proof.
  split.
  - constructor; try reflexivity. intros o app fn fn' E H L L'. vm_compute in E. injection E as <-. destruct H as (E & _). vm_compute in E. injection E as <-.
    assert (NR : ~ rooted (tx "app.elf")) by (intros (r & R); discriminate R).
    destruct L as [(R & _)|(_ & ->)]; [contradiction|]. destruct L' as [(R & _)|(_ & ->)]; [contradiction|]. vm_compute. split; reflexivity.
  - eexists. split; [vm_compute; reflexivity|]. vm_compute. reflexivity.
Qed.
(** boot.map beside it takes its target from the map file *)
Example c87_example_target : exists m m' pm,
  get_files disk1 (get_memory_types chip_info) (in_dir dir1 (tx "app.map")) false None = Ok m /\ m_target m = tx "esp32" /\
  describes_map px_object (tx "app.map") (tx "app.elf") /\
  get_files disk1 (get_memory_types chip_info) (in_dir dir1 (tx "boot.map")) false None = Ok m' /\ m_target m' = tx "esp32s3" /\
  undescribed disk1 dir1 (tx "boot.map") /\ map_text px_text = Ok pm.
Proof.
  do 3 eexists. split; [vm_compute; reflexivity|]. split; [reflexivity|]. split; [exact px_describes|].
  split; [vm_compute; reflexivity|]. split; [reflexivity|]. split; [apply boot_undescribed|]. vm_compute. reflexivity.
Qed.
Example c87_example_relative : directory (tx "/home/me/app") /\ Forall proper (map tx ["build"; "app.map"]%string) /\
  exists m, get_files (px_disk "/home/me/app" "/home/me/app/build") (get_memory_types chip_info) (tx "build/app.map") false None = Ok m /\
    m_project_path m = tx "/home/me/app/build/app.map".
Proof.
  split; [|split].
  - exists (map tx ["home"; "me"; "app"]%string). split; [|reflexivity]. repeat (constructor; [apply proper_ok; reflexivity|]). constructor.
  - repeat (constructor; [apply proper_ok; reflexivity|]). constructor.
  - eexists. split; [vm_compute; reflexivity|]. reflexivity.
Qed.
