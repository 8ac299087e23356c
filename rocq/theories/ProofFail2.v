(** * Projects that cannot be reported *)
From Coq Require Import Ascii String List ZArith Lia Bool.
From Verif Require Import Base MemMap SpecTree Filter Pipeline SpecPipe ProofRegions ProofSplit PyStr MapFile SpecMap Deps Table SpecTable Formats ElfRead Dwarf SpecElf ProofElf1 ProofElf2 Project SpecProject ProofProject1 ProofProject2 Chips Main SpecMain ProofMain Command SpecEnd ProofEnd SpecCommand SpecFail ProofCommand1 ProofFail1.
Import ListNotations.
Open Scope list_scope.
Open Scope Z_scope.

(** ** the map file *)
Lemma sw_starts (p : string) s : sw p s = true -> starts_with (list_ascii_of_string p) s.
Proof.
  unfold sw, startswith. revert s. set (q := list_ascii_of_string p). clearbody q. clear p.
  induction q as [|c q IH]; intros s H; [now exists s|]. destruct s as [|x s]; [discriminate|]. cbn in H. apply andb_true_iff in H. destruct H as (H1 & H2).
  apply keq_eq in H1. subst x. destruct (IH _ H2) as (r & ->). now exists r.
Qed.

Lemma no_found_loop lines : (forall s, In s lines -> sw "Memory Configuration" s = false) -> forall prev header acc,
  exists rest, regions_loop lines prev false header acc = Ok (false, header, acc, rest).
Proof.
  induction lines as [|x lines IH]; intros N prev header acc; cbn [regions_loop]; [now eexists|].
  destruct (sw "Linker script and memory map" x); [now eexists|]. cbn [negb]. rewrite (N x (or_introl eq_refl)). apply IH. intros s I. apply N. now right.
Qed.
Lemma no_name_loop lines : (forall s, In s lines -> sw "Name" s = false) -> forall prev found acc,
  exists found' rest, regions_loop lines prev found false acc = Ok (found', false, acc, rest).
Proof.
  induction lines as [|x lines IH]; intros N prev found acc; cbn [regions_loop]; [now do 2 eexists|].
  destruct (sw "Linker script and memory map" x); [now do 2 eexists|].
  assert (N' : forall s, In s lines -> sw "Name" s = false) by (intros s I; apply N; now right).
  destruct found; cbn [negb]; [rewrite (N x (or_introl eq_refl))|]; now apply IH.
Qed.
Lemma no_regions_rejected text : no_regions_table text -> map_text text = Err MapFileException.
Proof.
  unfold no_regions_table, map_text, map_file, get_memory_regions. set (lines := splitlines text). intros H.
  assert (X : forall p : string, (forall s, In s lines -> ~ starts_with (list_ascii_of_string p) s) -> forall s, In s lines -> sw p s = false).
  { intros p N s I. destruct (sw p s) eqn:E; [|reflexivity]. exfalso. exact (N s I (sw_starts p s E)). }
  destruct H as [H|H].
  - destruct (no_found_loop lines (X _ H) [] false []) as (rest & ->). reflexivity.
  - destruct (no_name_loop lines (X _ H) [] false []) as (f & rest & ->). cbn [bind]. now rewrite orb_true_r.
Qed.
Lemma unreadable_load d fn : unreadable_map d fn -> load_map d fn = Err MapFileException.
Proof. unfold load_map, read_map. intros [->|(text & -> & ->)]; reflexivity. Qed.

(** ** the world of a project *)
Lemma flag_of d dir name ud : directory dir -> proper name -> no_dwarf d dir ud ->
  match ud with Some b => Ok b | None => lto_flag d (in_dir dir name) end = Ok false.
Proof.
  intros D P [->|(-> & N)]; [reflexivity|]. rewrite lto_eq by assumption. destruct N as [N|(o & N & X)]; rewrite N; [reflexivity|].
  cbn [jget]. destruct (dget (list_ascii_of_string "COMPILER_LTO_LINKTIME") o) as [v|]; [subst v|]; reflexivity.
Qed.
Lemma dwarf_of d dir a : given (a_archive_details a) = false -> a_format a <> FRaw -> without_dwarf d dir a -> no_dwarf d dir (dwarf_option a).
Proof.
  unfold without_dwarf, dwarf_option. intros G R. destruct (a_use_dwarf a) as [[]|]; [|tauto|tauto]. intros (A & F). rewrite G, A, F. cbn [orb].
  destruct (a_format a); try (left; reflexivity). now destruct R.
Qed.
Definition world_target (w : world) : str := match w_proj_desc w with Some p => pd_target p | None => [] end.

Section Load.
Variables (d : disk) (dir name : str).
Hypotheses (D : directory dir) (P : proper name).
Lemma described_desc o app : description d dir = Some (JObj o) -> describes_map o name app -> get_proj_desc d (in_dir dir name) = Ok (Some (JObj o)).
Proof.
  intros Ed M. rewrite proj_desc_eq by assumption. rewrite Ed. pose proof (proj1 M) as Ga. cbn [jget]. rewrite Ga. cbn [bind jstr].
  now rewrite (proj2 (describes_b name o app Ga) M).
Qed.
Lemma undescribed_not o app : undescribed d dir name -> description d dir = Some (JObj o) -> describes_map o name app -> False.
Proof.
  intros [E|[E|(o' & app' & E & G & N)]] Ed M; rewrite Ed in E; try discriminate. injection E as <-. apply N. pose proof (proj1 M) as G'. rewrite G in G'. injection G' as ->. exact M.
Qed.
Lemma desc_of t1 : described_target d dir name t1 -> exists pd, get_proj_desc d (in_dir dir name) = Ok pd /\ desc_target pd = Ok t1 /\
  (pd = None -> t1 = [] /\ undescribed d dir name) /\ (forall j, pd = Some j -> exists o app, j = JObj o /\ description d dir = Some (JObj o) /\ describes_map o name app).
Proof.
  intros [U|o app t Ed M Gt].
  - exists None. rewrite (undescribed_desc name P d dir D U). split; [reflexivity|]. split; [reflexivity|]. split; [now split|discriminate].
  - exists (Some (JObj o)). rewrite (described_desc o app Ed M). split; [reflexivity|]. split; [|split; [discriminate|]].
    + unfold desc_target. cbn [jtrue jindex]. destruct o as [|kv o]; [discriminate Gt|]. rewrite Gt. cbn [bind jtrue]. destruct (keqP t (@nil ascii)) as [->|N]; [reflexivity|].
      cbn. now destruct t.
    + intros j Ej. injection Ej as <-. now exists o, app.
Qed.

Lemma loads chips im t1 ud : image_of d dir name im -> described_target d dir name t1 -> no_dwarf d dir ud ->
  exists w e, load_world d chips (in_dir dir name) false ud = Ok w /\ w_lto w = false /\ w_mapfile w = load_map d (in_dir dir name) /\
    w_elf w = Ok e /\ elf_matches im e /\ w_memory_types w = chips /\ world_target w = t1.
Proof.
  intros Im Dt N. destruct (desc_of t1 Dt) as (pd & Ep & Et & Hn & Hs). unfold load_world. rewrite abspath_in by assumption.
  rewrite Ep. cbn [bind]. rewrite (flag_of d dir name ud D P N). cbn [bind]. rewrite Et. cbn [bind].
  assert (Loc : forall app fn, located dir app fn -> path_join (dirname (in_dir dir name)) app = fn).
  { intros app fn Lo. pose proof (join_located dir name app D (proper_noslash _ P)) as Lo'. destruct Lo as [(R & ->)|(R & ->)], Lo' as [(R' & E')|(R' & E')]; tauto. }
  assert (Desc : forall o app, description d dir = Some (JObj o) -> describes_map o name app -> pd = Some (JObj o) /\ dget (list_ascii_of_string "app_elf") o = Some (JStr app)).
  { intros o app Ed M. rewrite (described_desc o app Ed M) in Ep. injection Ep as <-. split; [reflexivity|apply M]. }
  eexists. match goal with |- exists e, Ok ?w = _ /\ _ => assert (exists e, w_elf w = Ok e /\ elf_matches im e) as (e & We & M) end.
  2:{ exists e. split; [reflexivity|]. split; [reflexivity|]. split; [reflexivity|]. split; [exact We|]. split; [exact M|]. split; [reflexivity|].
      unfold world_target. cbn [w_proj_desc]. destruct pd as [j|]; cbn [option_map pd_target]; [reflexivity|]. symmetry. now apply Hn. }
  cbn [w_elf]. destruct Im as [U|o app fn Ed M Lo F|o app fn Ed M Lo B|o app fn file l Ed M Lo F B Nh].
  - destruct pd as [j|]; [|exists None; split; [reflexivity|exact I]]. destruct (Hs j eq_refl) as (o & app & -> & Ed & M). destruct (undescribed_not o app U Ed M).
  - destruct (Desc o app Ed M) as (-> & Ga). cbn [get_elf jindex]. rewrite Ga. cbn [bind jstr]. rewrite (Loc _ _ Lo), F. exists None. split; [reflexivity|exact I].
  - destruct (Desc o app Ed M) as (-> & Ga). cbn [get_elf jindex]. rewrite Ga. cbn [bind jstr]. rewrite (Loc _ _ Lo).
    unfold load_elf_file. rewrite B. exists None. split; [now destruct (d_isfile d fn)|exact I].
  - destruct (Desc o app Ed M) as (-> & Ga). cbn [get_elf jindex]. rewrite Ga. cbn [bind jstr]. rewrite (Loc _ _ Lo), F.
    unfold load_elf_file. rewrite B. pose proof Nh as (is64 & big & h & phs & tt & Im & _). pose proof (elf_init_image _ _ _ _ _ _ Im) as Ei. rewrite Ei. cbn [bind].
    unfold view_elf. cbn [bind]. rewrite (view_headers file l _ Nh Ei). cbn [bind]. eexists. split; [reflexivity|]. reflexivity.
Qed.
End Load.
