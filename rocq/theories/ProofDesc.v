From Coq Require Import Ascii String List ZArith Lia Bool.
From Verif Require Import Base MemMap Filter Pipeline PyStr MapFile SpecMap ElfRead SpecElf Deps Table Formats Main SpecMain ProofMain Project Command SpecProject ProofOps ProofProject1 ProofProject2 SpecPath ProofPath SpecEnd ProofEnd
  ProofCommand1 ProofFail1 SpecLto2 ProofNotes SpecDesc.
Import ListNotations.
Open Scope list_scope.
Open Scope Z_scope.

Lemma lacks_none o k : lacks o k -> dget (list_ascii_of_string k) o = None.
Proof.
  unfold lacks. induction o as [|[x v] o IH]; intros H; [reflexivity|]. cbn [dget map fst In] in *. destruct (keqP (list_ascii_of_string k) x) as [E|_]; [exfalso; apply H; left; now symmetry|]. apply IH. tauto.
Qed.
Lemma component_lacks b j : incomplete_component j -> load_component b j = Err KeyError.
Proof.
  intros (o & -> & [L|(fn & (o' & E & F) & N & L)]); unfold load_component, jindex.
  - now rewrite (lacks_none _ _ L).
  - injection E as <-. rewrite F. cbn [bind]. destruct fn as [|c fn]; [contradiction|]. cbn [jtrue jstr bind]. now rewrite (lacks_none _ _ L).
Qed.
Lemma components_lack o : incomplete_components o -> load_components (JObj o) = Err KeyError.
Proof.
  intros [L|info I L|info1 kv info2 b ls I B F C]; unfold load_components, jindex.
  - now rewrite (lacks_none _ _ L).
  - rewrite I. cbn [bind]. now rewrite (lacks_none _ _ L).
  - rewrite I. cbn [bind]. rewrite B. cbn [bind jstr].
    assert (E : mapM (fun kv => load_component (as_posix b) (snd kv)) (info1 ++ kv :: info2) = Err KeyError).
    { clear - F C. induction F as [|kv' l info ls H _ IH]; cbn [app mapM]; [now rewrite (component_lacks _ _ C)|]. rewrite (component_loaded _ _ _ H). cbn [bind]. now rewrite IH. }
    now rewrite E.
Qed.

Section Desc.
Variables (d : disk) (chips : str -> res (list chip_type)) (dir name : str) (o : dict str json) (app : str).
Hypotheses (D : directory dir) (P : proper name) (De : description d dir = Some (JObj o)) (M : describes_map o name app).
Lemma desc_is : get_proj_desc d (in_dir dir name) = Ok (Some (JObj o)).
Proof. rewrite proj_desc_eq by assumption. rewrite De. pose proof (proj1 M) as Ga. cbn [jget]. rewrite Ga. cbn [bind jstr]. rewrite (proj2 (describes_b name o app Ga) M). reflexivity. Qed.
Lemma flag_is ud : config_ok d dir ud -> exists b, match ud with Some b => Ok b | None => lto_flag d (in_dir dir name) end = Ok b.
Proof.
  intros C. destruct ud as [b|]; [now exists b|]. rewrite lto_eq by assumption. destruct C as [C|[->|(c & ->)]]; [congruence|now exists false|]. cbn [jget bind]. eexists. reflexivity.
Qed.
Lemma world_no_target ls ud : lacks o "target" -> config_ok d dir ud -> load_world d chips (in_dir dir name) ls ud = Err KeyError.
Proof.
  intros L C. unfold load_world. rewrite abspath_in by assumption. rewrite desc_is. cbn [bind]. destruct (flag_is ud C) as (b & ->). cbn [bind]. unfold desc_target.
  assert (T : jtrue (JObj o) = true). { destruct o; [|reflexivity]. destruct M as (M0 & _). discriminate M0. }
  rewrite T. unfold jindex. now rewrite (lacks_none _ _ L).
Qed.
Lemma get_no_target ls ud : lacks o "target" -> config_ok d dir ud -> get_files d chips (in_dir dir name) ls ud = Err KeyError.
Proof. intros L C. unfold get_files. now rewrite (world_no_target ls ud L C). Qed.

Lemma run_no_target render encode ord pf c files text rs l crt : c_input c = in_dir dir name -> lacks o "target" -> config_ok d dir (a_use_dwarf (c_args c)) ->
  a_archive_dependencies (c_args c) = false -> a_format (c_args c) <> FDot ->
  d_text d (in_dir dir name) = Some text -> printed_map rs l crt (splitlines text) -> Forall regular l ->
  escapes KeyError files (run_files d chips render encode ord pf c no_faults (start files)).
Proof.
  intros I L C Ad Fd T Pm R. assert (C' : config_ok d dir (dwarf_option (c_args c))).
  { unfold dwarf_option. destruct (a_use_dwarf (c_args c)) as [[|]|] eqn:U; [left; discriminate|left; discriminate|exact C]. }
  assert (Nd : needs_deps (c_args c) = false). { unfold needs_deps. rewrite Ad. destruct (a_format (c_args c)); try reflexivity. contradiction. }
  destruct (load_printed _ _ _ _ _ _ T Pm R) as (target & Lp).
  destruct (run_raises render encode ord pf (projects_of d chips (c_args c)) c KeyError (start files)) as (s' & E & Q1 & Q2 & Q3 & l' & Q4 & Q5).
  - unfold analyse. cbv zeta. unfold projects_of. rewrite I, Nd.
    eapply ProofFail1.stops_andthen.
    { eapply (goes_compute _ _ (fun _ => True)); [|exact Logic.I]. rewrite world_map, abspath_in by assumption. exact Lp. }
    intros mf _. apply ProofFail1.stops_first. apply ProofFail1.stops_compute. unfold load_project. cbn [p_world]. rewrite (world_no_target _ _ L C').
    destruct (dep_symbols d _); reflexivity.
  - reflexivity.
  - unfold run_files. rewrite E. split; [reflexivity|]. cbn [snd]. split; [exact Q1|]. split; [exact Q2|]. split; [exact Q3|]. rewrite Q4. exact Q5.
Qed.

Lemma get_incomplete fn file e ls ud m : incomplete_components o -> with_dwarf d dir ud -> located dir app fn -> d_isfile d fn = true -> d_bytes d fn = Some file -> elf_init file = Ok e ->
  get_files d chips (in_dir dir name) ls ud <> Ok m.
Proof.
  intros L W Lo F B Ei E. unfold get_files in E. destruct (load_world d chips (in_dir dir name) ls ud) as [w|] eqn:Lw; [|discriminate]. cbn [bind] in E.
  destruct (get w ls (Some (w_lto w)) None None) as [[m0 mf]|] eqn:G; [|discriminate]. clear E.
  unfold load_world in Lw. rewrite abspath_in in Lw by assumption. rewrite desc_is in Lw. cbn [bind] in Lw.
  assert (Fl : match ud with Some b => Ok b | None => lto_flag d (in_dir dir name) end = Ok true).
  { destruct W as [->|(-> & c & Ec & El)]; [reflexivity|]. rewrite lto_eq by assumption. rewrite Ec. cbn [jget]. rewrite El. reflexivity. }
  rewrite Fl in Lw. cbn [bind] in Lw.
  assert (Ge : get_elf d (in_dir dir name) (Some (JObj o)) = Ok (Some e)).
  { cbn [get_elf jindex]. rewrite (proj1 M). cbn [bind jstr].
    assert (Jn : path_join (dirname (in_dir dir name)) app = fn).
    { pose proof (join_located dir name app D (proper_noslash _ P)) as Lo'. destruct Lo as [(R & ->)|(R & ->)], Lo' as [(R' & E')|(R' & E')]; tauto. }
    rewrite Jn, F. unfold load_elf_file. rewrite B, Ei. reflexivity. }
  cbv zeta in Lw. rewrite Ge, (components_lack o L) in Lw. destruct (desc_target (Some (JObj o))) as [t|]; [|discriminate]. cbn [bind] in Lw. injection Lw as <-.
  assert (We : exists x, (do v <- view_elf ls true e; do _ <- @Err (list component) KeyError; Ok (Some v)) = Err x).
  { destruct (view_elf ls true e); eexists; reflexivity. }
  destruct We as (x & We). unfold get, load_mapfile in G. cbn [w_mapfile w_elf w_lto] in G. destruct (load_map d (in_dir dir name)) as [mf0|y]; [|destruct y; discriminate]. cbn [bind] in G, We. rewrite We in G. cbn [bind] in G. discriminate G.
Qed.
End Desc.
Lemma run_incomplete d chips dir name o app fn file e render encode ord pf c q files s :
  directory dir -> proper name -> description d dir = Some (JObj o) -> describes_map o name app -> c_input c = in_dir dir name ->
  incomplete_components o -> with_dwarf d dir (dwarf_option (c_args c)) -> located dir app fn -> d_isfile d fn = true -> d_bytes d fn = Some file -> elf_init file = Ok e ->
  run_files d chips render encode ord pf c q (start files) <> (Done tt, s).
Proof.
  intros D P De M I L W Lo F B Ei E. destruct (run_messages _ _ _ _ _ _ _ _ _ _ E) as (cur & ref & G & _). rewrite I in G.
  eapply get_incomplete; eassumption.
Qed.
