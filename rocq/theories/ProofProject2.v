(** * Which files a report depends on *)
From Coq Require Import Ascii String List ZArith Lia Bool.
From Verif Require Import Base MemMap Pipeline SpecPipe PyStr MapFile SpecMap ElfRead Dwarf Project SpecProject ProofProject1.
Import ListNotations.
Open Scope list_scope.
Open Scope Z_scope.

Lemma fixed_name_ok (s : string) : (match s with String.EmptyString => true | String.String c _ => negb (c =?= slash) end) = true -> ~ rooted (list_ascii_of_string s).
Proof. destruct s as [|c s]; cbn; intros H (r & E); [discriminate|]. injection E as -> _. discriminate H. Qed.

Section Dir.
Variables (d : disk) (dir name : str).
Hypotheses (D : directory dir) (P : proper name).

Lemma proper_noslash : ~ In slash name.
Proof. apply P. Qed.

Lemma proj_desc_eq : get_proj_desc d (in_dir dir name) =
  match description d dir with
  | None | Some JNull => Ok None
  | Some pd => do v <- jget pd "app_elf" (JStr []); do app <- jstr v; Ok (if stem name =?= stem (basename app) then Some pd else None)
  end.
Proof.
  unfold get_proj_desc, load_json, description. rewrite join_in; [|exact D|apply proper_noslash|now apply fixed_name_ok].
  rewrite basename_in by apply proper_noslash. destruct (d_json d _) as [[]|]; reflexivity.
Qed.
Lemma lto_eq : lto_flag d (in_dir dir name) =
  match config d dir with
  | None | Some JNull => Ok false
  | Some j => do v <- jget j "COMPILER_LTO_LINKTIME" (JBool false); Ok (jtrue v)
  end.
Proof.
  unfold lto_flag, load_json, config. rewrite (join_in dir name); [|exact D|apply proper_noslash|now apply fixed_name_ok].
  assert (E : path_join (in_dir dir "config") "sdkconfig.json" = in_dir dir "config/sdkconfig.json").
  { unfold path_join, in_dir. cbn [list_ascii_of_string]. rewrite rev_app_distr. cbn [rev app].
    repeat lazymatch goal with |- context [?c =?= slash] => change (c =?= slash) with false end. cbv iota. now rewrite <- app_assoc. }
  rewrite E. destruct (d_json d _) as [[]|]; reflexivity.
Qed.
End Dir.

Lemma world_path w p ls ud ma ea :
  get (World p (w_proj_desc w) (w_lto w) (w_mapfile w) (w_elf w) (w_memory_types w)) ls ud ma ea =
  rmap (fun r => (set_path p (fst r), snd r)) (get w ls ud ma ea).
Proof.
  destruct w as [mf pd lto m e ty]. unfold get, dwarf_flag. cbn [w_proj_desc w_lto w_mapfile w_elf w_memory_types w_map_fn].
  destruct (load_mapfile ma m); [|reflexivity]. cbn [bind]. destruct e as [e|]; [|reflexivity]. cbn [bind].
  destruct (pick_target pd a) as [t|]; [|reflexivity]. cbn [bind]. destruct (ty t) as [tt|]; [|reflexivity]. cbn [bind].
  match goal with |- context [build ?a ?b ?c ?d ?e] => destruct (build a b c d e) as [[i l]|] end; reflexivity.
Qed.

Lemma describes_b (name : str) o app : dget (list_ascii_of_string "app_elf") o = Some (JStr app) ->
  (stem name =?= stem (basename app)) = true <-> describes_map o name app.
Proof.
  intros G. split.
  - intros E. apply keq_eq in E. split; [exact G|]. exists (basename app), (stem name). split; [apply basename_ends|].
    rewrite E at 1. split; apply stem_ok.
  - intros (_ & b & st & E & S1 & S2). apply ends_in_fun in E. apply stem_of_fun in S1, S2. subst. rewrite S2. apply keq_refl.
Qed.

Section Two.
Variables (d d' : disk) (dir dir' name : str) (chips : str -> res (list chip_type)).
Hypotheses (D : directory dir) (D' : directory dir') (P : proper name).

Lemma load_world_eq ls ud pd :
  d_text d (in_dir dir name) = d_text d' (in_dir dir' name) ->
  (ud = None -> lto_flag d (in_dir dir name) = lto_flag d' (in_dir dir' name)) ->
  get_proj_desc d (in_dir dir name) = pd -> get_proj_desc d' (in_dir dir' name) = pd ->
  (forall j, pd = Ok (Some j) -> get_elf d (in_dir dir name) (Some j) = get_elf d' (in_dir dir' name) (Some j)) ->
  get_files d' chips (in_dir dir' name) ls ud = rmap (set_path (in_dir dir' name)) (get_files d chips (in_dir dir name) ls ud).
Proof.
  intros Ht Hl Hp Hp' He. unfold get_files, load_world. rewrite !abspath_in by assumption. rewrite Hp, Hp'.
  destruct pd as [pd|x]; [|reflexivity]. cbn [bind].
  assert (Hl' : match ud with Some b => Ok b | None => lto_flag d' (in_dir dir' name) end = match ud with Some b => Ok b | None => lto_flag d (in_dir dir name) end).
  { destruct ud; [reflexivity|]. symmetry. now apply Hl. }
  rewrite Hl'. clear Hl'. destruct (match ud with Some b => Ok b | None => lto_flag d (in_dir dir name) end) as [flag|x]; [|reflexivity]. cbn [bind].
  destruct (desc_target pd) as [t|x]; [|reflexivity]. cbn [bind w_lto].
  assert (He' : get_elf d' (in_dir dir' name) pd = get_elf d (in_dir dir name) pd).
  { destruct pd as [j|]; [|reflexivity]. symmetry. now apply He. }
  rewrite He'.
  assert (Hm : load_map d' (in_dir dir' name) = load_map d (in_dir dir name)) by (unfold load_map, read_map; now rewrite Ht).
  rewrite Hm.
  match goal with |- bind (get (World _ ?a ?b ?c ?e ?f) ?g ?h ?i ?k) _ = rmap _ (bind (get ?w _ _ _ _) _) =>
    pose proof (world_path w (in_dir dir' name) g h i k) as W; cbn [w_proj_desc w_lto w_mapfile w_elf w_memory_types] in W; rewrite W; destruct (get w g h i k) as [[m mf]|x] end; reflexivity.
Qed.

Lemma same_files_get ls ud : same_files d dir d' dir' name ud ->
  get_files d' chips (in_dir dir' name) ls ud = rmap (set_path (in_dir dir' name)) (get_files d chips (in_dir dir name) ls ud).
Proof.
  intros S1. apply (load_world_eq ls ud (get_proj_desc d (in_dir dir name))).
  - apply S1.
  - intros E. rewrite !lto_eq by assumption. now rewrite (sf_config _ _ _ _ _ _ S1 E).
  - reflexivity.
  - rewrite !proj_desc_eq by assumption. now rewrite (sf_desc _ _ _ _ _ _ S1).
  - intros j. rewrite proj_desc_eq by assumption. intros E. unfold get_elf.
    destruct (description d dir) as [pd|] eqn:Ed; [|discriminate].
    destruct pd as [| | | | |o]; try discriminate E. cbn [jget bind] in E.
    destruct (dget (list_ascii_of_string "app_elf") o) as [v|] eqn:G.
    + destruct v as [| | |app| |]; try discriminate E. cbn [jstr bind] in E.
      destruct (stem name =?= stem (basename app)) eqn:M; [|discriminate]. injection E as <-.
      cbn [jindex]. rewrite G. cbn [bind jstr].
      apply (describes_b name o app G) in M.
      destruct (sf_elf _ _ _ _ _ _ S1 o app _ _ Ed M (join_located dir name app D (proper_noslash _ P)) (join_located dir' name app D' (proper_noslash _ P))) as (I & B).
      rewrite <- I. destruct (d_isfile d _); [|reflexivity]. unfold load_elf_file. now rewrite B.
    + cbn [jstr bind] in E. destruct (stem name =?= stem (basename [])); [|discriminate]. injection E as <-. cbn [jindex]. now rewrite G.
Qed.

Lemma undescribed_desc dd r : directory r -> undescribed dd r name -> get_proj_desc dd (in_dir r name) = Ok None.
Proof.
  intros Dr U. rewrite proj_desc_eq by assumption. destruct U as [->|[->|(o & app & -> & G & N)]]; try reflexivity.
  cbn [jget]. rewrite G. cbn [bind jstr]. destruct (stem name =?= stem (basename app)) eqn:M; [|reflexivity].
  apply (describes_b name o app G) in M. contradiction.
Qed.
Lemma undescribed_get ls ud : undescribed d dir name -> undescribed d' dir' name ->
  d_text d (in_dir dir name) = d_text d' (in_dir dir' name) -> (ud = None -> config d dir = config d' dir') ->
  get_files d' chips (in_dir dir' name) ls ud = rmap (set_path (in_dir dir' name)) (get_files d chips (in_dir dir name) ls ud).
Proof.
  intros U U' T C. apply (load_world_eq ls ud (Ok None)).
  - exact T.
  - intros E. rewrite !lto_eq by assumption. now rewrite (C E).
  - now apply undescribed_desc.
  - now apply undescribed_desc.
  - intros j E. discriminate E.
Qed.
End Two.

(** ** the target *)
Lemma get_target_of w ls ud ma ea m mf : get w ls ud ma ea = Ok (m, mf) ->
  exists f, load_mapfile ma (w_mapfile w) = Ok f /\ pick_target (w_proj_desc w) f = Ok (m_target m).
Proof.
  unfold get. destruct (load_mapfile ma (w_mapfile w)) as [f|]; [|discriminate]. cbn [bind]. intros E. exists f. split; [reflexivity|].
  destruct (w_elf w) as [e|]; [|discriminate]. cbn [bind] in E. destruct (pick_target _ f) as [t|]; [|discriminate]. cbn [bind] in E.
  destruct (w_memory_types w t); [|discriminate]. cbn [bind] in E.
  lazymatch type of E with context [build ?a ?b ?c ?d ?e] => destruct (build a b c d e) as [[i l]|]; [|discriminate] end. cbn [bind] in E. injection E as <- _. reflexivity.
Qed.
Lemma described_target d dir name chips ls ud m o app t :
  directory dir -> proper name -> get_files d chips (in_dir dir name) ls ud = Ok m ->
  description d dir = Some (JObj o) -> describes_map o name app ->
  dget (list_ascii_of_string "target") o = Some (JStr t) -> t <> [] -> m_target m = t.
Proof.
  intros D P E Ed M Gt N. unfold get_files, load_world in E. rewrite abspath_in in E by assumption.
  rewrite proj_desc_eq in E by assumption. rewrite Ed in E. destruct M as (G & M). cbn [jget] in E. rewrite G in E. cbn [bind jstr] in E.
  assert (X : (stem name =?= stem (basename app)) = true) by (apply (describes_b name o app G); now split). rewrite X in E. cbn [bind] in E.
  destruct (match ud with Some _ => _ | None => _ end) as [flag|]; [|discriminate]. cbn [bind] in E.
  assert (T : desc_target (Some (JObj o)) = Ok t).
  { unfold desc_target. cbn [jtrue jindex]. destruct o as [|kv o]; [discriminate Gt|]. rewrite Gt. cbn [bind jtrue jstr].
    destruct (keqP t []); [contradiction|reflexivity]. }
  rewrite T in E. cbn [bind w_lto] in E.
  lazymatch type of E with context [get ?w ?a ?b ?c ?e] => destruct (get w a b c e) as [[m0 mf]|] eqn:Eg; [|discriminate] end.
  cbn in E. injection E as <-. apply get_target_of in Eg. destruct Eg as (f & _ & Pt). cbn [w_proj_desc option_map] in Pt.
  unfold pick_target in Pt. cbn [pd_target] in Pt. destruct t; [contradiction|]. now injection Pt.
Qed.
Lemma undescribed_target d dir name chips ls ud m text pm :
  directory dir -> proper name -> get_files d chips (in_dir dir name) ls ud = Ok m ->
  undescribed d dir name -> d_text d (in_dir dir name) = Some text -> map_text text = Ok pm -> m_target m = pm_target pm.
Proof.
  intros D P E U Ht Hm. unfold get_files, load_world in E. rewrite abspath_in in E by assumption.
  rewrite (undescribed_desc name P d dir D U) in E. cbn [bind] in E.
  destruct (match ud with Some _ => _ | None => _ end) as [flag|]; [|discriminate]. cbn [bind desc_target w_lto] in E.
  lazymatch type of E with context [get ?w ?a ?b ?c ?e] => destruct (get w a b c e) as [[m0 mf]|] eqn:Eg; [|discriminate] end.
  cbn in E. injection E as <-. apply get_target_of in Eg. destruct Eg as (f & Lf & Pt). cbn [w_proj_desc option_map w_mapfile load_mapfile] in Pt, Lf.
  unfold load_map, read_map in Lf. rewrite Ht, Hm in Lf. unfold usable_map in Lf.
  assert (Ef : f = MapFile (pm_target pm) (pm_regions pm) (map osec_of (pm_sections pm))).
  { destruct (validate_sections _) as [|[]]; try discriminate Lf; now injection Lf. }
  subst f. unfold pick_target in Pt. cbn [mf_target] in Pt. destruct (pm_target pm); [discriminate|]. now injection Pt.
Qed.

(** ** relative paths *)
Lemma relative_join l : relative_path l = join_slash l.
Proof. induction l as [|p l IH]; [reflexivity|]. destruct l; [reflexivity|]. cbn [relative_path join_slash] in *. now rewrite IH. Qed.
Lemma under_snoc d l p : under d (l ++ [p]) = in_dir (under d l) p.
Proof. unfold under, in_dir. rewrite flat_map_app, <- app_assoc. cbn [flat_map]. now rewrite app_nil_r. Qed.
Lemma relative_get d cwd parts chips ls ud : directory cwd -> d_cwd d = shown_dir cwd -> parts <> [] -> Forall proper parts ->
  get_files d chips (relative_path parts) ls ud = get_files d chips (under cwd parts) ls ud.
Proof.
  intros D C N F. unfold get_files, load_world. rewrite relative_join, C, abspath_relative by assumption.
  destruct (exists_last N) as (l & p & ->). apply Forall_app in F. destruct F as (F & Fp). inversion Fp as [|? ? Pp _].
  rewrite under_snoc, abspath_in; [reflexivity| |assumption].
  destruct D as (q & Q & ->). exists (q ++ l). split; [apply Forall_app; now split|]. unfold under. now rewrite flat_map_app.
Qed.
