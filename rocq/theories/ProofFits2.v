(** * Reports on the symbols of an archive: the memory map of a project *)
From Coq Require Import Ascii String List ZArith Lia Bool.
From Verif Require Import Base MemMap SpecTree Filter Pipeline SpecPipe SpecBuild ProofRegions ProofSplit ProofBuild PyStr MapFile SpecMap ProofMap5 Deps Table SpecTable ProofTable ProofTable2 Formats ElfRead Dwarf SpecElf ProofElf1 ProofElf2 Project SpecProject ProofProject1 ProofProject2 Chips Main SpecMain ProofMain Command SpecEnd ProofEnd SpecCommand SpecFail SpecReport SpecSyms SpecSymbols
  ProofCommand1 ProofFail1 ProofFail2 ProofFail3 ProofSymbols1 ProofSymbols3 SpecFits ProofFits1.
Import ListNotations.
Open Scope list_scope.
Open Scope Z_scope.

Section Load.
Variables (d : disk) (dir name : str).
Hypotheses (D : directory dir) (P : proper name).
Lemma loads_symbols chips im t1 ud ys : image_of d dir name im -> described_target d dir name t1 -> no_dwarf d dir ud -> symbols_of d dir name im ys ->
  exists w e, load_world d chips (in_dir dir name) true ud = Ok w /\ w_lto w = false /\ w_mapfile w = load_map d (in_dir dir name) /\
    w_elf w = Ok e /\ elf_matches im e /\ symbols_match ys e /\ w_memory_types w = chips /\ world_target w = t1.
Proof.
  intros Im Dt N S. destruct (desc_of d dir name D P t1 Dt) as (pd & Ep & Et & Hn & Hs). unfold load_world. rewrite abspath_in by assumption.
  rewrite Ep. cbn [bind]. rewrite (flag_of d dir name ud D P N). cbn [bind]. rewrite Et. cbn [bind].
  assert (Loc : forall app fn, located dir app fn -> path_join (dirname (in_dir dir name)) app = fn).
  { intros app fn Lo. pose proof (join_located dir name app D (proper_noslash _ P)) as Lo'. destruct Lo as [(R & ->)|(R & ->)], Lo' as [(R' & E')|(R' & E')]; tauto. }
  assert (Desc : forall o app, description d dir = Some (JObj o) -> describes_map o name app -> pd = Some (JObj o) /\ dget (list_ascii_of_string "app_elf") o = Some (JStr app)).
  { intros o app Ed M. rewrite (described_desc d dir name D P o app Ed M) in Ep. injection Ep as <-. split; [reflexivity|apply M]. }
  eexists. match goal with |- exists e, Ok ?w = _ /\ _ => assert (exists e, w_elf w = Ok e /\ elf_matches im e /\ symbols_match ys e) as (e & We & M & Sm) end.
  2:{ exists e. split; [reflexivity|]. split; [reflexivity|]. split; [reflexivity|]. split; [exact We|]. split; [exact M|]. split; [exact Sm|]. split; [reflexivity|].
      unfold world_target. cbn [w_proj_desc]. destruct pd as [j|]; cbn [option_map pd_target]; [reflexivity|]. symmetry. now apply Hn. }
  assert (None_ok : im = None -> elf_matches im None /\ symbols_match ys None). { intros ->. inversion S; subst. split; exact Logic.I. }
  cbn [w_elf]. destruct Im as [U|o app fn Ed M Lo F|o app fn Ed M Lo B|o app fn file l Ed M Lo F B Nh].
  - destruct pd as [j|]; [|exists None; split; [reflexivity|now apply None_ok]]. destruct (Hs j eq_refl) as (o & app & -> & Ed & M). destruct (undescribed_not d dir name o app U Ed M).
  - destruct (Desc o app Ed M) as (-> & Ga). cbn [get_elf jindex]. rewrite Ga. cbn [bind jstr]. rewrite (Loc _ _ Lo), F. exists None. split; [reflexivity|now apply None_ok].
  - destruct (Desc o app Ed M) as (-> & Ga). cbn [get_elf jindex]. rewrite Ga. cbn [bind jstr]. rewrite (Loc _ _ Lo).
    unfold load_elf_file. rewrite B. exists None. split; [now destruct (d_isfile d fn)|now apply None_ok].
  - destruct (Desc o app Ed M) as (Epd & Ga). rewrite Epd. cbn [get_elf jindex]. rewrite Ga. cbn [bind jstr]. rewrite (Loc _ _ Lo), F.
    unfold load_elf_file. rewrite B. pose proof Nh as (is64 & big & h & phs & tt & Im & _). pose proof (elf_init_image _ _ _ _ _ _ Im) as Ei. rewrite Ei. cbn [bind].
    unfold view_elf. cbn [bind]. rewrite (view_headers file l _ Nh Ei). cbn [bind].
    inversion S as [|hs o2 app2 fn2 file2 ys2 Ed2 M2 Lo2 B2 Sy]; subst hs ys. rewrite Ed2 in Ed. injection Ed as ->.
    destruct (Desc o app2 Ed2 M2) as (_ & Ga2). rewrite Ga2 in Ga. injection Ga as ->. pose proof (Loc _ _ Lo) as L1. pose proof (Loc _ _ Lo2) as L2. assert (L3 : fn2 = fn) by congruence. rewrite L3 in B2. rewrite B2 in B. injection B as ->.
    destruct Sy as (is64' & big' & h' & phs' & shs' & ls' & Im' & F1 & F2). pose proof (elf_init_image _ _ _ _ _ _ Im') as Ei'.
    set (xe := XElf _ _ _ _ _ _) in *. assert (Ex : xe = XElf file is64' big' h' (map (phdr_read is64') phs') shs') by congruence.
    pose proof (symbols_image _ _ _ _ _ _ _ _ Im' F1 Ei) as Sy. rewrite Sy. cbn [bind].
    destruct (view_symbols xe file shs' (concat ls') ys2) as (ys' & Ev & Ew); [now rewrite Ex|now rewrite Ex|exact F2|].
    rewrite Ev. cbn [bind]. eexists. split; [reflexivity|]. split; [reflexivity|]. cbn [symbols_match elf_symbols]. split; [exact Ew|].
    eapply (view_nonneg xe (concat ls')); [|exact Ev]. apply Forall_concat. apply Forall_forall. intros z Iz.
    destruct (ProofBytes.f2_In_r _ _ _ _ F1 Iz) as (s0 & _ & Q). apply (st_syms _ _ _ _ _ Q).
Qed.
End Load.

Lemma wanted_same ys e y : symbols_match ys (Some e) -> wanted y = true -> In y (elf_symbols e) <-> exists l, ys = Some l /\ In y l.
Proof.
  unfold symbols_match. destruct ys as [q|]; [|contradiction]. intros (E & _) W.
  assert (X : In y (filter wanted (elf_symbols e)) <-> In y (filter wanted q)) by now rewrite E. rewrite !filter_In in X. split.
  - intros I. exists q. split; [reflexivity|]. apply X. now split.
  - intros (q' & Eq & I). injection Eq as <-. apply X. now split.
Qed.

(** ** [get] *)
Section Linked.
Variables (d : disk) (dir name text : str) (rs : list region) (l : list printed) (crt : option (list SpecMap.entry)) (im : option (list (str * xshdr))) (t : str) (ys : option (list elfsym)).
Hypothesis L : linked d dir name text rs l crt im t.
Hypothesis Sy : symbols_of d dir name im ys.

Lemma symbols_world chips ud : no_dwarf d dir ud -> exists w e mf, load_world d chips (in_dir dir name) true ud = Ok w /\
  w_mapfile w = Ok mf /\ w_elf w = Ok e /\ elf_matches im e /\ symbols_match ys e /\
  (forall ma ea, ma = None \/ ma = Some mf -> get w true ud ma ea =
    do types <- known_target chips t; do r <- build true types e rs (map printed_section l);
    Ok (MemMap t [] (fst r) 0 (w_map_fn w) [] (snd r), MapFile (mf_target mf) (mf_regions mf) (after_filter (get_elf_sections_headers e) (mf_sections mf)))).
Proof.
  intros N. destruct (lk_target _ _ _ _ _ _ _ _ _ L) as (t1 & Dt & Ht). destruct (linked_map d dir name text rs l crt im t L) as (target & Lm & Tm).
  destruct L as [D P T Pm R Im _]. destruct (loads_symbols d dir name D P chips im t1 ud ys Im Dt N Sy) as (w & e & Lw & Lto & Wm & We & Em & Sm & Wc & Wt).
  exists w, e, (MapFile target rs (map printed_section l)). split; [exact Lw|].
  assert (F : dwarf_flag ud w = false) by (destruct N as [->|(-> & _)]; [reflexivity|exact Lto]).
  split; [now rewrite Wm|]. split; [exact We|]. split; [exact Em|]. split; [exact Sm|].
  intros ma ea Hm. unfold get. assert (Lo : load_mapfile ma (w_mapfile w) = Ok (MapFile target rs (map printed_section l))).
  { destruct Hm as [->| ->]; [|reflexivity]. cbn. now rewrite Wm, Lm. }
  rewrite Lo, We, F. cbn [bind mf_sections mf_target mf_regions].
  assert (Pt : pick_target (w_proj_desc w) (MapFile target rs (map printed_section l)) = match t with [] => Err MemMapException | _ => Ok t end).
  { unfold pick_target. fold (world_target w). rewrite Wt. destruct Ht as [(Nt & ->)|(-> & pm & Ep & ->)]; [now destruct t1|]. cbn [mf_target]. rewrite <- (Tm pm Ep). reflexivity. }
  rewrite Pt, Wc. unfold known_target. destruct t as [|ch q]; [reflexivity|]. cbn [bind].
  destruct (chips (ch :: q)) as [types|]; [|reflexivity]. cbn [bind]. reflexivity.
Qed.

Lemma parts_exist types : regions_mapped rs types -> exists parts, split_memory_regions (region_fuel types) (filter_memory_regions rs) types = Ok parts.
Proof.
  intros M. destruct (printed_nonneg _ _ _ _ (lk_map _ _ _ _ _ _ _ _ _ L)) as (Rn & _). apply split_regions_covered.
  - unfold filter_memory_regions. apply Forall_forall. intros r I. apply filter_In in I. rewrite Forall_forall in Rn. now apply Rn.
  - intros r a I B. unfold filter_memory_regions in I. apply filter_In in I. destruct I as (I & N). apply (M r a I); [|exact B].
    intros E. rewrite E, keq_refl in N. discriminate N.
Qed.
Lemma symbols_build types e : elf_matches im e -> symbols_match ys e -> regions_mapped rs types -> symbols_fit im l ys ->
  exists r, build true types e rs (map printed_section l) = Ok r.
Proof.
  intros M Sm R F. unfold build. destruct (parts_exist types R) as (parts & ->). cbn [bind].
  assert (A : exists withsyms, add_symbols_to_sections e (filter_map_sections (map printed_section l) (get_elf_sections_headers e)) = Ok withsyms).
  { destruct e as [f|]; [|eexists; reflexivity]. destruct ys as [q|]; [|contradiction]. destruct F as (Ne & F). apply added; [now apply (geos_some im)|].
    intros y I W. apply (fits_geo im _ _ M). rewrite Forall_forall in F. apply F; [|exact W].
    apply (wanted_same _ f y Sm W) in I. destruct I as (q' & E' & I). now injection E' as <-. }
  destruct A as (withsyms & ->). cbn [bind].
  destruct (split_tiles withsyms parts) as (groups & Eg & _). rewrite Eg. cbn [bind]. eexists. reflexivity.
Qed.
Lemma symbols_refused types e q y : elf_matches im e -> symbols_match ys e -> regions_mapped rs types -> ys = Some q -> In y q -> wanted y = true ->
  (exists i, placed im l i) -> symbol_misfits im l y -> build true types e rs (map printed_section l) = Err MemMapException.
Proof.
  intros M Sm R E I W Ne F. unfold build. destruct (parts_exist types R) as (parts & ->). cbn [bind].
  destruct e as [f|]; [|rewrite E in Sm; contradiction]. rewrite (refused f _ y); [reflexivity|now apply (geos_some im)| |exact W|now apply (misfits_geo im)].
  apply (wanted_same _ f y Sm W). eauto.
Qed.
Lemma nothing_placed types e q : elf_matches im e -> symbols_match ys e -> regions_mapped rs types -> ys = Some q -> (forall i, ~ placed im l i) ->
  build true types e rs (map printed_section l) = Err IndexError.
Proof.
  intros M Sm R E N. unfold build. destruct (parts_exist types R) as (parts & ->). cbn [bind].
  destruct e as [f|]; [|rewrite E in Sm; contradiction]. assert (G : geos (filter_map_sections (map printed_section l) (get_elf_sections_headers (Some f))) = []).
  { set (secs := geos _). destruct secs as [|g r] eqn:Eg; [reflexivity|]. exfalso. assert (Ig : In g secs) by (rewrite Eg; now left). apply (geos_items im _ _ _ M) in Ig.
    destruct Ig as (i & Pi & _). exact (N i Pi). }
  now rewrite (none_there f _ G).
Qed.
End Linked.
