(** * Projects that cannot be reported, and those that always are *)
From Coq Require Import Ascii String List ZArith Lia Bool.
From Verif Require Import Base MemMap SpecTree Filter Pipeline SpecPipe ProofRegions ProofSplit PyStr MapFile SpecMap ProofMap5 Deps Table SpecTable ProofTable ProofTable2 Formats ElfRead Dwarf SpecElf Project SpecProject ProofProject1 ProofProject2 Chips Main SpecMain ProofMain Command SpecEnd ProofEnd SpecCommand SpecFail ProofCommand1 ProofFail1 ProofFail2.
Import ListNotations.
Open Scope list_scope.
Open Scope Z_scope.

(** ** [get] on a linked project *)
Definition known_target (chips : str -> res (list chip_type)) (t : str) : res (list chip_type) :=
  match t with [] => Err MemMapException | _ => chips t end.

Section Linked.
Variables (d : disk) (dir name text : str) (rs : list region) (l : list printed) (crt : option (list SpecMap.entry)) (im : option (list (str * xshdr))) (t : str).
Hypothesis L : linked d dir name text rs l crt im t.

Lemma linked_map : exists target, load_map d (in_dir dir name) = Ok (MapFile target rs (map printed_section l)) /\ forall pm, map_text text = Ok pm -> pm_target pm = target.
Proof.
  destruct L as [D P T Pm R Im Tg]. destruct (load_printed _ _ _ _ _ _ T Pm R) as (target & E). exists target. split; [exact E|]. intros pm Em.
  unfold load_map, read_map in E. rewrite T, Em in E. unfold usable_map in E. destruct (validate_sections (pm_sections pm)) as [|[]]; try discriminate E; now injection E.
Qed.

Lemma linked_world chips ud : no_dwarf d dir ud -> exists w e mf, load_world d chips (in_dir dir name) false ud = Ok w /\ dwarf_flag ud w = false /\
  w_mapfile w = Ok mf /\ w_elf w = Ok e /\ elf_matches im e /\ w_memory_types w = chips /\ mf_regions mf = rs /\ mf_sections mf = map printed_section l /\
  (forall ma ea, ma = None \/ ma = Some mf -> get w false ud ma ea =
    do types <- known_target chips t; do r <- build false types e rs (map printed_section l);
    Ok (MemMap t [] (fst r) 0 (w_map_fn w) [] (snd r), MapFile (mf_target mf) (mf_regions mf) (after_filter (get_elf_sections_headers e) (mf_sections mf)))).
Proof.
  intros N. destruct (lk_target _ _ _ _ _ _ _ _ _ L) as (t1 & Dt & Ht). destruct linked_map as (target & Lm & Tm).
  destruct L as [D P T Pm R Im _]. destruct (loads d dir name D P chips im t1 ud Im Dt N) as (w & e & Lw & Lto & Wm & We & Em & Wc & Wt).
  exists w, e, (MapFile target rs (map printed_section l)). split; [exact Lw|].
  assert (F : dwarf_flag ud w = false) by (destruct N as [->|(-> & _)]; [reflexivity|exact Lto]).
  split; [exact F|]. split; [now rewrite Wm|]. split; [exact We|]. split; [exact Em|]. split; [exact Wc|]. split; [reflexivity|]. split; [reflexivity|].
  intros ma ea Hm. unfold get. assert (Lo : load_mapfile ma (w_mapfile w) = Ok (MapFile target rs (map printed_section l))).
  { destruct Hm as [->| ->]; [|reflexivity]. cbn. now rewrite Wm, Lm. }
  rewrite Lo, We, F. cbn [bind mf_sections mf_target mf_regions].
  assert (Pt : pick_target (w_proj_desc w) (MapFile target rs (map printed_section l)) = match t with [] => Err MemMapException | _ => Ok t end).
  { unfold pick_target. fold (world_target w). rewrite Wt. destruct Ht as [(Nt & ->)|(-> & pm & Ep & ->)]; [now destruct t1|]. cbn [mf_target]. rewrite <- (Tm pm Ep). reflexivity. }
  rewrite Pt, Wc. unfold known_target. destruct t as [|ch q]; [reflexivity|]. cbn [bind].
  destruct (chips (ch :: q)) as [types|]; [|reflexivity]. cbn [bind]. reflexivity.
Qed.

Lemma linked_builds types e : regions_mapped rs types -> exists r, build false types e rs (map printed_section l) = Ok r.
Proof.
  intros M. destruct (printed_nonneg _ _ _ _ (lk_map _ _ _ _ _ _ _ _ _ L)) as (Rn & _). unfold build.
  destruct (split_regions_covered types (filter_memory_regions rs)) as (parts & Ep).
  - unfold filter_memory_regions. apply Forall_forall. intros r I. apply filter_In in I. rewrite Forall_forall in Rn. now apply Rn.
  - intros r a I B. unfold filter_memory_regions in I. apply filter_In in I. destruct I as (I & N). apply (M r a I); [|exact B].
    intros E. rewrite E, keq_refl in N. discriminate N.
  - rewrite Ep. cbn [bind].
    destruct (split_tiles (clear_symbols (filter_map_sections (map printed_section l) (get_elf_sections_headers e))) parts) as (groups & Eg & _).
    rewrite Eg. cbn [bind]. eexists. reflexivity.
Qed.
End Linked.

(** ** failures *)
Section Fail.
Variables (d : disk) (chips : str -> res (list chip_type)) (render : console -> list piece -> str) (encode : str -> str) (ord : set_order) (pf : pct_format) (c : cmd).
Notation a := (c_args c).

Lemma unreadable_diagnosed dir name s : directory dir -> proper name -> c_input c = in_dir dir name -> unreadable_map d (in_dir dir name) ->
  diagnosed s (run_files d chips render encode ord pf c no_faults s).
Proof.
  intros D P E U. apply (run_stops _ _ _ _ _ _ MapFileException); [|now right]. unfold analyse. apply stops_first. apply stops_compute.
  unfold projects_of. rewrite world_map, E, abspath_in by assumption. now apply unreadable_load.
Qed.


Lemma loads_any dir name t1 ls ud : directory dir -> proper name -> described_target d dir name t1 -> (ud = None -> proper_config d dir) ->
  exists w, load_world d chips (in_dir dir name) ls ud = Ok w /\ w_mapfile w = load_map d (in_dir dir name).
Proof.
  intros D P Dt Cf. destruct (desc_of d dir name D P t1 Dt) as (pd & Ep & Et & _). unfold load_world. rewrite abspath_in by assumption. rewrite Ep. cbn [bind].
  assert (F : exists b, match ud with Some b => Ok b | None => lto_flag d (in_dir dir name) end = Ok b).
  { destruct ud as [b|]; [now exists b|]. rewrite lto_eq by assumption. destruct (Cf eq_refl) as [->|[->|(o & ->)]]; [now exists false|now exists false|].
    cbn [jget bind]. eexists. reflexivity. }
  destruct F as (b & ->). cbn [bind]. rewrite Et. cbn [bind]. eexists. split; reflexivity.
Qed.
Lemma get_fails dir name t1 ls ud : directory dir -> proper name -> unreadable_map d (in_dir dir name) -> described_target d dir name t1 -> (ud = None -> proper_config d dir) ->
  get_files d chips (in_dir dir name) ls ud = Err MemMapException.
Proof.
  intros D P U Dt Cf. unfold get_files. destruct (loads_any dir name t1 ls ud D P Dt Cf) as (w & -> & Wm). cbn [bind].
  unfold get, load_mapfile. rewrite Wm, (unreadable_load _ _ U). reflexivity.
Qed.

(** ** reports that need no symbols *)
Hypothesis Pl : plain_report a.
Lemma plain_ls : load_symbols a = false.
Proof. destruct Pl as (G & R & _). unfold load_symbols. rewrite G. destruct (a_format a); try reflexivity. now destruct R. Qed.
Lemma plain_deps : needs_deps a = false.
Proof. destruct Pl as (_ & _ & R & G). unfold needs_deps. rewrite G. destruct (a_format a); try reflexivity. now destruct R. Qed.
Lemma plain_projects input : projects_of d chips a input = load_project d chips false (dwarf_option a) false input.
Proof. unfold projects_of. now rewrite plain_ls, plain_deps. Qed.
Lemma plain_diff : a_diff (final_args a) = a_diff a.
Proof. destruct Pl as (_ & _ & _ & G). unfold final_args, without_conflicts, conflict_diff. cbn. now rewrite G. Qed.

Notation an := (analyse (load_symbols (final_args a)) ord pf (projects_of d chips a) (c_input c) (final_args a)).

Section Main.
Variables (dir name text : str) (rs : list region) (l : list printed) (crt : option (list SpecMap.entry)) (im : option (list (str * xshdr))) (t : str).
Hypotheses (L : linked d dir name text rs l crt im t) (Ei : c_input c = in_dir dir name) (Nd : without_dwarf d dir a).
Let N : no_dwarf d dir (dwarf_option a). Proof. apply dwarf_of; [apply Pl|apply Pl|exact Nd]. Qed.

Lemma main_fails : known_target chips t = Err MemMapException -> stops an MemMapException.
Proof.
  intros K. destruct (linked_world d dir name text rs l crt im t L chips (dwarf_option a) N) as (w & e & mf & Lw & F & Wm & We & M & Wc & R & S & G).
  unfold analyse. rewrite final_load, plain_ls, Ei, plain_projects, (world_plain _ _ _ _ _ _ Lw). cbn zeta.
  eapply stops_andthen; [eapply goes_compute; [exact Wm|apply eq_refl]|]. intros mf0 <-.
  eapply stops_andthen; [eapply goes_compute; [exact We|apply eq_refl]|]. intros e0 <-.
  apply stops_first. apply stops_compute. rewrite final_dwarf, (G (Some mf) e) by now right. now rewrite K.
Qed.
Lemma main_then types : known_target chips t = Ok types -> regions_mapped rs types -> exists m x,
  (forall Q, goes (compare false (projects_of d chips a) (final_args a) (prepare (final_args a) m)) (fun m' => Q (x, if a_unify a then unify m' else m')) -> goes an Q) /\
  (forall e, stops (compare false (projects_of d chips a) (final_args a) (prepare (final_args a) m)) e -> stops an e).
Proof.
  intros K Rm. destruct (linked_world d dir name text rs l crt im t L chips (dwarf_option a) N) as (w & e & mf & Lw & F & Wm & We & M & Wc & R & S & G).
  destruct (linked_builds d dir name text rs l crt im t L types e Rm) as (r & B).
  specialize (G (Some mf) e (or_intror eq_refl)). rewrite K in G. cbn [bind] in G. rewrite B in G. cbn [bind] in G.
  eexists _, _. unfold analyse. rewrite final_load, plain_ls, Ei. rewrite (plain_projects (in_dir dir name)), (world_plain _ _ _ _ _ _ Lw). cbn zeta. split.
  - intros Q Hc.
    eapply goes_andthen; [eapply goes_compute; [exact Wm|apply eq_refl]|]. intros mf0 <-.
    eapply goes_andthen; [eapply goes_compute; [exact We|apply eq_refl]|]. intros e0 <-.
    eapply goes_andthen; [eapply goes_compute; [exact G|apply eq_refl]|]. intros mm <-.
    eapply goes_andthen; [exact Hc|]. intros m' Hq. apply goes_ret. exact Hq.
  - intros x Hc.
    eapply stops_andthen; [eapply goes_compute; [exact Wm|apply eq_refl]|]. intros mf0 <-.
    eapply stops_andthen; [eapply goes_compute; [exact We|apply eq_refl]|]. intros e0 <-.
    eapply stops_andthen; [eapply goes_compute; [exact G|apply eq_refl]|]. intros mm <-.
    apply stops_first. exact Hc.
Qed.
End Main.

(** ** the reference *)
Lemma no_reference m : given (a_diff a) = false -> goes (compare false (projects_of d chips a) (final_args a) m) (fun m' => m' = m).
Proof. intros G. unfold compare. rewrite plain_diff. destruct (a_diff a) as [[|ch q]|]; try (now apply goes_ret). discriminate G. Qed.
Lemma in_dir_cons dir name : exists ch q, in_dir dir name = ch :: q.
Proof. unfold in_dir. destruct dir; cbn; eauto. Qed.
Lemma unreadable_reference dir name m : directory dir -> proper name -> a_diff a = Some (in_dir dir name) -> unreadable_map d (in_dir dir name) ->
  stops (compare false (projects_of d chips a) (final_args a) m) MemMapException.
Proof.
  intros D P E U. unfold compare. rewrite plain_diff, E. destruct (in_dir_cons dir name) as (ch & q & Ec). rewrite Ec. apply stops_first, stops_compute. rewrite <- Ec.
  unfold get, load_mapfile, projects_of. rewrite world_map, abspath_in by assumption. now rewrite (unreadable_load _ _ U).
Qed.
Section Ref.
Variables (dir name text : str) (rs : list region) (l : list printed) (crt : option (list SpecMap.entry)) (im : option (list (str * xshdr))) (t : str).
Hypotheses (L : linked d dir name text rs l crt im t) (Ei : a_diff a = Some (in_dir dir name)) (Nd : without_dwarf d dir a).
Let N : no_dwarf d dir (dwarf_option a). Proof. apply dwarf_of; [apply Pl|apply Pl|exact Nd]. Qed.
Lemma reference_fails m : known_target chips t = Err MemMapException -> stops (compare false (projects_of d chips a) (final_args a) m) MemMapException.
Proof.
  intros K. destruct (linked_world d dir name text rs l crt im t L chips (dwarf_option a) N) as (w & e & mf & Lw & F & Wm & We & M & Wc & R & S & G).
  unfold compare. rewrite plain_diff, Ei. destruct (in_dir_cons dir name) as (ch & q & Ec). rewrite Ec. apply stops_first, stops_compute. rewrite <- Ec.
  rewrite plain_projects, (world_plain _ _ _ _ _ _ Lw), final_dwarf, (G None None) by now left. now rewrite K.
Qed.
Lemma reference_goes m types : known_target chips t = Ok types -> regions_mapped rs types ->
  goes (compare false (projects_of d chips a) (final_args a) m) (fun _ => True).
Proof.
  intros K Rm. destruct (linked_world d dir name text rs l crt im t L chips (dwarf_option a) N) as (w & e & mf & Lw & F & Wm & We & M & Wc & R & S & G).
  destruct (linked_builds d dir name text rs l crt im t L types e Rm) as (r & B).
  specialize (G None None (or_introl eq_refl)). rewrite K in G. cbn [bind] in G. rewrite B in G. cbn [bind] in G.
  unfold compare. rewrite plain_diff, Ei. destruct (in_dir_cons dir name) as (ch & q & Ec). rewrite Ec.
  eapply goes_andthen; [eapply goes_compute|]; [|apply eq_refl|].
  - rewrite <- Ec, plain_projects, (world_plain _ _ _ _ _ _ Lw), final_dwarf. exact G.
  - intros mm <-. cbn zeta. eapply goes_andthen; [|intros _ _; now apply goes_ret].
    match goal with |- goes (if ?b then _ else _) _ => destruct b end; [now apply (goes_ret tt (fun _ => True))|now apply goes_tell].
Qed.
End Ref.
End Fail.
