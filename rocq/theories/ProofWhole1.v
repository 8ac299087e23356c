From Coq Require Import Ascii String List ZArith Lia Bool Permutation Sorted.
From Verif Require Import Base MemMap SpecTree SpecOps Filter SpecFilter ProofFilter Pipeline SpecPipe SpecBuild SpecBytes SpecShape ProofOps ProofTrim ProofDiff ProofDiff2 ProofSummary ProofSummary2 ProofSummary3 Fixtures ProofBuild ProofStrip PyStr MapFile SpecMap
  ElfRead SpecElf Project SpecProject SpecEnd Chips SpecChips ProofChips ProofShape Deps Table SpecTable ProofTable ProofTable3 Formats ProofFormats Main SpecMain ProofMain ProofMain4 ProofMain5 Command SpecCommand SpecFail SpecReport
  ProofCommand1 ProofCommand2 ProofCommand3 ProofCommand4 ProofCommand5 ProofCommand6 ProofReport1 ProofReport2 ProofReport3 ProofReport4 ProofReport5 ProofReport6 SpecSyms SpecSymbols ProofSymbols1 ProofSymbols2 ProofSymbols3 SpecWhole.
Import ListNotations.
Open Scope list_scope.
Open Scope Z_scope.

(** ** without symbols nothing is below an object file *)
Definition no_symbols (m : memmap) : Prop := forall T N x o y, look m T [N; x; o; y] = None.
Lemma dget_dmap_some {V W} (f : V -> W) k (d : dict str V) w : dget k (dmap f d) = Some w -> exists v, dget k d = Some v /\ w = f v.
Proof. rewrite dget_dmap. destruct (dget k d) as [v|]; [|discriminate]. cbn. intros E. injection E as <-. eauto. Qed.
Lemma strip_look (m : memmap) (t : dict str mtype) : m_types m = dmap strip_type t -> no_symbols m.
Proof.
  intros E T N x o y. unfold look. rewrite E. destruct (dget T (dmap strip_type t)) as [t1|] eqn:E1; [|reflexivity]. apply dget_dmap_some in E1. destruct E1 as (t0 & _ & ->).
  cbn [strip_type t_sections look_dict]. destruct (dget N _) as [s|] eqn:E2; [|reflexivity]. apply dget_dmap_some in E2. destruct E2 as (s0 & _ & ->).
  unfold look_sect, look_arch, look_obj. cbn [look_node look_dict strip_sect n_sub]. destruct (dget x _) as [q|] eqn:E3; [|reflexivity]. apply dget_dmap_some in E3. destruct E3 as (q0 & _ & ->).
  cbn [look_node look_dict strip_arch n_sub]. destruct (dget o _) as [z|] eqn:E4; [|reflexivity]. apply dget_dmap_some in E4. destruct E4 as (z0 & _ & ->).
  cbn [look_node look_dict strip_obj n_sub dget]. reflexivity.
Qed.
Lemma build_bare types e regions sections img t : build false types e regions sections = Ok (img, t) -> exists t0, t = dmap strip_type t0.
Proof.
  unfold build. intros E.
  destruct (split_memory_regions (region_fuel types) (filter_memory_regions regions) types) as [parts|]; cbn [bind] in *; [|discriminate E].
  set (kp := filter_map_sections sections (get_elf_sections_headers e)) in *. rewrite clear_ces, split_map_ces in E.
  destruct (split_map_sections (section_fuel parts) kp parts) as [cut|]; cbn [bind rmap] in *; [|discriminate E].
  injection E as <- <-. exists (get_mem_type_map types parts (add_archives_to_sections cut)). rewrite <- map_strip. f_equal. unfold add_archives_to_sections. rewrite !map_map. apply map_ext. intros s. apply add_archives_strip.
Qed.
Lemma get_bare w ud ma ea m mf : get w false ud ma ea = Ok (m, mf) -> no_symbols m.
Proof.
  unfold get. intros E.
  destruct (load_mapfile ma (w_mapfile w)) as [f|]; cbn [bind] in *; [|discriminate E].
  destruct (w_elf w) as [e|]; cbn [bind] in *; [|discriminate E].
  destruct (pick_target (w_proj_desc w) f) as [t|]; cbn [bind] in *; [|discriminate E].
  destruct (w_memory_types w t) as [types|]; cbn [bind] in *; [|discriminate E].
  match type of E with bind (build _ _ _ _ ?s) _ = _ => set (secs := s) in *; clearbody secs end.
  destruct (build false types e (mf_regions f) secs) as [[img d]|] eqn:B; cbn [bind] in E; [|discriminate E].
  cbn [fst snd] in E. injection E as <- <-. apply build_bare in B. destruct B as (t0 & ->). eapply strip_look. reflexivity.
Qed.
Lemma files_bare d chips fn ud m : get_files d chips fn false ud = Ok m -> no_symbols m.
Proof.
  unfold get_files. intros E. destruct (load_world d chips fn false ud) as [w|]; cbn [bind] in E; [|discriminate]. destruct (get w false _ None None) as [[m0 mf]|] eqn:G; cbn [bind] in E; [|discriminate].
  cbn [fst] in E. injection E as <-. eapply get_bare. exact G.
Qed.
Lemma prepare_within a m T p e : wf_map m -> look (prepare a m) T p = Some e -> look m T p = Some e.
Proof.
  intros W L. unfold look in *. destruct (dget T (m_types (prepare a m))) as [t'|] eqn:E; [|discriminate]. destruct (prepare_sections _ _ _ _ W E) as (t & Et & S1 & _). rewrite Et.
  destruct p as [|n p]; [discriminate|]. cbn [look_dict] in *. destruct (dget n (t_sections t')) as [s|] eqn:G; [|discriminate]. now rewrite (S1 _ _ G).
Qed.
Lemma prepare_bare a m : wf_map m -> no_symbols m -> no_symbols (prepare a m).
Proof. intros W H T N x o y. destruct (look (prepare a m) T [N; x; o; y]) eqn:E; [|reflexivity]. apply prepare_within in E; [|exact W]. now rewrite H in E. Qed.
Lemma diff_bare m n : wf_map m -> wf_map n -> no_symbols m -> no_symbols n -> no_symbols (diff m n).
Proof.
  intros W W' H H' T N x o y. pose proof (diff_exact m n T [N; x; o; y] W W') as E. destruct (look (diff m n) T [N; x; o; y]); [|reflexivity]. destruct E as ([E|E] & _); [now rewrite H in E|now rewrite H' in E].
Qed.

(** ** what is listed below a section is in it *)
Record below (P : str -> item -> Prop) (m : memmap) : Prop := {
  bl_archive : forall T N x e, look m T [N; x] = Some e -> exists i, P N i /\ it_archive i = x;
  bl_object : forall T N x o e, look m T [N; x; o] = Some e -> exists i, P N i /\ it_archive i = x /\ it_object i = o }.
Lemma built_below d dir name text rs l crt im types a ls ud m :
  built d dir name text rs l crt im types -> get_files d (get_memory_types chip_info) (in_dir dir name) ls ud = Ok m -> no_dwarf d dir ud ->
  wf_map m /\ below (fun N i => in_section N i (Account rs l im types)) (prepare a m).
Proof.
  intros Bt G Nd. destruct (built_map _ _ _ _ _ _ _ _ _ Bt _ _ _ G Nd) as (keep & b & groups & K & Bb & Pr & Gr & Ks & Im & H).
  assert (W : wf_map m) by apply Pr. split; [exact W|]. split.
  - intros T N x e L. apply prepare_within in L; [|exact W]. unfold look in L. destruct (dget T (m_types m)) as [t|] eqn:Et; [|discriminate]. cbn [look_dict] in L.
    destruct (dget N (t_sections t)) as [s|] eqn:Gs; [|discriminate]. destruct (H T t Et) as (_ & _ & L1 & L2 & _). destruct (L2 N s Gs) as (o & Io & Co & <-).
    pose proof (L1 o Io Co) as Ls. rewrite Gs in Ls. destruct Ls as (_ & _ & _ & _ & On).
    unfold look_sect, look_arch, look_node, look_dict in L. destruct (dget x (n_sub s)) as [y|] eqn:Gx; [|discriminate]. destruct (On x y Gx) as ((i & Ii & Ex & Nz) & _).
    cbn [printed_section o_isecs] in Ii. apply List.in_map_iff in Ii. destruct Ii as (i0 & <- & Ii). exists i0. split; [|exact Ex]. exists o. repeat split; try assumption; apply Co.
  - intros T N x ob e L. apply prepare_within in L; [|exact W]. unfold look in L. destruct (dget T (m_types m)) as [t|] eqn:Et; [|discriminate]. cbn [look_dict] in L.
    destruct (dget N (t_sections t)) as [s|] eqn:Gs; [|discriminate]. destruct (H T t Et) as (_ & _ & L1 & L2 & _). destruct (L2 N s Gs) as (o & Io & Co & <-).
    pose proof (L1 o Io Co) as Ls. rewrite Gs in Ls. destruct Ls as (_ & _ & _ & _ & On).
    unfold look_sect, look_arch, look_node, look_dict in L. destruct (dget x (n_sub s)) as [y|] eqn:Gx; [|discriminate]. destruct (dget ob (n_sub y)) as [z|] eqn:Go; [|discriminate].
    destruct (On x y Gx) as (_ & On2). destruct (On2 ob z Go) as (i & Ii & Ex & Eo & Nz).
    cbn [printed_section o_isecs] in Ii. apply List.in_map_iff in Ii. destruct Ii as (i0 & <- & Ii). exists i0. split; [|now split]. exists o. repeat split; try assumption; apply Co.
Qed.
Lemma below_diff P Q m n : wf_map m -> wf_map n -> below P m -> below Q n -> below (fun N i => P N i \/ Q N i) (diff m n).
Proof.
  intros W W' B C. split.
  - intros T N x e L. pose proof (diff_exact m n T [N; x] W W') as E. rewrite L in E. destruct E as ([E|E] & _).
    + destruct (look m T [N; x]) eqn:X; [|congruence]. destruct (bl_archive _ _ B _ _ _ _ X) as (i & H & H1). exists i. tauto.
    + destruct (look n T [N; x]) eqn:X; [|congruence]. destruct (bl_archive _ _ C _ _ _ _ X) as (i & H & H1). exists i. tauto.
  - intros T N x o e L. pose proof (diff_exact m n T [N; x; o] W W') as E. rewrite L in E. destruct E as ([E|E] & _).
    + destruct (look m T [N; x; o]) eqn:X; [|congruence]. destruct (bl_object _ _ B _ _ _ _ _ X) as (i & H & H1). exists i. tauto.
    + destruct (look n T [N; x; o]) eqn:X; [|congruence]. destruct (bl_object _ _ C _ _ _ _ _ X) as (i & H & H1). exists i. tauto.
Qed.
Lemma below_impl (P Q : str -> item -> Prop) m : (forall N i, P N i -> Q N i) -> below P m -> below Q m.
Proof.
  intros H B. split.
  - intros T N x e L. destruct (bl_archive _ _ B _ _ _ _ L) as (i & X & Y). exists i. auto.
  - intros T N x o e L. destruct (bl_object _ _ B _ _ _ _ _ L) as (i & X & Y). exists i. auto.
Qed.

(** ** the map a command shows *)
Definition shown_of (d : disk) (a : args) (input : str) (M : memmap) : Prop :=
  exists m, get_files d (get_memory_types chip_info) input (load_symbols a) (dwarf_option a) = Ok m /\
    ((given (a_diff a) = false /\ M = prepare a m) \/
     exists fn r, a_diff a = Some fn /\ fn <> [] /\ get_files d (get_memory_types chip_info) fn (load_symbols a) (dwarf_option a) = Ok r /\
       M = diff (prepare a m) (prepare (with_flash a) r)).
Lemma command_shows d c o files s render encode ord pf :
  run_files d (get_memory_types chip_info) render encode ord pf c o (start files) = (Done tt, s) ->
  a_unify (c_args c) = false -> a_archive_dependencies (c_args c) = false ->
  exists M x s1 s2, shown_of d (c_args c) (c_input c) M /\ x_order x = ord /\ x_pct x = pf /\ s_printed s1 = [] /\
    show x M (final_args (c_args c)) o s1 = (Done tt, s2) /\ s_printed s = s_printed s2 /\ s_notes s = s_notes s2.
Proof.
  intros R Au Ad. apply command_any in R; [|exact Au|exact Ad]. destruct R as (m & x & M & s1 & s2 & G & X1 & X2 & D & R).
  exists M, x, s1, s2. split; [exists m; now split|]. now split.
Qed.

Definition dwarf_aside (a : args) : Prop := given (a_archive_details a) = true \/ a_format a = FRaw -> a_use_dwarf a <> Some true.
Lemma without_dwarf_aside d dir a : without_dwarf d dir a -> dwarf_aside a -> no_dwarf d dir (dwarf_option a).
Proof.
  unfold without_dwarf, dwarf_option, dwarf_aside. destruct (a_use_dwarf a) as [[|]|]; [|auto|auto]. intros (A1 & A2) D. left. rewrite A1, A2.
  destruct (given (a_archive_details a)); [exfalso; now apply D; [left|]|]. destruct (a_format a); try reflexivity. exfalso. now apply D; [right|].
Qed.

Lemma final_of d c k r M : reported d c k r -> dwarf_aside (c_args c) -> shown_of d (c_args c) (c_input c) M ->
  (exists fu fn fo, final (c_args c) k r M fu fn fo) /\ below (fun N i => present k r (in_section N i)) M /\ (load_symbols (c_args c) = false -> no_symbols M).
Proof.
  intros (Pk & Rr & Au & Ad) Da (m & G & D).
  destruct Pk as (dir & name & text & crt & Ci & Bt & Wd & Fi). rewrite Ci in G. pose proof (without_dwarf_aside _ _ _ Wd Da) as Nd.
  destruct (built_ledger _ _ _ _ _ _ _ _ _ (c_args c) _ _ _ Bt G Nd Fi) as (lu & ln & lo & L).
  destruct (built_below _ _ _ _ _ _ _ _ _ (c_args c) _ _ _ Bt G Nd) as (W & B).
  assert (L' : ledger (c_args c) k (prepare (c_args c) m) lu ln lo) by (destruct k; exact L). clear L.
  assert (B' : below (fun N i => in_section N i k) (prepare (c_args c) m)) by (destruct k; exact B). clear B.
  destruct D as [(D & ->)|(fn & r0 & D & Nf & G2 & ->)].
  - assert (r = None) as ->. { destruct r as [k'|]; [|reflexivity]. destruct Rr as (fn & E & dir' & name' & text' & crt' & En & Bt' & _). exfalso. rewrite E in D.
      destruct fn; [|discriminate D]. pose proof (bt_name _ _ _ _ _ _ _ _ _ Bt') as (Pn & _). symmetry in En. now apply (in_dir_some dir' name') in En. }
    split; [do 3 eexists; apply final_alone; exact L'|]. split; [eapply below_impl; [|exact B']; intros; now left|].
    intros Ls. rewrite Ls in G. apply prepare_bare; [exact W|]. eapply files_bare. exact G.
  - destruct r as [k'|]; [|cbn in Rr; rewrite D in Rr; destruct fn; [contradiction|discriminate]].
    destruct Rr as (fn' & E & dir' & name' & text' & crt' & En & Bt' & Wd' & Fi'). rewrite D in E. injection E as <-. rewrite En in G2. pose proof (without_dwarf_aside _ _ _ Wd' Da) as Nd'.
    destruct (built_ledger _ _ _ _ _ _ _ _ _ (with_flash (c_args c)) _ _ _ Bt' G2 Nd' Fi') as (lu' & ln' & lo' & R).
    destruct (built_below _ _ _ _ _ _ _ _ _ (with_flash (c_args c)) _ _ _ Bt' G2 Nd') as (W' & B).
    assert (R' : ledger (with_flash (c_args c)) k' (prepare (with_flash (c_args c)) r0) lu' ln' lo') by (destruct k'; exact R).
    assert (B2 : below (fun N i => in_section N i k') (prepare (with_flash (c_args c)) r0)) by (destruct k'; exact B).
    split; [do 3 eexists; eapply final_diff_ok; eassumption|]. split; [apply below_diff; try assumption; now apply wf_prepare|].
    intros Ls. rewrite Ls in G, G2. apply diff_bare; try (now apply wf_prepare); apply prepare_bare; try assumption; eapply files_bare; eassumption.
Qed.

Lemma sfinal_of d c q r M : symbols_reported d c q r -> load_symbols (c_args c) = true -> shown_of d (c_args c) (c_input c) M -> exists fo, sfinal (c_args c) q r M fo.
Proof.
  intros (Pk & Rr & Au & Ad) Lo (m & G & D). rewrite Lo in G.
  destruct Pk as (dir & name & text & crt & k & ys & Ci & Bt & Nd & Fi & Sy & Cs & ->). rewrite Ci in G. destruct k as [rs l im types]. cbn [ac_rs ac_l ac_im ac_types] in *.
  destruct (built_sledger _ _ _ _ _ _ _ _ _ ys (c_args c) _ _ Bt G (no_dwarf_option _ _ _ Nd) Fi Sy Cs) as (ln & ls & L).
  destruct D as [(D & ->)|(fn & r0 & D & Nf & G2 & ->)].
  - assert (r = None) as ->. { destruct r as [q'|]; [|reflexivity]. destruct Rr as (fn & E & dir' & name' & text' & crt' & k' & ys' & En & Bt' & _). exfalso. rewrite E in D.
      destruct fn; [|discriminate D]. pose proof (bt_name _ _ _ _ _ _ _ _ _ Bt') as Pn. destruct Pn as (Pn & _). symmetry in En. now apply (in_dir_some dir' name') in En. }
    eexists. apply (sfinal_alone _ _ _ _ _ L).
  - destruct r as [q'|]; [|cbn in Rr; rewrite D in Rr; destruct fn; [contradiction|discriminate]].
    destruct Rr as (fn' & E & dir' & name' & text' & crt' & k' & ys' & En & Bt' & Nd' & Fi' & Sy' & Cs' & ->). rewrite D in E. injection E as <-. rewrite Lo, En in G2.
    destruct k' as [rs' l' im' types']. cbn [ac_rs ac_l ac_im ac_types] in *.
    destruct (built_sledger _ _ _ _ _ _ _ _ _ ys' (with_flash (c_args c)) _ _ Bt' G2 (no_dwarf_option _ _ _ Nd') Fi' Sy' Cs') as (ln' & ls' & R').
    eexists. eapply sfinal_diff; eassumption.
Qed.
