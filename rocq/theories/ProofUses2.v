(** * The dependency report of a project: its symbols, its cross reference table and its content *)
From Coq Require Import Ascii String List ZArith Lia Bool Sorted.
From Verif Require Import Base MemMap SpecTree SpecOps MapFile Deps SpecDeps Filter SpecFilter Pipeline SpecPipe SpecBuild SpecBytes SpecShape ProofSummary2 ProofShape PyStr SpecMap ProofMap6 ProofArch ProofDeps ProofDeps2 ProofDot
  ElfRead SpecElf ProofElf2 Project SpecProject ProofProject1 ProofProject2 SpecEnd ProofEnd Chips Table SpecTable Formats Main SpecMain ProofMain Command SpecCommand SpecFail SpecReport
  ProofCommand1 ProofReport2 ProofReport3 ProofReport4 ProofReport5 ProofFail1 ProofFail2 SpecUses ProofUses1.
Import ListNotations.
Open Scope list_scope.
Open Scope Z_scope.

(** ** symbols *)
Lemma type_mod y : xsym_type y = x_stinfo y mod 16.
Proof. unfold xsym_type. change 15 with (Z.ones 4). rewrite Z.land_ones by lia. reflexivity. Qed.
Definition code_b (y : xsym) : bool := ((xsym_type y =? STT_FUNC) || (xsym_type y =? STT_OBJECT)) && negb (x_shndx y =? SHN_ABS).
Lemma code_b_ok y : code_b y = true <-> code_symbol y.
Proof.
  unfold code_b, code_symbol. rewrite andb_true_iff, orb_true_iff, negb_true_iff, !Z.eqb_eq, Z.eqb_neq, type_mod. reflexivity.
Qed.
Definition dsym_named (ny : str * xsym) : dsym := DSym (if code_b (snd ny) then fst ny else []) (xsym_type (snd ny)) (x_shndx (snd ny)).
Lemma dsyms_code ys s : elf_symbol (map dsym_named ys) s <-> names_code ys s.
Proof.
  unfold elf_symbol, names_code. split.
  - intros (y & I & N & T & A). apply List.in_map_iff in I. destruct I as ((n & x) & <- & I). unfold dsym_named in *. cbn [ds_name ds_type ds_shndx fst snd] in *.
    assert (C : code_symbol x) by (rewrite type_mod in T; now split). apply code_b_ok in C. rewrite C in N. subst s. exists x. split; [exact I|]. now apply code_b_ok.
  - intros (x & I & C). exists (dsym_named (s, x)). split; [now apply List.in_map|]. pose proof C as C'. apply code_b_ok in C'. unfold dsym_named. cbn [ds_name ds_type ds_shndx fst snd]. rewrite C'.
    split; [reflexivity|]. rewrite type_mod. exact C.
Qed.

Lemma named_read file ys e : named_symbols file ys -> elf_init file = Ok e -> exists l, symbols e = Ok l /\ mapM (dsym_of e) l = Ok (map dsym_named ys).
Proof.
  intros (is64 & big & h & phs & shs & ls & Im & Fl & Es & Na) Ei. exists (concat ls). split; [eapply symbols_image; eassumption|]. rewrite <- Es.
  rewrite (elf_init_image _ _ _ _ _ _ Im) in Ei. injection Ei as <-. clear Es. induction Na as [|ny ys H Na IH]; [reflexivity|]. cbn [map mapM].
  assert (X : dsym_of (XElf file is64 big h (map (phdr_read is64) phs) shs) (snd ny) = Ok (dsym_named ny)).
  { unfold dsym_of. fold (code_b (snd ny)). unfold dsym_named. destruct (code_b (snd ny)) eqn:C; [|reflexivity]. apply code_b_ok in C. destruct (H C) as (t & Et & Pl & St).
    rewrite (xsym_name_at (XElf file is64 big h (map (phdr_read is64) phs) shs) t (snd ny) (fst ny)); [reflexivity|exact Et|exact Pl|exact St]. }
  rewrite X. cbn [bind]. rewrite IH. reflexivity.
Qed.

Section Load.
Variables (d : disk) (dir name : str).
Hypotheses (D : directory dir) (P : proper name).
Lemma symbols_elf ys : symbols_of d dir name ys -> exists o file e, get_proj_desc d (in_dir dir name) = Ok (Some (JObj o)) /\
  get_elf d (in_dir dir name) (Some (JObj o)) = Ok (Some e) /\ elf_init file = Ok e /\ named_symbols file ys.
Proof.
  intros (o & app & fn & file & Ed & M & Lo & F & B & Na). exists o, file. pose proof (described_desc d dir name D P o app Ed M) as Ep.
  destruct Na as (is64 & big & h & phs & shs & ls & Im & Na). pose proof (elf_init_image _ _ _ _ _ _ Im) as Ei. eexists. split; [exact Ep|]. split; [|split; [exact Ei|]].
  2:{ exists is64, big, h, phs, shs, ls. now split. }
  unfold get_elf. cbn [jindex]. rewrite (proj1 M). cbn [bind jstr].
  assert (Loc : path_join (dirname (in_dir dir name)) app = fn).
  { pose proof (join_located dir name app D (proper_noslash _ P)) as Lo'. destruct Lo as [(R & ->)|(R & ->)], Lo' as [(R' & E')|(R' & E')]; tauto. }
  rewrite Loc, F. unfold load_elf_file. rewrite B, Ei. reflexivity.
Qed.
Lemma symbols_deps ys : symbols_of d dir name ys -> dep_symbols d (in_dir dir name) = Ok (map dsym_named ys).
Proof.
  intros H. destruct (symbols_elf ys H) as (o & file & e & Ep & Ee & Ei & Na). unfold dep_symbols. rewrite Ep. cbn [bind]. rewrite Ee. cbn [bind].
  destruct (named_read file ys e Na Ei) as (l & El & Em). rewrite El. cbn [bind]. exact Em.
Qed.
Lemma elf_there ys chips ls ud deps e : symbols_of d dir name ys -> w_elf (p_world (load_project d chips ls ud deps (in_dir dir name))) = Ok e -> e <> None.
Proof.
  intros H. pose proof (symbols_deps ys H) as Es. destruct (symbols_elf ys H) as (o & file & x & Ep & Ee & _ & _). unfold load_project. cbn [p_world]. rewrite abspath_in by assumption. rewrite Es.
  unfold load_world. rewrite abspath_in by assumption. rewrite Ep. cbn [bind]. destruct (match ud with Some b => Ok b | None => _ end) as [flag|]; [|discriminate]. cbn [bind].
  destruct (desc_target (Some (JObj o))); [|discriminate]. cbn [bind w_elf]. rewrite Ee. cbn [bind]. destruct (view_elf ls flag x) as [v|]; [|discriminate]. cbn [bind].
  destruct (if flag then _ else _); [|discriminate]. cbn [bind]. intros X. injection X as <-. discriminate.
Qed.
End Load.

(** ** the cross reference table *)
Lemma crt_read d dir name text rs l es im types input : built d dir name text rs l (Some es) im types -> input = in_dir dir name ->
  forall t, match read_map d (abspath (d_cwd d) input) with Ok pm => pm_crt pm | Err _ => None end = Some t ->
  proper_crt t /\ map fst t = distinct (map en_symbol es) /\ forall s v, dget s t = Some v <-> last_entry es s v.
Proof.
  intros Bt -> t E. rewrite abspath_in in E; [|apply Bt|apply Bt]. unfold read_map in E. rewrite (bt_text _ _ _ _ _ _ _ _ _ Bt) in E.
  destruct (map_text text) as [pm|] eqn:Em; [|discriminate]. unfold map_text in Em. destruct (crt_map _ _ _ _ _ (bt_map _ _ _ _ _ _ _ _ _ Bt) Em) as (C & K). rewrite E in C, K.
  split; [eapply map_crt_proper; eassumption|]. split; [exact K|]. intros s v. rewrite <- C. split; [intros G; exists t; now split|intros (t' & X & G); now injection X as <-].
Qed.

(** ** the content *)
Section Right.
Variables (a : args) (k : account) (es : list SpecMap.entry) (ys : list (str * xsym)) (M : memmap) (fu : str -> Z * Z) (fn : str -> str -> Z * Z) (fo : (item -> bool) -> str -> str -> Z * Z).
Variables (crt : crt_table) (syms : list dsym) (ord : set_order) (r : dict str darch).
Hypotheses (F : final a k None M fu fn fo) (Ad : a_archive_dependencies a = true) (SI : set_iteration ord) (P : proper_crt crt)
  (Ck : map fst crt = distinct (map en_symbol es)) (Ce : forall s v, dget s crt = Some v <-> last_entry es s v)
  (Sy : forall s, elf_symbol syms s <-> names_code ys s)
  (E : get_archives_dependencies ord (Some crt) M (Some syms) (final_args a) = Ok r).
Let f := final_args a.
Lemma no_diff : given (a_diff (final_args a)) = false.
Proof. cbn. unfold conflict_diff. rewrite Ad. cbn [andb]. destruct (given (a_diff a)) eqn:G; [reflexivity|exact G]. Qed.
Lemma in_map_has x : in_map M x <-> has_archive k x.
Proof.
  unfold in_map, has_archive. pose proof (f_places_archive _ _ _ _ _ _ _ F x) as H. unfold present in H. split.
  - intros (T & N & L). destruct (proj1 H) as (i & [I|[]] & Ei); [now exists T, N|]. now exists i.
  - intros (i & I & Ei). apply H. exists i. split; [now left|exact Ei].
Qed.
Lemma uses_depends x y s : SpecDeps.uses crt M syms x y s <-> depends k es ys x y s.
Proof.
  unfold SpecDeps.uses, depends, defined_used. rewrite !in_map_has, Sy. assert (H : (exists def rest, dget s crt = Some (def :: rest) /\ fst def = y /\ In x (map fst rest)) <->
    exists def refs, last_entry es s (def :: refs) /\ fst def = y /\ In x (map fst refs)).
  { split; intros (def & q & G & R); exists def, q; (split; [now apply Ce|exact R]). }
  rewrite H. reflexivity.
Qed.
Lemma size_bytes x : in_map M x -> archive_bytes k x (SpecDeps.archive_size M x).
Proof.
  intros I. pose proof (f_wf _ _ _ _ _ _ _ F) as W. rewrite <- (ProofDeps2.summary_size M f x W no_diff I). apply (ProofDeps2.summary_in_map M f x W no_diff) in I. unfold dmem in I. unfold size_of.
  pose proof (archives_report M f x W) as R. destruct (dget x (get_archives_summary M f)) as [e|]; [|discriminate]. destruct R as (R & _).
  pose proof (row_right a k None M fu fn fo F false (fun X : false = true => False_ind _ (Bool.diff_false_true X)) (Item [] 0 0 x [] []) e) as H. unfold archive_bytes.
  assert (X : entry_right k None a (of_archive x) e).
  { apply (H). exact R. }
  apply (er_size _ _ _ _ _ X).
Qed.

Lemma report_right keep (sel : str -> Prop) : (forall x d, In (x, d) r -> keep (x, d) = true <-> sel x) ->
  depreport_right k es ys a sel (content (filter keep r)) /\ Forall2 (dep_object k) (content (filter keep r)) (filter keep r).
Proof.
  intros Ks. pose proof (f_wf _ _ _ _ _ _ _ F) as W.
  destruct (report_ok ord crt M syms (final_args a) SI P W no_diff) as (r0 & E0 & L & C). rewrite E in E0. injection E0 as <-.
  destruct (report_order ord crt M syms (final_args a) r SI P E) as (O1 & O2 & O3 & N1 & N2). rewrite Ck in O1, O2, O3.
  assert (Wr : wf_dict r) by exact N1. rewrite Forall_forall in N2.
  assert (Get : forall x d, In (x, d) r -> dget x r = Some d) by (intros; now apply In_dget).
  assert (Sub : forall kv, In kv (filter keep r) -> In kv r) by (intros kv I; now apply filter_In in I).
  assert (Cf : content (filter keep r) = map (fun kv => (fst kv, map (fun q : str * dent => (fst q, de_symbols (snd q))) (da_archives (snd kv)))) (filter keep r)) by reflexivity.
  assert (InC : forall d, In d (content (filter keep r)) -> exists x v, In (x, v) r /\ d = (x, map (fun q : str * dent => (fst q, de_symbols (snd q))) (da_archives v))).
  { intros d I. rewrite Cf in I. apply List.in_map_iff in I. destruct I as ((x & v) & <- & I). exists x, v. split; [now apply Sub|reflexivity]. }
  assert (FaC : forall Q : str * list (str * list str) -> Prop, Forall Q (content r) -> Forall Q (content (filter keep r))).
  { intros Q H. rewrite Forall_forall in *. intros d I. destruct (InC d I) as (x & v & I' & ->). apply H. apply List.in_map_iff. exists (x, v). now split. }
  assert (Ent : forall x v y e, In (x, v) r -> In (y, e) (da_archives v) -> dget y (da_archives v) = Some e).
  { intros x v y e I J. apply In_dget; [|exact J]. exact (N2 (x, v) I). }
  assert (Hm : forall x y s, SpecDeps.listed r x y s -> in_map M x /\ in_map M y).
  { intros x y s H. apply L in H. change (a_dep_reverse (final_args a)) with (a_dep_reverse a) in H. destruct (a_dep_reverse a); destruct H as (_ & _ & H1 & H2 & _); now split. }
  split.
  - split.
    + rewrite content_keys. unfold keys. apply wf_filter. exact Wr.
    + apply Forall_forall. intros d I. destruct (InC d I) as (x & v & I' & ->). cbn [snd]. rewrite map_map. cbn [fst]. exact (N2 (x, v) I').
    + intros x y s. transitivity (sel x /\ SpecDeps.listed r x y s).
      2:{ rewrite L. change (a_dep_reverse (final_args a)) with (a_dep_reverse a). destruct (a_dep_reverse a); rewrite uses_depends; reflexivity. }
      split.
      * intros (l & ss & Il & Iy & Is). rewrite Cf in Il. apply List.in_map_iff in Il. destruct Il as ((x0 & v) & X & Il). injection X as -> <-. cbn [snd] in Iy.
        apply List.in_map_iff in Iy. destruct Iy as ((y0 & e) & Y & Iy). injection Y as -> <-. cbn [snd] in Is. apply filter_In in Il. destruct Il as (Il & Kl). split; [now apply (Ks x v Il)|].
        exists v, e. split; [now apply Get|]. split; [eapply Ent; eassumption|exact Is].
      * intros (Sx & v & e & Gx & Gy & Is). apply dget_In in Gx, Gy. exists (map (fun q : str * dent => (fst q, de_symbols (snd q))) (da_archives v)), (de_symbols e). split; [|split; [|exact Is]].
        { rewrite Cf. apply List.in_map_iff. exists (x, v). split; [reflexivity|]. apply filter_In. split; [exact Gx|]. now apply (Ks x v Gx). }
        { apply List.in_map_iff. exists (y, e). now split. }
    + apply Forall_forall. intros d I. destruct (InC d I) as (x & v & I' & ->). cbn [snd]. destruct (C x v (Get x v I')) as (_ & _ & (y & s & (v' & e & G1 & G2 & _)) & Ci). split.
      * rewrite (Get x v I') in G1. injection G1 as <-. intros X. apply map_eq_nil in X. rewrite X in G2. discriminate G2.
      * apply Forall_forall. intros q Iq. apply List.in_map_iff in Iq. destruct Iq as ((y' & e') & <- & Iq). cbn [snd]. apply (Ci y' e'). eapply Ent; eassumption.
    + now apply FaC.
    + apply sorted_map, sorted_filter. exact (sorted_map_inv _ _ _ O1).
    + now apply FaC.
  - rewrite Cf. assert (G : forall q, (forall kv, In kv q -> In kv r) -> Forall2 (dep_object k) (map (fun kv : str * darch => (fst kv, map (fun q : str * dent => (fst q, de_symbols (snd q))) (da_archives (snd kv)))) q) q).
    2:{ apply G. exact Sub. }
    induction q as [|(x & v) q IH]; intros H; cbn [map]; constructor; [|apply IH; intros; apply H; now right].
    assert (I : In (x, v) r) by (apply H; now left). destruct (C x v (Get x v I)) as (A1 & A2 & (y & s & Ls) & Ci). unfold dep_object. cbn [fst snd].
    split; [reflexivity|]. split; [rewrite A1; apply basename_after|]. split; [rewrite A2; apply size_bytes, (Hm _ _ _ Ls)|].
    assert (G2 : forall q', (forall e, In e q' -> In e (da_archives v)) -> Forall2 (dep_entry k) (map (fun q : str * dent => (fst q, de_symbols (snd q))) q') q').
    2:{ apply G2. auto. }
    induction q' as [|(y' & e) q' IH']; intros H'; cbn [map]; constructor; [|apply IH'; intros; apply H'; now right].
    assert (I' : In (y', e) (da_archives v)) by (apply H'; now left). destruct (Ci y' e (Ent x v y' e I I')) as (B1 & B2 & B3 & B4). unfold dep_entry. cbn [fst snd].
    split; [reflexivity|]. split; [rewrite B1; apply basename_after|]. split; [|reflexivity]. rewrite B2. apply size_bytes.
    destruct (de_symbols e) as [|s0 q0] eqn:Eq; [contradiction|]. apply (Hm x y' s0). exists v, e. split; [now apply Get|]. split; [eapply Ent; eassumption|]. rewrite Eq. now left.
Qed.
End Right.

(** ** the run *)
Lemma dep_core d c k es ys o files s render encode ord pf : dep_project d c k es ys -> asks_deps (c_args c) ->
  run_files d (get_memory_types chip_info) render encode ord pf c o (start files) = (Done tt, s) ->
  exists x M fu fn fo s1 s2, final (c_args c) k None M fu fn fo /\ x_order x = ord /\
    (forall t, x_crt x = Some t -> proper_crt t /\ map fst t = distinct (map en_symbol es) /\ forall y v, dget y t = Some v <-> last_entry es y v) /\
    (exists syms, x_syms x = Some syms /\ forall y, elf_symbol syms y <-> names_code ys y) /\
    s_printed s1 = [] /\ show x M (final_args (c_args c)) o s1 = (Done tt, s2) /\ s_printed s = s_printed s2 /\ s_notes s = s_notes s2.
Proof.
  intros (dir & name & text & Ei & Bt & Sy & Wd & Dw & Fi) (Ad & Au & _) R. set (a := c_args c) in *.
  apply run_any in R. destruct R as (mf & e & m & mf' & x & M & s1 & s2 & Mf & We & G & X & Di & P1 & Sh & P2 & N2). fold a in G, Di, Sh, X, We, Mf.
  change (a_unify (final_args a)) with (a_unify a) in Sh. rewrite Au in Sh. rewrite final_load, final_dwarf in G.
  destruct Di as [(_ & ->)|(fn & r & mf2 & Dd & Nf & _)].
  2:{ exfalso. pose proof (no_diff a Ad) as Nd. rewrite Dd in Nd. destruct fn; [now apply Nf|discriminate Nd]. }
  assert (Gf : get_files d (get_memory_types chip_info) (c_input c) (load_symbols a) (dwarf_option a) = Ok m) by (eapply load_project_get; eassumption). rewrite Ei in Gf.
  assert (Nw : no_dwarf d dir (dwarf_option a)).
  { unfold without_dwarf, dwarf_option in *. destruct (a_use_dwarf a) as [[|]|] eqn:Ud; [|exact Wd|exact Wd]. destruct Wd as (A1 & A2). left. rewrite A1, A2.
    destruct (given (a_archive_details a)) eqn:Gd; [exfalso; apply Dw; [now left|reflexivity]|]. destruct (a_format a) eqn:Fo; try reflexivity. exfalso. apply Dw; [now right|reflexivity]. }
  destruct (built_ledger _ _ _ _ _ _ _ _ _ a _ _ _ Bt Gf Nw Fi) as (lu & ln & lo & Le). apply final_alone in Le.
  replace (Account (ac_rs k) (ac_l k) (ac_im k) (ac_types k)) with k in Le by (now destruct k).
  exists x, (prepare (final_args a) m), (fun T => (lu T, 0)), (fun T N => (ln T N, 0)), (fun own T N => (lo own T N, 0)), s1, s2.
  split; [exact Le|]. rewrite X. split; [reflexivity|]. cbn [x_crt x_syms]. split; [|split].
  - intros t Et. unfold projects_of, load_project in Et. cbn [p_crt] in Et. eapply crt_read; [exact Bt|exact Ei|exact Et].
  - unfold projects_of in *. rewrite Ei in We. pose proof (elf_there d dir name (bt_dir _ _ _ _ _ _ _ _ _ Bt) (bt_name _ _ _ _ _ _ _ _ _ Bt) ys _ _ _ _ _ Sy We) as Ne.
    destruct e as [v|]; [|contradiction]. exists (map dsym_named ys). split; [|apply dsyms_code]. unfold load_project. cbn [p_syms]. rewrite Ei, abspath_in by apply Bt.
    now rewrite (symbols_deps d dir name (bt_dir _ _ _ _ _ _ _ _ _ Bt) (bt_name _ _ _ _ _ _ _ _ _ Bt) ys Sy).
  - rewrite X in Sh. split; [exact P1|]. split; [exact Sh|]. split; [exact P2|exact N2].
Qed.
