(** * From the files of a project to the symbols of its memory map *)
From Coq Require Import Ascii String List ZArith Lia Bool.
From Verif Require Import Base MemMap SpecTree SpecBytes SpecSyms Pipeline SpecPipe SpecBuild SpecShape ProofBytes ProofBytes2 ProofBytes3 ProofSyms4 ProofBuild ProofDwarf3 PyStr MapFile SpecMap ProofMap5
  ElfRead Dwarf SpecElf ProofElf1 ProofElf2 Chips SpecChips ProofChips Deps Table SpecTable Formats Main SpecMain Project SpecProject ProofProject1 ProofProject2 SpecEnd ProofEnd SpecCommand SpecFail SpecReport SpecSymbols.
Import ListNotations.
Open Scope list_scope.
Open Scope Z_scope.

(** ** the symbols that are read *)
Lemma type_is_mod y : xsym_type y = x_stinfo y mod 16.
Proof. unfold xsym_type. change 15 with (Z.ones 4). rewrite Z.land_ones by lia. reflexivity. Qed.
Lemma view_symbol_is e file shs x y : xe_file e = file -> xe_shdrs e = shs -> symbol_is file shs x y ->
  exists y', view_symbol e x = Ok y' /\ wanted y' = wanted y /\ (wanted y = true -> y' = y).
Proof.
  intros Ef Es (H1 & H2 & H3 & H4). unfold view_symbol.
  assert (Ew : ((xsym_type x =? STT_FUNC) || (xsym_type x =? STT_OBJECT)) && negb (x_stsize x =? 0) = wanted y).
  { unfold wanted. rewrite H2, H3, <- type_is_mod. reflexivity. }
  rewrite Ew. destruct (wanted y) eqn:Wy.
  - destruct (H4 eq_refl) as (Pn & t & Nt & St). rewrite (xsym_name_at e t x (st_name y)); [|now rewrite Es|exact Pn|now rewrite Ef].
    cbn [bind]. eexists. split; [reflexivity|]. assert (E : ElfSym (st_name y) (x_value x) (x_stsize x) (xsym_type x) = y).
    { destruct y. cbn in *. rewrite type_is_mod. subst. reflexivity. }
    rewrite E. split; [exact Wy|reflexivity].
  - eexists. split; [reflexivity|]. split; [|discriminate]. rewrite <- Ew. unfold wanted. cbn [st_type st_symsize]. reflexivity.
Qed.
Lemma view_symbols e file shs xs ys : xe_file e = file -> xe_shdrs e = shs -> Forall2 (symbol_is file shs) xs ys ->
  exists ys', mapM (view_symbol e) xs = Ok ys' /\ filter wanted ys' = filter wanted ys.
Proof.
  intros Ef Es. induction 1 as [|x y xs ys H F (ys' & E & W)]; [exists []; split; reflexivity|]. cbn [mapM].
  destruct (view_symbol_is e file shs x y Ef Es H) as (y' & Ev & W1 & W2). rewrite Ev. cbn [bind]. rewrite E. cbn [bind].
  exists (y' :: ys'). split; [reflexivity|]. cbn [filter]. rewrite W1. destruct (wanted y); [rewrite (W2 eq_refl)|]; rewrite W; reflexivity.
Qed.
Lemma view_nonneg e xs ys' is64 : Forall (sym_ok is64) xs -> mapM (view_symbol e) xs = Ok ys' -> Forall (fun y => 0 <= st_symsize y) ys'.
Proof.
  intros F. revert ys'. induction F as [|x xs H F IH]; intros ys' E; cbn [mapM] in E; [injection E as <-; constructor|].
  destruct (view_symbol e x) as [y|] eqn:Ev; [|discriminate]. cbn [bind] in E. destruct (mapM (view_symbol e) xs) as [r|]; [|discriminate]. cbn [bind] in E. injection E as <-.
  constructor; [|now apply IH]. destruct H as (_ & _ & _ & _ & _ & H). unfold view_symbol in Ev.
  assert (Z0 : 0 <= x_stsize x) by (unfold xfits, fits in H; lia).
  destruct (_ && _); [destruct (xsym_name e x); [|discriminate]; cbn [bind] in Ev|]; injection Ev as <-; exact Z0.
Qed.

Definition symbols_match (ys : option (list elfsym)) (e : option elf) : Prop :=
  match ys, e with
  | None, None => True
  | Some l, Some f => filter wanted (elf_symbols f) = filter wanted l /\ Forall (fun y => 0 <= st_symsize y) (elf_symbols f)
  | _, _ => False
  end.
Lemma loaded_symbols d dir name chips ud m im ys :
  directory dir -> proper name -> get_files d chips (in_dir dir name) true ud = Ok m -> image_of d dir name im -> symbols_of d dir name im ys ->
  exists w e mf, get w true (Some (w_lto w)) None None = Ok (m, mf) /\ w_mapfile w = load_map d (in_dir dir name) /\
    w_elf w = Ok e /\ elf_matches im e /\ symbols_match ys e /\ w_memory_types w = chips /\ (no_dwarf d dir ud -> w_lto w = false).
Proof.
  intros D P E I S. unfold get_files in E. destruct (load_world d chips (in_dir dir name) true ud) as [w|] eqn:L; [|discriminate]. cbn [bind] in E.
  destruct (get w true (Some (w_lto w)) None None) as [[m0 mf]|] eqn:G; [|discriminate]. cbn in E. injection E as ->.
  unfold load_world in L. rewrite abspath_in in L by assumption.
  destruct (get_proj_desc d (in_dir dir name)) as [pd|] eqn:Pd; [|discriminate]. cbn [bind] in L.
  set (fl := match ud with Some b => Ok b | None => _ end) in L. destruct fl as [flag|] eqn:Fl; [|discriminate]. cbn [bind] in L.
  destruct (desc_target pd) as [t|]; [|discriminate]. cbn [bind] in L. injection L as L.
  destruct (get_elf_ok _ _ _ _ _ _ G) as (e & We). exists w, e, mf.
  split; [exact G|]. split; [now rewrite <- L|]. split; [exact We|].
  assert (Wm : w_memory_types w = chips) by now rewrite <- L.
  assert (Wl : no_dwarf d dir ud -> w_lto w = false).
  { rewrite <- L. cbn [w_lto]. intros N. unfold fl in Fl. destruct N as [->|(-> & N)]; [now injection Fl|].
    rewrite lto_eq in Fl by assumption. destruct N as [N|(o & N & X)]; rewrite N in Fl; [now injection Fl|].
    cbn [jget] in Fl. destruct (dget (list_ascii_of_string "COMPILER_LTO_LINKTIME") o) as [v|]; [subst v|]; cbn in Fl; now injection Fl. }
  rewrite <- L in We. cbn [w_elf] in We. clear L G Fl fl.
  assert (Desc : forall o app, description d dir = Some (JObj o) -> describes_map o name app -> pd = Some (JObj o) /\ dget (list_ascii_of_string "app_elf") o = Some (JStr app)).
  { intros o app Ed M. rewrite proj_desc_eq in Pd by assumption. rewrite Ed in Pd. pose proof (proj1 M) as Ga. cbn [jget] in Pd. rewrite Ga in Pd. cbn [bind jstr] in Pd.
    rewrite (proj2 (describes_b name o app Ga) M) in Pd. split; [now injection Pd|exact Ga]. }
  assert (Loc : forall app fn, located dir app fn -> path_join (dirname (in_dir dir name)) app = fn).
  { intros app fn Lo. pose proof (join_located dir name app D (proper_noslash _ P)) as Lo'. destruct Lo as [(R & ->)|(R & ->)], Lo' as [(R' & E')|(R' & E')]; tauto. }
  assert (None_ok : e = None -> im = None -> elf_matches im e /\ symbols_match ys e). { intros -> ->. inversion S; subst. split; exact Logic.I. }
  destruct I as [U|o app fn Ed M Lo F|o app fn Ed M Lo B|o app fn file l Ed M Lo F B N].
  - rewrite (undescribed_desc name P d dir D U) in Pd. injection Pd as <-. cbn in We. injection We as <-. destruct (None_ok eq_refl eq_refl). auto.
  - destruct (Desc o app Ed M) as (-> & Ga). cbn [get_elf jindex] in We. rewrite Ga in We. cbn [bind jstr] in We. rewrite (Loc _ _ Lo), F in We. cbn in We. injection We as <-. destruct (None_ok eq_refl eq_refl). auto.
  - destruct (Desc o app Ed M) as (-> & Ga). cbn [get_elf jindex] in We. rewrite Ga in We. cbn [bind jstr] in We. rewrite (Loc _ _ Lo) in We.
    unfold load_elf_file in We. rewrite B in We. destruct (d_isfile d fn); cbn in We; injection We as <-; destruct (None_ok eq_refl eq_refl); auto.
  - clear None_ok. destruct (Desc o app Ed M) as (Epd & Ga). rewrite Epd in We. cbn [get_elf jindex] in We. rewrite Ga in We. cbn [bind jstr] in We. rewrite (Loc _ _ Lo), F in We.
    unfold load_elf_file in We. rewrite B in We. pose proof N as (is64 & big & h & phs & tt & Im & _). pose proof (elf_init_image _ _ _ _ _ _ Im) as Ei. rewrite Ei in We. cbn [bind] in We.
    destruct (view_elf true flag _) as [v|] eqn:V; [|discriminate]. cbn [bind] in We.
    match type of We with (do _ <- ?x; _) = _ => destruct x; [|discriminate] end. cbn in We. injection We as <-.
    unfold view_elf in V. destruct (if flag then _ else _) as [cus|]; [|discriminate]. cbn [bind] in V.
    rewrite (view_headers file l _ N Ei) in V. cbn [bind] in V.
    inversion S as [|hs o2 app2 fn2 file2 ys2 Ed2 M2 Lo2 B2 Sy]; subst hs ys. rewrite Ed2 in Ed. injection Ed as ->.
    destruct (Desc o app2 Ed2 M2) as (_ & Ga2). rewrite Ga2 in Ga. injection Ga as ->. pose proof (Loc _ _ Lo) as L1. pose proof (Loc _ _ Lo2) as L2. assert (L3 : fn2 = fn) by congruence. rewrite L3 in B2. rewrite B2 in B. injection B as ->.
    destruct Sy as (is64' & big' & h' & phs' & shs' & ls' & Im' & F1 & F2). pose proof (elf_init_image _ _ _ _ _ _ Im') as Ei'.
    set (xe := XElf _ _ _ _ _ _) in *. assert (Ex : xe = XElf file is64' big' h' (map (phdr_read is64') phs') shs') by congruence.
    pose proof (symbols_image _ _ _ _ _ _ _ _ Im' F1 Ei) as Sy. rewrite Sy in V. cbn [bind] in V.
    destruct (view_symbols xe file shs' (concat ls') ys2) as (ys' & Ev & Ew); [now rewrite Ex|now rewrite Ex|exact F2|].
    rewrite Ev in V. cbn in V. injection V as <-. split; [reflexivity|]. split; [|now split]. cbn [symbols_match elf_symbols]. split; [exact Ew|].
    eapply (view_nonneg xe (concat ls')); [|exact Ev]. apply Forall_concat. apply Forall_forall. intros z Iz.
    destruct (f2_In_r _ _ _ _ F1 Iz) as (s0 & _ & Q). apply (st_syms _ _ _ _ _ Q).
Qed.

(** ** the symbols of an output section *)
Lemma symbols_at_match ys e n a z : symbols_match ys e -> symbols_at (option_map elf_symbols e) n a z = symbols_at ys n a z.
Proof.
  unfold symbols_match, symbols_at. destruct ys as [ys|], e as [f|]; cbn [option_map]; try contradiction; [|reflexivity]. intros (-> & _). reflexivity.
Qed.
Lemma symbols_in_match ys e a o s : symbols_match ys e -> symbols_in (option_map elf_symbols e) a o s = symbols_in ys a o s.
Proof. intros M. unfold symbols_in. apply flat_map_ext. intros i. now apply symbols_at_match. Qed.

Lemma of_object_symbols x ob ys i : filter (of_object x ob) (map (symbol_item i) (item_symbols ys i)) = if of_object x ob i then map (symbol_item i) (item_symbols ys i) else [].
Proof.
  induction (item_symbols ys i) as [|z q IH]; cbn [map filter]; [now destruct (of_object x ob i)|]. rewrite IH.
  change (of_object x ob (symbol_item i z)) with (of_object x ob i). now destruct (of_object x ob i).
Qed.
Lemma symbols_in_items ys x ob o : filter (of_object x ob) (pr_items (by_symbols ys o)) =
  flat_map (fun i => map (symbol_item i) (item_symbols ys i)) (filter (of_object x ob) (pr_items o)).
Proof.
  cbn [by_symbols pr_items]. induction (pr_items o) as [|i q IH]; [reflexivity|]. cbn [flat_map filter]. rewrite filter_app, of_object_symbols, IH. destruct (of_object x ob i); reflexivity.
Qed.
Lemma symbols_in_map {A} (f : symbol -> A) (g : item -> A) ys x ob o : (forall i z, g (symbol_item i z) = f z) ->
  map f (symbols_in ys x ob (printed_section o)) = map g (filter (of_object x ob) (pr_items (by_symbols ys o))).
Proof.
  intros E. rewrite symbols_in_items. unfold symbols_in, isecs_of_object. cbn [printed_section o_isecs].
  induction (pr_items o) as [|i q IH]; [reflexivity|]. cbn [map filter]. change ((i_archive (item_section i) =?= x) && (i_object (item_section i) =?= ob)) with (of_object x ob i).
  destruct (of_object x ob i); [|exact IH]. cbn [flat_map]. rewrite !map_app, IH. f_equal. rewrite map_map. unfold isec_symbols, item_symbols. cbn [item_section i_name i_addr i_size].
  apply map_ext. intros z. now rewrite E.
Qed.
Lemma names_once ys x ob o : NoDup (map (fun i => (it_archive i, it_object i, it_name i)) (pr_items (by_symbols ys o))) -> NoDup (map sy_name (symbols_in ys x ob (printed_section o))).
Proof.
  intros N. rewrite (symbols_in_map sy_name it_name) by reflexivity. revert N. induction (pr_items (by_symbols ys o)) as [|i q IH]; cbn [map filter]; intros N; [constructor|].
  apply NoDup_cons_iff in N. destruct N as (N1 & N2). destruct (of_object x ob i) eqn:Ei; [|now apply IH]. cbn [map]. constructor; [|now apply IH].
  intros I. apply N1. apply List.in_map_iff in I. destruct I as (j & Ej & Ij). apply filter_In in Ij. destruct Ij as (Ij & Oj). apply List.in_map_iff. exists j. split; [|exact Ij].
  unfold of_object in Ei, Oj. apply andb_true_iff in Ei, Oj. destruct Ei as (A1 & A2), Oj as (B1 & B2). apply keq_eq in A1, A2, B1, B2. congruence.
Qed.
Lemma nonempty_items (keep : osection -> bool) l :
  flat_map (fun s => filter (fun i => negb (i_size i =? 0)) (o_isecs s)) (filter keep (map printed_section l)) =
  map item_section (flat_map (fun o => filter (fun i => negb (it_size i =? 0)) (pr_items o)) (filter (fun o => keep (printed_section o)) l)).
Proof.
  induction l as [|o l IH]; [reflexivity|]. cbn [map filter]. destruct (keep (printed_section o)); [|exact IH]. cbn [flat_map]. rewrite map_app, IH. f_equal.
  cbn [printed_section o_isecs]. clear. induction (pr_items o) as [|i q IH]; [reflexivity|]. cbn [map filter]. cbn [item_section i_size]. destruct (negb (it_size i =? 0)); cbn [map]; now rewrite IH.
Qed.
Lemma pairs_map {A B} (R : A -> A -> Prop) (S : B -> B -> Prop) (f : A -> B) l : (forall x y, R x y -> S (f x) (f y)) -> ForallOrdPairs R l -> ForallOrdPairs S (map f l).
Proof.
  intros H. induction 1 as [|x l F P IH]; [constructor|]. cbn [map]. constructor; [|exact IH]. apply Forall_map. eapply Forall_impl; [|exact F]. intros y. apply H.
Qed.

(** ** the symbols of the memory map *)
Section Symbols.
Variables (d : disk) (dir name text : str) (rs : list region) (l : list printed) (crt : option (list SpecMap.entry)) (im : option (list (str * xshdr))) (types : list chip_type) (ys : option (list elfsym)).
Hypothesis Bt : built d dir name text rs l crt im types.
Hypothesis Sy : symbols_of d dir name im ys.
Variables (keep : printed -> bool) (b : str -> Z -> str -> bool).
Hypothesis K : forall o, keep o = true <-> counted im o.
Hypothesis Bb : forall n a T, b n a T = true <-> byte_goes types n a T.
Hypothesis Cs : clear_symbols (Account rs l im types) ys.

Lemma symbols_nonneg e n a z : symbols_match ys e -> 0 <= z -> Forall (fun y => 0 < sy_size y) (symbols_at ys n a z).
Proof.
  intros M Z0. unfold symbols_at. destruct (z =? 0) eqn:E; [constructor|]. apply Z.eqb_neq in E.
  assert (One : Forall (fun y => 0 < sy_size y) [Symbol n a z]) by (constructor; [cbn; lia|constructor]).
  destruct ys as [y|]; [|exact One]. destruct (filter (SpecSyms.begins a z) (filter wanted y)) as [|h g] eqn:F; [destruct (existsb _ _); [exact One|constructor]|].
  rewrite <- F. apply Forall_map, Forall_forall. intros v Iv. apply filter_In in Iv. destruct Iv as (Iv & _).
  destruct e as [f|]; cbn in M; [|contradiction]. destruct M as (M1 & M2). pose proof Iv as Iw. rewrite <- M1 in Iw. apply filter_In in Iw. destruct Iw as (Iw & W).
  rewrite Forall_forall in M2. specialize (M2 v Iw). unfold wanted in W. apply andb_true_iff in W. destruct W as (_ & W). apply negb_true_iff, Z.eqb_neq in W. cbn. lia.
Qed.

Lemma symbols_end ud m : no_dwarf d dir ud -> get_files d (get_memory_types chip_info) (in_dir dir name) true ud = Ok m ->
  get_memory_types chip_info (m_target m) = Ok types -> NoDup (map pr_name (filter keep l)) ->
  (forall o, In o l -> counted im o -> items_in (by_symbols ys o)) /\ Forall (fun o => Forall (fun i => 0 < it_size i) (pr_items (by_symbols ys o))) l /\
  forall T t, dget T (m_types m) = Some t -> forall o, In o l -> counted im o -> lists_symbols b ys T (printed_section o) (dget (pr_name o) (t_sections t)).
Proof.
  intros Nd E Ty Nm. destruct Bt as [D P T Pm R I _ F _]. destruct (loaded_symbols _ _ _ _ _ _ _ _ D P E I Sy) as (w & e & mf & G & Wm & We & M & Ms & Wt & Wf).
  destruct (load_printed _ _ _ _ _ _ T Pm R) as (target & Lp). rewrite Lp in Wm. destruct (printed_nonneg _ _ _ _ Pm) as (Rn & Ln).
  set (kp := keep_section (get_elf_sections_headers e)). assert (Kp : forall s, kp s = true <-> kept e s) by (intros; apply keep_spec).
  assert (Ek : filter (fun o => kp (printed_section o)) l = filter keep l).
  { apply filter_ext. intros o. apply eq_true_iff_eq. rewrite Kp, K. now apply kept_counted. }
  assert (Fk : Forall (fun s => kept e s -> 0 <= o_size s /\ section_mapped rs types s /\ unbroken rs types s /\ isecs_in s) (map printed_section l)).
  { apply Forall_map. rewrite Forall_forall in *. intros o Io Ke. split; [exact (proj1 (Ln o Io))|].
    apply (kept_counted im e o M) in Ke. destruct (F o Io Ke) as (F1 & F2 & F3). split; [exact F1|]. split; [exact F2|].
    unfold isecs_in, printed_section. cbn [o_isecs o_addr o_size]. apply Forall_map. unfold items_in in F3. rewrite Forall_forall in *.
    destruct (Ln o Io) as (_ & Li). rewrite Forall_forall in Li. intros i Ii. specialize (Li i Ii). specialize (F3 i Ii). cbn. tauto. }
  assert (Ns : match e with Some e => Forall (fun y => 0 <= st_symsize y) (elf_symbols e) | None => True end).
  { destruct ys as [y|], e as [f|]; cbn in Ms; try contradiction; [apply Ms|exact Logic.I]. }
  assert (Ap : ForallOrdPairs isecs_apart (flat_map (fun s => filter (fun i => negb (i_size i =? 0)) (o_isecs s)) (filter kp (map printed_section l)))).
  { rewrite nonempty_items, Ek. destruct Cs as ((k2 & K2 & A) & _). cbn [ac_im ac_l] in *.
    replace (filter keep l) with (filter k2 l) by (apply filter_ext; intros o; apply eq_true_iff_eq; rewrite K, K2; reflexivity).
    refine (pairs_map _ _ item_section _ _ A). intros x y Hxy. exact Hxy. }
  assert (Wd : dwarf_flag (Some (w_lto w)) w = false) by (cbn; now rewrite (Wf Nd)).
  split; [|split].
  - intros o Io Co. assert (Ko : kept e (printed_section o)) by now apply (kept_counted im e o M).
    assert (Iso : In (printed_section o) (map printed_section l)) by now apply List.in_map.
    assert (X : Forall (fun i => Forall (symbol_inside i) (isec_symbols (option_map elf_symbols e) i)) (o_isecs (printed_section o))).
    { refine (symbols_inside_ok w _ None None m mf _ e kp G Wm We Wd Kp _ Ns Ap _ Iso Ko). cbn [mf_sections]. eapply Forall_impl; [|exact Fk]. intros s Hs Ks. apply Hs, Ks. }
    rewrite Forall_forall in F. destruct (F o Io Co) as (_ & _ & F3). unfold items_in in F3. rewrite Forall_forall in F3, X.
    assert (Y : forall j, In j (pr_items (by_symbols ys o)) -> exists i z, In i (pr_items o) /\ j = symbol_item i z /\ symbol_inside (item_section i) z).
    { intros j Ij. cbn [by_symbols pr_items] in Ij. apply in_flat_map in Ij. destruct Ij as (i & Ii & Ij). apply List.in_map_iff in Ij. destruct Ij as (z & <- & Iz).
      exists i, z. split; [exact Ii|]. split; [reflexivity|]. assert (Is : In (item_section i) (o_isecs (printed_section o))) by (cbn [printed_section o_isecs]; now apply List.in_map).
      specialize (X _ Is). unfold isec_symbols in X. rewrite (symbols_at_match _ _ _ _ _ Ms) in X. rewrite Forall_forall in X. apply X. exact Iz. }
    unfold items_in. apply Forall_forall. intros j Ij. destruct (Y j Ij) as (i & z & Ii & -> & S1). unfold symbol_inside in S1. cbn [item_section i_addr i_size] in S1. specialize (F3 i Ii).
    cbn [symbol_item it_addr it_size by_symbols pr_addr pr_size]. lia.
  - apply Forall_forall. intros o Io. apply Forall_forall. intros j Ij. cbn [by_symbols pr_items] in Ij. apply in_flat_map in Ij. destruct Ij as (i & Ii & Ij).
    apply List.in_map_iff in Ij. destruct Ij as (z & <- & Iz). cbn [symbol_item it_size]. rewrite Forall_forall in Ln. destruct (Ln o Io) as (_ & Li). rewrite Forall_forall in Li.
    pose proof (symbols_nonneg e (it_name i) (it_addr i) (it_size i) Ms (proj1 (Li i Ii))) as X. rewrite Forall_forall in X. now apply X.
  - intros T0 t Gt o Io Co. assert (Ko : kept e (printed_section o)) by now apply (kept_counted im e o M).
    assert (X : lists_symbols b (option_map elf_symbols e) T0 (printed_section o) (dget (pr_name o) (t_sections t))).
    { refine (get_symbol_bytes w _ None None m mf _ e types kp b G Wm We _ Wd (proj1 (chips_ok _ _ Ty)) Rn Kp Bb _ Fk Ns Ap _ T0 t Gt (printed_section o) _ Ko).
      - now rewrite Wt.
      - cbn [mf_sections]. replace (map o_name (filter kp (map printed_section l))) with (map pr_name (filter keep l)); [exact Nm|]. rewrite <- Ek.
        clear. induction l as [|p q IH]; [reflexivity|]. cbn [map filter]. destruct (kp (printed_section p)); [cbn [map]; now rewrite IH|exact IH].
      - cbn [mf_sections]. intros s x ob Is Ks. apply List.in_map_iff in Is. destruct Is as (p & <- & Ip). rewrite (symbols_in_match _ _ _ _ _ Ms). apply names_once.
        destruct Cs as (_ & C2). cbn [ac_im ac_l] in C2. rewrite Forall_forall in C2. apply C2; [exact Ip|]. now apply (kept_counted im e p M).
      - cbn [mf_sections]. now apply List.in_map. }
    destruct X as (X1 & X2). split.
    + intros x ob y. rewrite X1. unfold symbol_bytes_with. now rewrite (symbols_in_match _ _ _ _ _ Ms).
    + intros x' x arc ob bb y z E1 E2 E3 E4. rewrite <- (symbols_in_match _ _ _ _ _ Ms). eapply X2; eassumption.
Qed.
End Symbols.
