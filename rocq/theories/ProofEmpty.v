(** * Proofs: output sections without size *)
From Coq Require Import Ascii String List ZArith Bool Lia.
From Verif Require Import Base MemMap Pipeline PyStr MapFile Project SpecMap ProofPyStr ProofMap1 ProofMap2 ProofMap3 ProofMap4 SpecPipe SpecEmpty.
Import ListNotations.
Open Scope list_scope.
Open Scope Z_scope.

(** ** the sections already read do not matter to the reading *)
Definition add_done (d : list posec) (st : pstate) : pstate := PState (ps_found st) (ps_out st) (ps_in st) (ps_size st) (d ++ ps_done st).
Definition lift {A} (f : A -> A) (r : res A) : res A := match r with Ok a => Ok (f a) | Err e => Err e end.

Lemma section_line_done d st o l : section_line (add_done d st) o l = lift (add_done d) (section_line st o l).
Proof.
  unfold section_line, add_done. destruct st as [f ou i z dn]. cbn [ps_found ps_out ps_in ps_size ps_done].
  destruct l as [|c l].
  - destruct (flush_input z o i); cbn [bind lift]; [|reflexivity]. cbn [ps_found ps_out ps_in ps_size ps_done]. now rewrite app_assoc.
  - destruct (po_addr o).
    + destruct (sw "." (c :: l) || sw "COMMON" (c :: l)).
      * destruct (flush_input z o i); cbn [bind lift]; [|reflexivity]. now destruct (input_line (c :: l)).
      * destruct i as [i|]; [|reflexivity]. destruct (pi_addr i).
        -- destruct (sw "*fill*" (c :: l)); [now destruct (fill_line i (c :: l)) as [[? ?]|]|].
           destruct (existsb _ EXPLICIT_BYTES); [now destruct (data_line i (c :: l))|reflexivity].
        -- now destruct (cont_line i (c :: l)).
    + unfold header_line. cbn [ps_found ps_out ps_in ps_size ps_done].
      destruct (split (c :: l)) as [|a [|s [|]]]; try reflexivity. destruct (py_int a), (py_int s); reflexivity.
Qed.
Lemma sections_line_done d st l : sections_line (add_done d st) l = lift (add_done d) (sections_line st l).
Proof.
  unfold sections_line. change (ps_found (add_done d st)) with (ps_found st). change (ps_out (add_done d st)) with (ps_out st).
  destruct (negb (ps_found st)); [reflexivity|]. destruct (ps_out st); [apply section_line_done|].
  destruct (sw "." l); [|reflexivity]. unfold output_line.
  destruct (split l) as [|n [|a [|s [|]]]]; try reflexivity. destruct (py_int a), (py_int s); reflexivity.
Qed.
Lemma sections_loop_done d lines : forall prev st,
  sections_loop lines prev (add_done d st) = lift (fun r => (add_done d (fst r), snd r)) (sections_loop lines prev st).
Proof.
  induction lines as [|l lines IH]; intros prev st; cbn [sections_loop]; [reflexivity|].
  destruct (sw "Cross Reference Table" l); [reflexivity|]. rewrite sections_line_done. destruct (sections_line st l); cbn [lift bind]; [apply IH|reflexivity].
Qed.

(** ** no section is open after a blank line *)
Definition shut (st : pstate) : Prop := ps_found st = true /\ (ps_out st = None -> ps_in st = None).
Lemma section_line_shut st o l st1 : shut st -> section_line st o l = Ok st1 -> ps_out st = Some o -> shut st1.
Proof.
  intros S0 E O. assert (F := proj1 S0). unfold section_line in E. destruct l as [|c l].
  - destruct (flush_input _ o _); [|discriminate]. injection E as <-. now split.
  - destruct (po_addr o).
    + destruct (sw "." (c :: l) || sw "COMMON" (c :: l)).
      * destruct (flush_input _ o _); [|discriminate]. cbn [bind] in E. destruct (input_line (c :: l)); [|discriminate]. injection E as <-. now split.
      * destruct (ps_in st) as [i|]; [|injection E as <-; exact S0]. destruct (pi_addr i).
        -- destruct (sw "*fill*" (c :: l)); [destruct (fill_line i (c :: l)) as [[? ?]|]; [injection E as <-; now split|discriminate]|].
           destruct (existsb _ EXPLICIT_BYTES); [destruct (data_line i (c :: l)); [injection E as <-; now split|discriminate]|].
           injection E as <-. exact S0.
        -- destruct (cont_line i (c :: l)); [injection E as <-; now split|discriminate].
    + injection E as <-. unfold header_line. destruct (split (c :: l)) as [|a [|s [|]]]; try (now split). destruct (py_int a), (py_int s); now split.
Qed.
Lemma sections_line_shut st l st1 : shut st -> sections_line st l = Ok st1 -> shut st1.
Proof.
  intros S E. unfold sections_line in E. destruct S as [F X]. rewrite F in E. cbn [negb] in E. destruct (ps_out st) as [o|] eqn:O.
  - eapply section_line_shut; [split; [exact F|congruence]|exact E|exact O].
  - destruct (sw "." l); [|injection E as <-; split; auto]. unfold output_line in E.
    destruct (split l) as [|n [|a [|s [|]]]]; try discriminate E.
    + injection E as <-. now split.
    + destruct (py_int a); [|discriminate]. destruct (py_int s); [|discriminate]. injection E as <-. now split.
Qed.
Lemma fold_shut ls : forall st st1, shut st -> foldM sections_line st ls = Ok st1 -> shut st1.
Proof.
  induction ls as [|l ls IH]; intros st st1 S E; cbn [foldM] in E; [injection E as <-; assumption|].
  destruct (sections_line st l) eqn:L; [|discriminate]. cbn [bind] in E. eapply IH; [|exact E]. eapply sections_line_shut; eauto.
Qed.
Lemma blank_sw b : blank b -> sw "." b = false.
Proof. intros B. apply sw_false. intros (x & ->). inversion B as [|? ? W]; subst. cbn in W. repeat (destruct W as [W|W]; [discriminate W|]). exact W. Qed.

Lemma closed_after before st : closed before -> foldM sections_line (PState true None None None []) before = Ok st ->
  exists z d, st = PState true None None z d.
Proof.
  intros [->|(p & b & -> & B)] E; [injection E as <-; eauto|].
  rewrite foldM_app in E. destruct (foldM sections_line _ p) as [st0|] eqn:P; [|discriminate]. cbn [bind foldM] in E.
  assert (S0 : shut st0) by (eapply fold_shut; [|exact P]; now split). destruct st0 as [f o i z d]. destruct S0 as [F X]. cbn [ps_found ps_out ps_in] in F, X. subst f.
  destruct o as [o|].
  - rewrite (sections_line_in o i z d b [] (strip_blank _ B)) in E. unfold section_line in E. cbn [ps_size ps_in ps_done] in E.
    destruct (flush_input z o i); [|discriminate]. cbn [bind] in E. injection E as <-. eauto.
  - rewrite (X eq_refl) in E. unfold sections_line in E. cbn [negb ps_found ps_out] in E. rewrite (blank_sw _ B) in E. cbn [bind] in E. injection E as <-. eauto.
Qed.

(** ** the lines of a section without size *)
Definition weightless (o : posec) : Prop := po_isecs o = [] /\ (po_size o = None \/ po_size o = Some 0).
Lemma blank_not_crt b : blank b -> not_crt b.
Proof. intros B (x & ->). inversion B as [|? ? W]; subst. cbn in W. repeat (destruct W as [W|W]; [discriminate W|]). exact W. Qed.
Lemma name_not_crt n r : osec_name n -> not_crt (n ++ r).
Proof. intros [_ (x & ->)] (y & E). discriminate E. Qed.
Lemma sizeless_not_crt bare : sizeless bare -> Forall not_crt bare.
Proof.
  intros [n q z N Q Z|n q s t l ig z N Q C L T W LEN G Z|n g1 a sa g2 ss q ig z N A S G1 G2 Q G Z].
  - repeat constructor; [now apply name_not_crt|now apply blank_not_crt].
  - cbn [app]. constructor; [now apply name_not_crt|]. constructor; [exact C|]. apply Forall_app. split; [|repeat constructor; now apply blank_not_crt].
    eapply Forall_impl; [|exact G]. intros x Hx. apply Hx.
  - cbn [app]. constructor; [now apply name_not_crt|]. apply Forall_app. split; [|repeat constructor; now apply blank_not_crt].
    eapply Forall_impl; [|exact G]. intros x Hx. apply Hx.
Qed.
Lemma blank_closes b o z d : blank b -> sections_line (PState true (Some o) None z d) b = Ok (PState true None None z (d ++ [o])).
Proof. intros B. rewrite (sections_line_in o None z d b [] (strip_blank _ B)). reflexivity. Qed.
Lemma sizeless_run bare z d : sizeless bare -> exists o, weightless o /\
  foldM sections_line (PState true None None z d) bare = Ok (PState true None None z (d ++ [o])).
Proof.
  assert (HEAD : forall n q, osec_name n -> blank q -> sections_line (PState true None None z d) (n ++ q) = Ok (PState true (Some (POsec n None None [])) None z d)).
  { intros n q N Q. unfold sections_line. cbn [negb ps_found ps_out]. rewrite (osec_name_sw _ _ N). unfold output_line.
    rewrite (split_words [n] (n ++ q)); [reflexivity|]. apply (words_last [] n q); [constructor|apply N|auto]. }
  intros [n q b N Q B|n q s t l ig b N Q C L T W LEN G B|n g1 a sa g2 ss q ig b N A S0 G1 G2 Q G B].
  - exists (POsec n None None []). split; [split; auto|]. cbn [foldM]. rewrite (HEAD n q N Q). cbn [bind]. now rewrite (blank_closes b _ z d B).
  - exists (POsec n (Some 0) (Some 0) []). split; [split; auto|]. cbn [app foldM]. rewrite (HEAD n q N Q). cbn [bind].
    rewrite (sections_line_in _ _ _ _ s _ (strip_line_of _ _ T L)). unfold section_line. cbn [po_addr]. unfold header_line. rewrite (split_words _ _ W).
    destruct T as [(c & r & -> & _) _]. cbn [po_name po_isecs ps_in ps_size ps_done bind].
    transitivity (foldM sections_line (PState true (Some (POsec n (Some 0) (Some 0) [])) None z d) (ig ++ [b])).
    { destruct l as [|x [|y [|w l]]]; try reflexivity. destruct LEN as [LEN|(x' & E)]; [exfalso; now apply LEN|]. cbn [hd] in E. subst x. reflexivity. }
    rewrite foldM_app, (ignored_run ig _ 0) by (exact G || reflexivity). cbn [bind foldM]. now rewrite (blank_closes b _ z d B).
  - exists (POsec n (Some a) (Some 0) []). split; [split; auto|]. cbn [app foldM]. unfold sections_line at 1. cbn [negb ps_found ps_out]. rewrite (osec_name_sw _ _ N).
    unfold output_line.
    assert (W : words [n; sa; ss] (n ++ g1 ++ sa ++ g2 ++ ss ++ q)).
    { apply (words_cons [] _ g1); [constructor|apply N|exact G1|].
      apply (words_cons [] _ g2); [constructor|eapply number_word; eauto|exact G2|].
      apply (words_last [] ss q); [constructor|eapply number_word; eauto|auto]. }
    rewrite (split_words _ _ W), (number_int _ _ A), (number_int _ _ S0). cbn [bind ps_size ps_done].
    rewrite foldM_app, (ignored_run ig _ a) by (exact G || reflexivity). cbn [bind foldM]. now rewrite (blank_closes b _ z d B).
Qed.

(** ** the parsed map file *)
Definition one_more (pm pm' : pmap) : Prop :=
  pm_regions pm' = pm_regions pm /\ pm_target pm' = pm_target pm /\ pm_crt pm' = pm_crt pm /\
  exists A o B, weightless o /\ pm_sections pm = A ++ B /\ pm_sections pm' = A ++ o :: B.
Definition alike {A B} (R : A -> B -> Prop) (x : res A) (y : res B) : Prop :=
  match x, y with Ok a, Ok b => R a b | Err e, Err e' => e = e' | _, _ => False end.

Lemma regions_alike ls r1 r2 pre : Forall (fun s => ~ prefix "Linker script and memory map" s) pre -> prefix "Linker script and memory map" ls ->
  forall prev f h acc, alike (fun a b => fst a = fst b /\ snd a = ls :: r1 /\ snd b = ls :: r2)
    (regions_loop (pre ++ ls :: r1) prev f h acc) (regions_loop (pre ++ ls :: r2) prev f h acc).
Proof.
  intros F P. induction F as [|l pre N _ IH]; intros prev f h acc; cbn [app regions_loop].
  - rewrite (sw_true _ _ P). cbn. auto.
  - rewrite (sw_false _ _ N). destruct (negb f); [apply IH|]. destruct (negb h); [apply IH|]. destruct (region_row l); cbn [bind]; [apply IH|reflexivity].
Qed.
Lemma silent_none l : line_silent l -> line_target l = None.
Proof.
  intros (S1 & S2 & S3). pose proof (line_target_spec l) as T. destruct (line_target l) as [t|]; [|reflexivity]. exfalso.
  destruct T as [(x & (pre & s & E & M & _) & _)|[(_ & (pre & s & E & M & _))|(_ & _ & s & -> & (pre & s' & E & M & _))]].
  - exact (S1 _ _ _ E M).
  - exact (S2 _ _ _ E M).
  - exact (S3 s eq_refl _ _ _ E M).
Qed.
Lemma target_skip bare rest : Forall not_crt bare -> Forall line_silent bare -> target_loop (bare ++ rest) true = target_loop rest true.
Proof.
  intros C. induction C as [|l bare N _ IH]; intros S0; [reflexivity|]. inversion_clear S0 as [|? ? S1 S2]. cbn [app target_loop].
  rewrite (sw_false _ _ N), (silent_none _ S1). cbn [negb andb]. now apply IH.
Qed.
Lemma target_alike before bare rest : Forall not_crt bare -> Forall line_silent bare ->
  target_loop (before ++ bare ++ rest) true = target_loop (before ++ rest) true.
Proof.
  intros C S0. induction before as [|l before IH]; cbn [app target_loop]; [now apply target_skip|].
  destruct (sw "Cross Reference Table" l); [reflexivity|]. cbn [negb andb]. destruct (line_target l); [reflexivity|exact IH].
Qed.

Lemma map_alike lines lines' : one_sizeless lines lines' -> alike one_more (map_file lines) (map_file lines').
Proof.
  intros (pre & ls & before & bare & rest & -> & -> & NP & P & NB & CL & SL & SI).
  assert (NC := sizeless_not_crt _ SL). assert (NL := script_not_crt _ P).
  unfold map_file, get_memory_regions.
  pose proof (regions_alike ls (before ++ rest) (before ++ bare ++ rest) pre NP P [] false false []) as R. unfold alike in R.
  destruct (regions_loop (pre ++ ls :: before ++ rest) [] false false []) as [[[[f h] rs] q]|e],
           (regions_loop (pre ++ ls :: before ++ bare ++ rest) [] false false []) as [[[[f' h'] rs'] q']|e']; cbn [fst snd bind] in R |- *; try contradiction.
  2: { unfold alike. exact R. }
  destruct R as (E & -> & ->). injection E as <- <- <-. destruct (negb f || negb h); cbn [bind]; [reflexivity|].
  assert (TG : get_target (ls :: before ++ bare ++ rest) = get_target (ls :: before ++ rest)).
  { unfold get_target. cbn [target_loop]. rewrite (sw_false _ _ NL), (sw_true _ _ P). cbn [negb andb]. now apply target_alike. }
  rewrite TG. unfold get_sections.
  assert (FIRST : sections_line ps_init ls = Ok (PState true None None None [])).
  { unfold sections_line. cbn [negb ps_found ps_init]. now rewrite (sw_true _ _ P). }
  destruct (sections_loop_run (ls :: before) rest (Forall_cons _ NL NB) [] ps_init) as (p1 & E1 & Q1).
  destruct (sections_loop_run (ls :: before) (bare ++ rest) (Forall_cons _ NL NB) [] ps_init) as (p2 & E2 & Q2).
  cbn [app] in E1, E2. rewrite E1, E2. cbn [foldM]. rewrite FIRST. cbn [bind].
  destruct (foldM sections_line (PState true None None None []) before) as [st|] eqn:FB; cbn [bind]; [|reflexivity].
  destruct (closed_after before st CL FB) as (z & d & ->).
  destruct (sections_loop_run bare rest NC p2 (PState true None None z d)) as (p3 & E3 & Q3). rewrite E3.
  destruct (sizeless_run bare z d SL) as (o & WL & ->). cbn [bind].
  assert (CRT1 : get_cross_reference_table p1 = Ok None).
  { destruct Q1 as [->|(x & I & ->)]; [reflexivity|]. apply crt_absent_ok. destruct I as [<-|I]; [exact NL|]. rewrite Forall_forall in NB. auto. }
  assert (CRT2 : get_cross_reference_table p2 = Ok None).
  { destruct Q2 as [->|(x & I & ->)]; [reflexivity|]. apply crt_absent_ok. destruct I as [<-|I]; [exact NL|]. rewrite Forall_forall in NB. auto. }
  assert (CRT3 : get_cross_reference_table p3 = Ok None).
  { destruct Q3 as [->|(x & I & ->)]; [exact CRT2|]. apply crt_absent_ok. rewrite Forall_forall in NC. auto. }
  replace (PState true None None z d) with (add_done d (PState true None None z [])) by (unfold add_done; cbn; now rewrite app_nil_r).
  replace (PState true None None z (d ++ [o])) with (add_done (d ++ [o]) (PState true None None z [])) by (unfold add_done; cbn; now rewrite app_nil_r).
  rewrite !sections_loop_done.
  assert (G : forall prev, alike one_more
    (do (sections, rest1) <- (do (st, r) <- lift (fun r => (add_done d (fst r), snd r)) (sections_loop rest prev (PState true None None z [])); if negb (ps_found st) then Err MapFileException else Ok (ps_done st, r));
     do crt <- get_cross_reference_table rest1; Ok (PMap rs (get_target (ls :: before ++ rest)) sections crt))
    (do (sections, rest1) <- (do (st, r) <- lift (fun r => (add_done (d ++ [o]) (fst r), snd r)) (sections_loop rest prev (PState true None None z [])); if negb (ps_found st) then Err MapFileException else Ok (ps_done st, r));
     do crt <- get_cross_reference_table rest1; Ok (PMap rs (get_target (ls :: before ++ rest)) sections crt))).
  { intros prev. destruct (sections_loop rest prev (PState true None None z [])) as [[st r]|]; cbn [lift bind fst snd]; [|reflexivity].
    unfold add_done at 1 3. cbn [ps_found]. destruct (negb (ps_found st)); cbn [bind]; [reflexivity|].
    destruct (get_cross_reference_table r); cbn [bind]; [|reflexivity]. unfold alike, one_more. cbn [pm_regions pm_target pm_crt pm_sections ps_done add_done].
    split; [reflexivity|]. split; [reflexivity|]. split; [reflexivity|]. exists d, o, (ps_done st). split; [exact WL|]. split; [reflexivity|]. now rewrite <- app_assoc. }
  destruct rest as [|l rest]; [|exact (G p1)].
  cbn [sections_loop lift bind fst snd add_done ps_found negb]. rewrite CRT1, CRT3. cbn [bind].
  unfold alike, one_more. cbn [pm_regions pm_target pm_crt pm_sections ps_done].
  split; [reflexivity|]. split; [reflexivity|]. split; [reflexivity|]. exists d, o, []. split; [exact WL|]. unfold add_done. cbn [ps_done]. rewrite ?app_nil_r. split; reflexivity.
Qed.

(** ** what is done with the sections *)
Definition same_kept (a b : mapfile) : Prop :=
  mf_target a = mf_target b /\ mf_regions a = mf_regions b /\
  exists A o B, o_size o = 0 /\ mf_sections a = A ++ B /\ mf_sections b = A ++ o :: B.
Lemma validate_app A B : validate_sections (A ++ B) = (do _ <- validate_sections A; validate_sections B).
Proof. induction A as [|a A IH]; cbn [app validate_sections bind]; [reflexivity|]. destruct (validate_section a); cbn [bind]; [exact IH|reflexivity]. Qed.
Lemma usable_alike pm pm' : one_more pm pm' -> alike same_kept (usable_map pm) (usable_map pm').
Proof.
  intros (R & T & C & A & o & B & (WI & WS) & E & E'). unfold usable_map. rewrite E, E', !validate_app. cbn [validate_sections].
  assert (V : validate_section o = Ok tt) by (unfold validate_section; now rewrite WI). rewrite V. cbn [bind].
  assert (X : same_kept (MapFile (pm_target pm) (pm_regions pm) (map osec_of (A ++ B))) (MapFile (pm_target pm') (pm_regions pm') (map osec_of (A ++ o :: B)))).
  { split; [now rewrite T|]. split; [now rewrite R|]. exists (map osec_of A), (osec_of o), (map osec_of B). cbn [mf_sections]. rewrite !map_app. cbn [map].
    split; [|auto]. unfold osec_of. cbn [o_size]. now destruct WS as [->| ->]. }
  destruct (validate_sections A) as [u|x]; cbn [bind].
  - destruct (validate_sections B) as [v|x]; [exact X|]. destruct x; try reflexivity; exact X.
  - destruct x; try reflexivity; exact X.
Qed.
Lemma filter_drops h A o B : o_size o = 0 -> filter_map_sections (A ++ o :: B) h = filter_map_sections (A ++ B) h.
Proof.
  intros Z0. unfold filter_map_sections. rewrite !filter_app. cbn [filter].
  assert (K : keep_section h o = false) by (unfold keep_section; now rewrite Z0). now rewrite K.
Qed.
Lemma build_drops ls types e rs A o B : o_size o = 0 -> build ls types e rs (A ++ o :: B) = build ls types e rs (A ++ B).
Proof. intros Z0. unfold build. now rewrite filter_drops. Qed.
Lemma get_alike fn pd lto mf mf' e chips ls ud : alike same_kept mf mf' ->
  rmap fst (get (World fn pd lto mf e chips) ls ud None None) = rmap fst (get (World fn pd lto mf' e chips) ls ud None None).
Proof.
  intros R. unfold get. cbn [w_mapfile load_mapfile w_elf w_proj_desc w_memory_types w_map_fn]. unfold alike in R.
  destruct mf as [a|x], mf' as [b|x']; try contradiction.
  - cbn [bind]. destruct R as (T & G & A & o & B & Z0 & EA & EB). destruct e as [e|]; cbn [bind]; [|reflexivity].
    change (dwarf_flag ud (World fn pd lto (Ok a) (Ok e) chips)) with (match ud with Some b => b | None => lto end).
    change (dwarf_flag ud (World fn pd lto (Ok b) (Ok e) chips)) with (match ud with Some b => b | None => lto end).
    unfold pick_target. rewrite T, G. destruct (match (match pd with Some p => pd_target p | None => [] end) with [] => mf_target b | _ => match pd with Some p => pd_target p | None => [] end end) as [|c t]; cbn [bind rmap]; [reflexivity|].
    destruct (chips (c :: t)) as [types|]; cbn [bind rmap]; [|reflexivity].
    match goal with |- rmap fst (bind (build _ _ _ _ ?s1) _) = rmap fst (bind (build _ _ _ _ ?s2) _) => set (S1 := s1); set (S2 := s2) end.
    assert (X : exists A' o' B', o_size o' = 0 /\ S1 = A' ++ B' /\ S2 = A' ++ o' :: B').
    { subst S1 S2. rewrite EA, EB. destruct (match ud with Some b => b | None => lto end); [|eauto 6]. destruct pd as [p|]; [|eauto 6]. destruct e as [ef|]; [|eauto 6].
      unfold expand_input_sections. rewrite !map_app. cbn [map]. do 3 eexists. split; [|split; reflexivity]. exact Z0. }
    destruct X as (A' & o' & B' & Z' & -> & ->). rewrite build_drops by exact Z'. now destruct (build ls types e (mf_regions b) (A' ++ B')).
  - subst x'. destruct x; reflexivity.
Qed.

(** ** the whole *)
Theorem same_memory d d' chips input text text' : differ_in (abspath (d_cwd d) input) text text' d d' -> one_sizeless (splitlines text) (splitlines text') ->
  forall ls ud, get_files d' chips input ls ud = get_files d chips input ls ud.
Proof.
  intros (C & J & F & B & _ & T & T') O ls ud. symmetry. unfold get_files, load_world. rewrite <- C.
  assert (J1 : forall fn, load_json d' fn = load_json d fn) by (intros fn; unfold load_json; now rewrite J).
  set (fn := abspath (d_cwd d) input) in *.
  assert (PD : get_proj_desc d' fn = get_proj_desc d fn) by (unfold get_proj_desc; now rewrite J1).
  assert (LT : lto_flag d' fn = lto_flag d fn) by (unfold lto_flag; now rewrite J1).
  rewrite PD, LT. destruct (get_proj_desc d fn) as [pd|]; cbn [bind]; [|reflexivity].
  destruct (match ud with Some b => Ok b | None => lto_flag d fn end) as [flag|]; cbn [bind]; [|reflexivity].
  destruct (desc_target pd) as [t|]; cbn [bind w_lto]; [|reflexivity].
  assert (EL : get_elf d' fn pd = get_elf d fn pd).
  { unfold get_elf. destruct pd as [j|]; [|reflexivity]. destruct (jindex j "app_elf") as [v|]; cbn [bind]; [|reflexivity]. destruct (jstr v); cbn [bind]; [|reflexivity].
    rewrite F. destruct (d_isfile d' _); [|reflexivity]. unfold load_elf_file. now rewrite B. }
  rewrite EL.
  assert (M : alike same_kept (load_map d fn) (load_map d' fn)).
  { unfold load_map, read_map. rewrite T, T'. unfold map_text. pose proof (map_alike _ _ O) as Q. unfold alike in Q.
    destruct (map_file (splitlines text)) as [pm|], (map_file (splitlines text')) as [pm'|]; try contradiction; [now apply usable_alike|exact Q]. }
  match goal with |- bind (get (World _ ?p ?l _ ?e _) ?a ?b _ _) _ = _ =>
    pose proof (get_alike fn p l (load_map d fn) (load_map d' fn) e chips a b M) as G end.
  match goal with |- bind ?x _ = bind ?y _ => destruct x as [[m1 f1]|], y as [[m2 f2]|] end; cbn [rmap fst bind] in *; congruence.
Qed.
