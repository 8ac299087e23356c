(** * Proofs: output sections without size, the command *)
From Coq Require Import Ascii String List ZArith Bool Lia.
From Verif Require Import Base MemMap Pipeline PyStr MapFile Deps Table Formats ElfRead Project Main Command SpecMap SpecPipe SpecEmpty ProofEmpty.
Import ListNotations.
Open Scope list_scope.
Open Scope Z_scope.

Definition kept_alike (r r' : res mapfile) : Prop := alike (fun a b => a = b \/ same_kept a b) r r'.
Definition near (w w' : world) : Prop :=
  w_map_fn w = w_map_fn w' /\ w_proj_desc w = w_proj_desc w' /\ w_lto w = w_lto w' /\ w_elf w = w_elf w' /\ w_memory_types w = w_memory_types w' /\
  kept_alike (w_mapfile w) (w_mapfile w').
Definition near_project (p p' : project) : Prop := near (p_world p) (p_world p') /\ p_crt p = p_crt p' /\ p_syms p = p_syms p'.
Definition same {A} (m m' : prog A) : Prop := forall q s, m q s = m' q s.

Lemma near_get w w' ls ud : near w w' -> rmap fst (get w ls ud None None) = rmap fst (get w' ls ud None None).
Proof.
  destruct w as [fn pd lto mf e ch], w' as [fn' pd' lto' mf' e' ch']. intros (E1 & E2 & E3 & E4 & E5 & E6). cbn [w_map_fn w_proj_desc w_lto w_elf w_memory_types w_mapfile] in *. subst.
  unfold kept_alike, alike in E6. destruct mf as [a|x], mf' as [b|x']; try contradiction.
  - destruct E6 as [->|E6]; [reflexivity|]. now apply get_alike.
  - now subst.
Qed.
Lemma get_given w ls ud mf e : get w ls ud (Some mf) e = get (World (w_map_fn w) (w_proj_desc w) (w_lto w) (Ok mf) (w_elf w) (w_memory_types w)) ls ud None None.
Proof. reflexivity. Qed.

Lemma same_refl {A} (m : prog A) : same m m.
Proof. intros q s. reflexivity. Qed.
Lemma same_then {A B} (m m' : prog A) (f f' : A -> prog B) : same m m' -> (forall a, same (f a) (f' a)) -> same (andthen m f) (andthen m' f').
Proof. intros H K q s. unfold andthen. rewrite (H q s). destruct (m' q s) as [[a|x|] s1]; try reflexivity. apply K. Qed.
Lemma compute_alike {A A' B} (R : A -> A' -> Prop) r r' (f : A -> prog B) (f' : A' -> prog B) : alike R r r' ->
  (forall a b, R a b -> same (f a) (f' b)) -> same (andthen (compute r) f) (andthen (compute r') f').
Proof.
  intros H K q s. unfold compute, andthen. destruct (tick q s) as [[u|x|] s1]; try reflexivity.
  destruct r as [a|x], r' as [b|y]; cbn [alike] in H; try contradiction; [now apply K|now subst].
Qed.
Lemma get_rel {A B C} (r r' : res (A * B)) (f f' : A -> prog C) : rmap fst r = rmap fst r' -> (forall m, same (f m) (f' m)) ->
  same (run (m, _) <- compute r; f m) (run (m, _) <- compute r'; f' m).
Proof.
  intros E K. apply (compute_alike (fun a b => fst a = fst b)).
  - destruct r as [[m x]|], r' as [[m' x']|]; cbn [rmap alike fst] in *; congruence.
  - intros [m x] [m' x'] Q. cbn [fst] in Q. subst m'. apply K.
Qed.
Lemma near_compare ls projects projects' a m : (forall fn, near_project (projects fn) (projects' fn)) -> same (compare ls projects a m) (compare ls projects' a m).
Proof.
  intros N. unfold compare. destruct (a_diff a) as [[|c d]|]; try (intros q s; reflexivity).
  cbv zeta. eapply (get_rel (get (p_world (projects (c :: d))) ls (a_use_dwarf a) None None) (get (p_world (projects' (c :: d))) ls (a_use_dwarf a) None None)).
  - apply near_get, N.
  - intros m0. apply same_refl.
Qed.
Lemma near_analyse ls ord pf projects projects' input a : (forall fn, near_project (projects fn) (projects' fn)) ->
  same (analyse ls ord pf projects input a) (analyse ls ord pf projects' input a).
Proof.
  intros N. destruct (N input) as (W & C & Y). unfold analyse. cbv zeta. rewrite C, Y. destruct W as (E1 & E2 & E3 & E4 & E5 & E6). rewrite E4.
  eapply compute_alike; [exact E6|]. intros mf mf' M. apply same_then; [apply same_refl|]. intros e.
  eapply (get_rel (get (p_world (projects input)) ls (a_use_dwarf a) (Some mf) e) (get (p_world (projects' input)) ls (a_use_dwarf a) (Some mf') e)
    (fun m => run m0 <- compare ls projects a (prepare a m); ret (Extras (p_crt (projects' input)) (match e with Some _ => Some (p_syms (projects' input)) | None => None end) ord pf, if a_unify a then unify m0 else m0))
    (fun m => run m0 <- compare ls projects' a (prepare a m); ret (Extras (p_crt (projects' input)) (match e with Some _ => Some (p_syms (projects' input)) | None => None end) ord pf, if a_unify a then unify m0 else m0))).
  - rewrite !get_given, E1, E2, E3, E4, E5. apply near_get. unfold near. cbn [w_map_fn w_proj_desc w_lto w_elf w_memory_types w_mapfile]. repeat (split; [reflexivity|]). exact M.
  - intros m. apply same_then; [now apply near_compare|]. intros m0. apply same_refl.
Qed.
Lemma near_report lf ord pf projects projects' c : (forall fn, near_project (projects fn) (projects' fn)) ->
  same (report lf ord pf projects c) (report lf ord pf projects' c).
Proof.
  intros N. unfold report. apply same_then; [apply same_refl|]. intros u. apply same_then; [apply same_refl|]. intros a. cbv zeta.
  apply same_then; [now apply near_analyse|]. intros [x m]. apply same_refl.
Qed.
Lemma near_run render encode ord pf projects projects' c : (forall fn, near_project (projects fn) (projects' fn)) ->
  same (run_cmd render encode ord pf projects c) (run_cmd render encode ord pf projects' c).
Proof.
  intros N q s. unfold run_cmd, run_with, handle.
  assert (X : same (run _ <- report load_symbols ord pf projects c; finish render encode c) (run _ <- report load_symbols ord pf projects' c; finish render encode c))
    by (apply same_then; [now apply near_report|]; intros u; apply same_refl).
  rewrite (X q s). reflexivity.
Qed.

(** ** the two file systems *)
Lemma load_alike d d' fn0 text text' : differ_in fn0 text text' d d' -> one_sizeless (splitlines text) (splitlines text') ->
  forall fn, kept_alike (load_map d fn) (load_map d' fn) /\
    (match read_map d fn with Ok pm => pm_crt pm | Err _ => None end) = (match read_map d' fn with Ok pm => pm_crt pm | Err _ => None end).
Proof.
  intros (C & J & F & B & O & T & T') S0 fn. unfold load_map, read_map. destruct (keqP fn fn0) as [->|NE].
  - rewrite T, T'. unfold map_text. pose proof (map_alike _ _ S0) as Q. unfold alike in Q.
    destruct (map_file (splitlines text)) as [pm|x], (map_file (splitlines text')) as [pm'|x']; try contradiction.
    + split; [|symmetry; apply Q]. pose proof (usable_alike _ _ Q) as U. unfold kept_alike, alike in *.
      destruct (usable_map pm), (usable_map pm'); try contradiction; auto.
    + split; [exact Q|reflexivity].
  - rewrite <- (O fn NE). destruct (d_text d fn) as [t|]; [|split; [exact eq_refl|reflexivity]].
    destruct (map_text t) as [pm|x]; [|split; [exact eq_refl|reflexivity]]. split; [|reflexivity].
    unfold kept_alike, alike. destruct (usable_map pm); auto.
Qed.
Lemma near_load d d' chips fn0 text text' ls ud deps : differ_in fn0 text text' d d' -> one_sizeless (splitlines text) (splitlines text') ->
  forall input, near_project (load_project d chips ls ud deps input) (load_project d' chips ls ud deps input).
Proof.
  intros D S0 input. destruct (load_alike d d' fn0 text text' D S0 (abspath (d_cwd d) input)) as (LA & CA).
  destruct D as (C & J & F & B & _). unfold load_project, load_world. rewrite <- C. set (fn := abspath (d_cwd d) input) in *.
  assert (J1 : forall f, load_json d' f = load_json d f) by (intros f; unfold load_json; now rewrite J).
  assert (PD : get_proj_desc d' fn = get_proj_desc d fn) by (unfold get_proj_desc; now rewrite J1).
  assert (LT : lto_flag d' fn = lto_flag d fn) by (unfold lto_flag; now rewrite J1).
  assert (EL : forall pd, get_elf d' fn pd = get_elf d fn pd).
  { intros pd. unfold get_elf. destruct pd as [j|]; [|reflexivity]. destruct (jindex j "app_elf") as [v|]; cbn [bind]; [|reflexivity]. destruct (jstr v); cbn [bind]; [|reflexivity].
    rewrite F. destruct (d_isfile d' _); [|reflexivity]. unfold load_elf_file. now rewrite B. }
  rewrite PD, LT.
  assert (SY : dep_symbols d' fn = dep_symbols d fn).
  { unfold dep_symbols. rewrite PD. destruct (get_proj_desc d fn); cbn [bind]; [|reflexivity]. now rewrite EL. }
  rewrite SY. generalize (dep_symbols d fn). intros syms.
  split; [|split; [exact CA|reflexivity]]. cbn [p_world].
  assert (G : forall w w' : world, near w w' ->
    near (match syms with Err e => if deps then World (w_map_fn w) (w_proj_desc w) (w_lto w) (w_mapfile w) (Err e) (w_memory_types w) else w | Ok _ => w end)
         (match syms with Err e => if deps then World (w_map_fn w') (w_proj_desc w') (w_lto w') (w_mapfile w') (Err e) (w_memory_types w') else w' | Ok _ => w' end)).
  { intros w w' Nw. destruct syms; [exact Nw|]. destruct deps; [|exact Nw]. destruct Nw as (N1 & N2 & N3 & N4 & N5 & N6). unfold near. cbn [w_map_fn w_proj_desc w_lto w_elf w_memory_types w_mapfile]. auto 8. }
  apply G. clear G.
  assert (NR : forall pd lto e, near (World fn pd lto (load_map d fn) e chips) (World fn pd lto (load_map d' fn) e chips))
    by (intros; unfold near; cbn [w_map_fn w_proj_desc w_lto w_elf w_memory_types w_mapfile]; auto 8).
  destruct (get_proj_desc d fn) as [pd|]; cbn [bind]; [|apply NR].
  destruct (match ud with Some b => Ok b | None => lto_flag d fn end) as [flag|]; cbn [bind]; [|apply NR].
  destruct (desc_target pd) as [t|]; cbn [bind]; [|apply NR]. rewrite EL. apply NR.
Qed.
Theorem same_run d d' chips fn text text' : differ_in fn text text' d d' -> one_sizeless (splitlines text) (splitlines text') ->
  forall render encode ord pf c q s, run_files d' chips render encode ord pf c q s = run_files d chips render encode ord pf c q s.
Proof.
  intros D S0 render encode ord pf c q s. symmetry. unfold run_files. apply near_run. intros f. unfold projects_of. eapply near_load; eauto.
Qed.

Lemma silent_dec l : line_target l = None -> line_silent l.
Proof. intros E. pose proof (ProofMap2.line_target_spec l) as H. now rewrite E in H. Qed.
