(** * --lto, --no-lto and the setting of the project *)
From Coq Require Import Ascii String List ZArith Lia Bool.
From Verif Require Import Base MemMap SpecTree Filter Pipeline SpecPipe SpecBuild ProofStrip ProofOps PyStr MapFile Deps Table Formats Main SpecMain ProofMain ProofMain2 ProofMain3
  ElfRead Dwarf Project SpecProject ProofProject1 ProofProject2 Command SpecEnd SpecLto2 SpecSwitch ProofFail2.
Import ListNotations.
Open Scope list_scope.
Open Scope Z_scope.

(** ** programs that do the same, or do the same if the first one succeeds *)
Section Follows.
Variable all : bool.
Definition follows {A} (Q : A -> A -> Prop) (m m' : prog A) : Prop := forall o s,
  match m o s with
  | (Done x, t) => exists y, m' o s = (Done y, t) /\ Q x y
  | (r, t) => all = true -> m' o s = (r, t)
  end.
Definition matches {A} (Q : A -> A -> Prop) (r r' : res A) : Prop := match r with Ok x => exists y, r' = Ok y /\ Q x y | Err e => all = true -> r' = Err e end.
Lemma f_same {A} (Q : A -> A -> Prop) (m m' : prog A) : (forall o s, m o s = m' o s) -> (forall x, Q x x) -> follows Q m m'.
Proof. intros E R o s. rewrite <- E. destruct (m o s) as [[x|e|] t]; [exists x; now split|reflexivity..]. Qed.
Lemma f_ret {A} (Q : A -> A -> Prop) x y : Q x y -> follows Q (ret x) (ret y).
Proof. intros H o s. cbn. exists y. now split. Qed.
Lemma f_then {A B} (P : A -> A -> Prop) (Q : B -> B -> Prop) m m' f f' : follows P m m' -> (forall x y, P x y -> follows Q (f x) (f' y)) -> follows Q (andthen m f) (andthen m' f').
Proof.
  intros M F o s. unfold andthen. specialize (M o s). destruct (m o s) as [[x|e|] t].
  - destruct M as (y & -> & H). exact (F x y H o t).
  - intros E. now rewrite (M E).
  - intros E. now rewrite (M E).
Qed.
Lemma f_compute {A} (Q : A -> A -> Prop) r r' : matches Q r r' -> follows Q (compute r) (compute r').
Proof.
  intros M. apply (f_then eq); [apply f_same; reflexivity|]. intros x y _ o s. destruct r as [a|e]; cbn in M; [destruct M as (b & -> & H); exists b; now split|]. intros E. now rewrite (M E).
Qed.
End Follows.

(** ** the arguments *)
Lemma with_lto_args u c : c_args (with_lto u c) = set_use_dwarf u (c_args c). Proof. reflexivity. Qed.
Lemma deps_prog_dwarf f ord crt m syms a :
  get_archives_dependencies_table ord crt m syms (set_use_dwarf f a) = get_archives_dependencies_table ord crt m syms a.
Proof.
  unfold get_archives_dependencies_table.
  change (get_archives_dependencies ord crt m syms (set_use_dwarf f a)) with (get_archives_dependencies ord crt m syms a).
  destruct (get_archives_dependencies ord crt m syms a) as [d|]; [|reflexivity]. cbn [bind].
  rewrite (deps_table_ext (set_use_dwarf f a) a); reflexivity.
Qed.
Lemma table_of_dwarf f x m a : table_of x m (set_use_dwarf f a) = table_of x m a.
Proof. unfold table_of. rewrite deps_prog_dwarf. reflexivity. Qed.
Lemma show_dwarf f x m a : show x m (set_use_dwarf f a) = show x m a.
Proof.
  unfold show. cbn [set_use_dwarf a_format]. destruct (a_format a); try reflexivity.
  - unfold table_show. rewrite table_of_dwarf. reflexivity.
  - unfold table_show. rewrite table_of_dwarf. reflexivity.
  - unfold csv_show. rewrite table_of_dwarf. reflexivity.
Qed.

(** what the normalisation of the options leaves alone *)
Definition keeps (a b : args) : Prop :=
  a_archive_details b = a_archive_details a /\ a_archives b = a_archives a /\ a_files b = a_files a /\ a_format b = a_format a /\
  a_use_dwarf b = a_use_dwarf a /\ a_show_unused b = a_show_unused a /\ a_archive_dependencies b = a_archive_dependencies a /\
  (a_diff b = a_diff a \/ a_diff b = None).
Definition twin (u : option bool) (a b b' : args) : Prop := keeps a b /\ b' = set_use_dwarf u b.
Lemma normalise_twin all u a : follows all (twin u a) (normalise a) (normalise (set_use_dwarf u a)).
Proof.
  assert (K : keeps a a) by (repeat split; now left). unfold normalise. cbn [set_use_dwarf a_no_abbrev a_unify].
  assert (N : forall n, follows all (fun _ _ => True) (tell n) (tell n)) by (intros n; apply f_same; auto).
  apply (f_then all (twin u a)).
  - destruct (a_no_abbrev a && a_unify a); [|apply f_ret; now split].
    eapply f_then; [apply N|]. intros [] [] _. apply f_ret. split; [|reflexivity]. repeat split; now left.
  - intros b b' (K1 & ->). apply (f_then all (twin u a)).
    + cbn [set_use_dwarf a_archive_dependencies a_diff]. destruct (a_archive_dependencies b && given (a_diff b)); [|apply f_ret; now split].
      eapply f_then; [apply N|]. intros [] [] _. apply f_ret. split; [|reflexivity]. destruct K1 as (H1 & H2 & H3 & H4 & H5 & H6 & H7 & H8). repeat split; cbn; try assumption. now right.
    + intros b1 b1' (K2 & ->). apply f_ret. split; [|reflexivity]. destruct K2 as (H1 & H2 & H3 & H4 & H5 & H6 & H7 & H8). repeat split; cbn; assumption.
Qed.

Section Run.
Variables (all : bool) (render : console -> list piece -> str) (encode : str -> str) (ord : set_order) (pf : pct_format).
Variables (projects projects' : str -> project) (c : cmd) (u : option bool).
Hypothesis H : forall b, keeps (c_args c) b -> let a := set_use_dwarf (dwarf_option b) b in let a' := set_use_dwarf (dwarf_option (set_use_dwarf u b)) b in
  follows all eq (run (x, m) <- analyse (load_symbols a) ord pf projects (c_input c) a; show x m a)
    (run (x, m) <- analyse (load_symbols a) ord pf projects' (c_input c) a'; show x m a').
Lemma run_follows o s r t : run_cmd render encode ord pf projects c o s = (r, t) -> (all = true \/ r = Done tt) ->
  run_cmd render encode ord pf projects' (with_lto u c) o s = (r, t).
Proof.
  assert (F : follows all eq (run _ <- report load_symbols ord pf projects c; finish render encode c) (run _ <- report load_symbols ord pf projects' (with_lto u c); finish render encode (with_lto u c))).
  { apply (f_then all eq).
    - unfold report. apply (f_then all eq); [apply f_same; reflexivity|]. intros [] [] _. rewrite with_lto_args. change (c_input (with_lto u c)) with (c_input c).
      eapply f_then; [apply normalise_twin|]. intros b b' (K & ->). exact (H b K).
    - intros [] [] _. apply f_same; reflexivity. }
  unfold run_cmd, run_with, handle. specialize (F o s).
  destruct ((run _ <- report load_symbols ord pf projects c; finish render encode c) o s) as [[[]|e|] t1].
  - destruct F as ([] & -> & _). intros E _. exact E.
  - intros E [A|A]; [rewrite (F A); exact E|]. subst r. destruct (on_exception e) as [k|] eqn:X; [|discriminate E]. destruct (handler_raises _ _ _ _ _ _ X E).
  - intros E [A|A]; [rewrite (F A); exact E|]. subst r. discriminate E.
Qed.
End Run.

(** ** the setting *)
Section Disk.
Variables (d : disk) (chips : str -> res (list chip_type)).
Lemma flag_configured b fn : configured d b fn -> lto_flag d (abspath (d_cwd d) fn) = Ok b.
Proof.
  intros (dir & name & D & P & -> & C). rewrite abspath_in by assumption. destruct b.
  - destruct C as [C|(_ & (o & C & G))]; [discriminate|]. rewrite lto_eq by assumption. rewrite C. cbn [jget]. rewrite G. reflexivity.
  - exact (flag_of d dir name None D P C).
Qed.
Lemma load_none ls b fn : lto_flag d (abspath (d_cwd d) fn) = Ok b -> load_world d chips fn ls None = load_world d chips fn ls (Some b).
Proof. intros E. unfold load_world. now rewrite E. Qed.
Lemma project_none ls deps b fn : lto_flag d (abspath (d_cwd d) fn) = Ok b -> load_project d chips ls None deps fn = load_project d chips ls (Some b) deps fn.
Proof. intros E. unfold load_project. now rewrite (load_none ls b fn E). Qed.
Lemma world_flag ls b fn w : load_world d chips fn ls (Some b) = Ok w -> w_lto w = b.
Proof.
  unfold load_world. destruct (get_proj_desc d _) as [pd|]; cbn [bind]; [|discriminate]. destruct (desc_target pd); cbn [bind]; [|discriminate]. intros E. now injection E as <-.
Qed.
Lemma project_flag ls deps b fn : let w := p_world (load_project d chips ls (Some b) deps fn) in w_lto w = b \/ exists e, w_elf w = Err e.
Proof.
  unfold load_project. cbn [p_world]. destruct (load_world d chips fn ls (Some b)) as [w|e] eqn:L.
  - left. apply world_flag in L. destruct (dep_symbols d _); [exact L|]. destruct deps; exact L.
  - right. destruct (dep_symbols d _) as [l|e']; [now exists e|]. destruct deps; [now exists e'|now exists e].
Qed.
Lemma get_flag w ls b ma ea : w_lto w = b \/ (exists e, w_elf w = Err e) -> get w ls None ma ea = get w ls (Some b) ma ea.
Proof.
  intros [E|(e & E)]; unfold get, dwarf_flag; [now rewrite E|]. destruct (load_mapfile ma (w_mapfile w)); cbn [bind]; [|reflexivity]. now rewrite E.
Qed.

Variables (render : console -> list piece -> str) (encode : str -> str) (ord : set_order) (pf : pct_format).
Definition pair_eq {A B} (x y : A * B) := x = y.
Lemma configured_same c b o s : b = false \/ detailed (c_args c) -> all_configured d b c -> c_input c <> [] ->
  run_files d chips render encode ord pf (with_lto None c) o s = run_files d chips render encode ord pf (with_lto (Some b) c) o s.
Proof.
  intros G C I. destruct (run_files d chips render encode ord pf (with_lto None c) o s) as [r t] eqn:R. symmetry. unfold run_files in *.
  change (with_lto (Some b) c) with (with_lto (Some b) (with_lto None c)). refine (run_follows true _ _ _ _ _ _ _ _ _ _ _ _ _ R (or_introl eq_refl)).
  clear r t R o s. intros q K. cbv zeta. destruct K as (K1 & K2 & K3 & K4 & K5 & K6 & K7 & K8). cbn [with_lto c_args a_archive_details a_archives a_files a_format a_use_dwarf a_show_unused a_archive_dependencies a_diff] in K1, K2, K3, K4, K5, K6, K7, K8.
  assert (D : forall p, a_archive_details p = a_archive_details (c_args c) -> a_archives p = a_archives (c_args c) -> a_files p = a_files (c_args c) -> a_format p = a_format (c_args c) -> a_use_dwarf p = Some b -> dwarf_option p = Some b).
  { intros p E1 E2 E3 E4 E5. unfold dwarf_option. rewrite E5, E1, E2, E3, E4. destruct b; [|reflexivity]. destruct G as [G|[G|[G|[G|G]]]]; [discriminate| | | |]; rewrite G; cbn [is_raw]; f_equal; rewrite ?orb_true_r; reflexivity. }
  rewrite (D (set_use_dwarf (Some b) q)) by (cbn; assumption || reflexivity). unfold dwarf_option at 1 2 3 4. rewrite K5. cbn [c_input with_lto].
  set (a := set_use_dwarf None q). set (a' := set_use_dwarf (Some b) q). change (with_lto (Some b) (with_lto None c)) with (with_lto (Some b) c).
  assert (P : forall fn, project_of c fn -> fn <> [] -> projects_of d chips (c_args (with_lto (Some b) c)) fn = projects_of d chips (c_args (with_lto None c)) fn /\
    forall ls ma ea, get (p_world (projects_of d chips (c_args (with_lto None c)) fn)) ls None ma ea = get (p_world (projects_of d chips (c_args (with_lto None c)) fn)) ls (Some b) ma ea).
  { intros fn Pf Nf. pose proof (flag_configured _ _ (C fn Pf Nf)) as Fl. unfold projects_of. rewrite (D (c_args (with_lto (Some b) c))) by reflexivity.
    change (dwarf_option (c_args (with_lto None c))) with (@None bool). change (load_symbols (c_args (with_lto (Some b) c))) with (load_symbols (c_args (with_lto None c))).
    change (needs_deps (c_args (with_lto (Some b) c))) with (needs_deps (c_args (with_lto None c))). rewrite (project_none _ _ b fn Fl). split; [reflexivity|]. intros ls ma ea. apply get_flag, project_flag. }
  apply (f_then true (fun x y : extras * memmap => x = y)).
  - unfold analyse. destruct (P (c_input c) (or_introl eq_refl) I) as (Ei & Gt). rewrite Ei.
    apply (f_then true eq); [apply f_same; reflexivity|]. intros mf mf' <-. apply (f_then true eq); [apply f_same; reflexivity|]. intros e e' <-.
    apply (f_then true eq).
    { apply f_same; [|reflexivity]. intros o s. change (a_use_dwarf a) with (@None bool). change (a_use_dwarf a') with (Some b). now rewrite Gt. }
    intros [m ?] [? ?] E. injection E as <- <-. apply (f_then true eq).
    { change (prepare a' m) with (prepare a m). unfold compare. change (a_diff a') with (a_diff q). change (a_diff a) with (a_diff q).
      destruct (a_diff q) as [[|h t]|] eqn:Dq; [apply f_same; reflexivity| |apply f_same; reflexivity].
      destruct (P (h :: t)) as (-> & Gr); [right; destruct K8 as [K8|K8]; congruence|discriminate|].
      apply f_same; [|reflexivity]. intros o s. change (a_use_dwarf a) with (@None bool). change (a_use_dwarf a') with (Some b). now rewrite Gr. }
    intros m1 ? <-. apply f_same; reflexivity.
  - intros [x m] ? <-. apply f_same; [|reflexivity]. intros o s. unfold a, a'. now rewrite !show_dwarf.
Qed.
Lemma plain_same c o s : ~ detailed (c_args c) -> run_files d chips render encode ord pf (with_lto (Some true) c) o s = run_files d chips render encode ord pf (with_lto (Some false) c) o s.
Proof.
  intros N. unfold run_files.
  assert (E : given (a_archive_details (c_args c)) = false /\ a_archives (c_args c) = false /\ a_files (c_args c) = false /\ a_format (c_args c) <> FRaw).
  { unfold detailed in N. destruct (given _), (a_archives _), (a_files _); try tauto. }
  destruct E as (E1 & E2 & E3 & E4).
  rewrite lto_ignored; try assumption; [|reflexivity].
  change (with_args (with_lto (Some true) c) (set_use_dwarf (Some false) (c_args (with_lto (Some true) c)))) with (with_lto (Some false) c).
  assert (P : projects_of d chips (c_args (with_lto (Some true) c)) = projects_of d chips (c_args (with_lto (Some false) c))).
  { unfold projects_of, dwarf_option. cbn [with_lto c_args a_use_dwarf a_archive_details a_archives a_files a_format]. rewrite E1, E2, E3. now destruct (a_format (c_args c)). }
  now rewrite P.
Qed.
End Disk.
