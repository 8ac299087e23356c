(** * What a path means *)
From Coq Require Import Ascii String List ZArith Bool Lia.
From Verif Require Import Base MemMap Filter SpecFilter Pipeline SpecPipe PyStr MapFile SpecMap ElfRead SpecElf Project SpecProject ProofProject1 ProofProject2 ProofOwner SpecPath.
Import ListNotations.
Open Scope list_scope.
Open Scope Z_scope.

(** ** the pieces *)
Lemma slashed_pieces s l : slashed s l -> l = pieces s.
Proof. intros H. induction H as [p N|p s l N _ IH]; [now rewrite pieces_plain|]. rewrite pieces_app by exact N. now rewrite IH. Qed.
Definition sig (p : str) : bool := negb (p =?= []) && negb (p =?= dot).
Lemma telling_filter ps l : telling ps l -> l = filter sig ps.
Proof.
  intros H. induction H as [|l q _ IH|l q _ IH|p l q N1 N2 _ IH]; [reflexivity|exact IH|exact IH|]. cbn [filter].
  assert (S : sig p = true). { unfold sig. destruct (keqP p []); [contradiction|]. destruct (keqP p dot) as [E|_]; [contradiction|reflexivity]. }
  rewrite S. now rewrite IH.
Qed.
Lemma names_is s l : names s l -> l = filter sig (pieces s).
Proof. intros (ps & S & T). apply slashed_pieces in S. apply telling_filter in T. now subst. Qed.
Lemma pieces_slash s : pieces (slash :: s) = [] :: pieces s.
Proof. exact (pieces_app [] s (fun x => x)). Qed.
Lemma stripped s : filter sig (pieces (lstrip_slash s)) = filter sig (pieces s).
Proof.
  induction s as [|c s IH]; [reflexivity|]. cbn [lstrip_slash]. destruct (keqP c slash) as [->|_]; [|reflexivity]. rewrite pieces_slash. exact IH.
Qed.
Lemma parts_is s l : names s l -> path_parts s = l.
Proof. intros N. rewrite (names_is s l N). apply stripped. Qed.
Lemma pieces_parts s : Forall (fun p => ~ In slash p) (pieces s).
Proof.
  induction s as [|c s IH]; cbn [pieces]; [constructor; [intros []|constructor]|]. destruct (keqP c slash) as [->|N]; [constructor; [intros []|exact IH]|].
  destruct (pieces s) as [|p l]; [constructor; [|constructor]|inversion_clear IH; constructor; [|assumption]].
  - intros [->|[]]. now apply N.
  - intros [->|I]; [now apply N|contradiction].
Qed.

(** ** the start *)
Lemma starts_is s r : starts s r -> path_root s = r.
Proof.
  intros (n & body & -> & NR & ->). assert (NB : forall b, hd_error body = Some b -> (b =?= slash) = false).
  { intros b E. destruct body as [|x body]; [discriminate|]. injection E as ->. destruct (keqP b slash) as [->|]; [|reflexivity]. destruct NR. now exists body. }
  destruct n as [|[|[|n]]].
  - destruct body as [|a [|b [|c t]]]; cbn [repeat app path_root]; rewrite ?(NB _ eq_refl); reflexivity.
  - destruct body as [|a [|b t]]; cbn [repeat app path_root]; rewrite ?keq_refl, ?(NB _ eq_refl); reflexivity.
  - destruct body as [|a t]; cbn [repeat app path_root]; rewrite ?keq_refl, ?(NB _ eq_refl); reflexivity.
  - cbn [repeat app path_root]. rewrite !keq_refl. reflexivity.
Qed.

(** ** relative paths *)
Lemma join_relative l : join_slash l = relative_path l.
Proof. induction l as [|p [|q l] IH]; [reflexivity|reflexivity|]. cbn [join_slash relative_path] in *. now rewrite IH. Qed.
Lemma strip_iff b l : (exists rest, l = b ++ rest /\ strip_parts b l = Some rest) \/ (strip_parts b l = None /\ forall rest, l <> b ++ rest).
Proof.
  revert l. induction b as [|x b IH]; intros l; [left; exists l; split; [reflexivity|destruct l; reflexivity]|].
  destruct l as [|y l]; [right; split; [reflexivity|discriminate]|]. cbn [strip_parts]. destruct (keqP x y) as [->|N].
  - destruct (IH l) as [(rest & -> & E)|(E & F)]; [left; exists rest; now split|]. right. split; [exact E|]. intros rest X. injection X as X. exact (F rest X).
  - right. split; [reflexivity|]. intros rest X. injection X as X _. now apply N.
Qed.

(** ** normal spelling *)
Lemma as_posix_is s r l : starts s r -> names s l -> as_posix s = spelled r l.
Proof. intros S N. unfold as_posix, spelled. now rewrite (starts_is s r S), (parts_is s l N), join_relative. Qed.
Lemma sig_true p : sig p = true -> p <> [] /\ p <> dot.
Proof. unfold sig. intros H. apply andb_true_iff in H. destruct H as (A & B). split; intros ->; rewrite keq_refl in *; discriminate. Qed.
Definition name_ok (p : str) : Prop := p <> [] /\ p <> dot /\ ~ In slash p.
Lemma names_ok s l : names s l -> Forall name_ok l.
Proof.
  intros N. rewrite (names_is s l N). apply Forall_forall. intros p I. apply filter_In in I. destruct I as (I & S). apply sig_true in S. destruct S as (A & B).
  split; [exact A|]. split; [exact B|]. pose proof (pieces_parts s) as F. rewrite Forall_forall in F. now apply F.
Qed.
Lemma pieces_relative l : l <> [] -> Forall name_ok l -> pieces (relative_path l) = l.
Proof.
  intros N F. induction F as [|p l (_ & _ & P) F IH]; [contradiction|]. destruct l as [|q l]; [now apply pieces_plain|].
  change (relative_path (p :: q :: l)) with (p ++ slash :: relative_path (q :: l)). rewrite pieces_app by exact P. now rewrite IH.
Qed.
Lemma sig_ok p : name_ok p -> sig p = true.
Proof. intros (A & B & _). unfold sig. destruct (keqP p []); [contradiction|]. destruct (keqP p dot); [contradiction|reflexivity]. Qed.
Lemma filter_ok l : Forall name_ok l -> filter sig l = l.
Proof. intros F. induction F as [|p l P F IH]; [reflexivity|]. cbn [filter]. now rewrite (sig_ok p P), IH. Qed.
Lemma not_rooted_relative l : Forall name_ok l -> ~ rooted (relative_path l).
Proof.
  intros F (r & E). destruct F as [|p l (P1 & _ & P3) F]; [discriminate E|]. destruct p as [|c p]; [contradiction|]. apply P3. destruct l; injection E as -> _; now left.
Qed.
Lemma slashed_all t : slashed t (pieces t).
Proof.
  assert (G : forall t q, ~ In slash q -> slashed (q ++ t) (match pieces t with p :: l => (q ++ p) :: l | [] => [] end)).
  { clear. induction t as [|c t IH]; intros q N; [cbn [pieces]; rewrite app_nil_r; now constructor|]. cbn [pieces]. destruct (keqP c slash) as [->|Nc].
    - rewrite app_nil_r. constructor; [exact N|]. specialize (IH [] (fun x => x)). cbn [app] in IH. destruct (pieces t); exact IH.
    - specialize (IH (q ++ [c])). assert (Nq : ~ In slash (q ++ [c])) by (intros I; apply in_app_or in I; destruct I as [I|[I|[]]]; [contradiction|now apply Nc]).
      specialize (IH Nq). rewrite <- app_assoc in IH. cbn [app] in IH. destruct (pieces t) as [|p l] eqn:E; [destruct (pieces_nonempty t E)|]. rewrite <- app_assoc in IH. exact IH. }
  specialize (G t [] (fun x => x)). cbn [app] in G. destruct (pieces t); exact G.
Qed.
Lemma telling_all ps : telling ps (filter sig ps).
Proof.
  induction ps as [|p ps IH]; [constructor|]. cbn [filter]. unfold sig at 1. destruct (keqP p []) as [->|N1]; cbn [negb andb]; [now constructor|].
  destruct (keqP p dot) as [->|N2]; cbn [negb]; [now apply telling_dot|]. now constructor.
Qed.
Lemma starts_spelled s r l : starts s r -> Forall name_ok l -> starts (spelled r l) r /\ names (spelled r l) l.
Proof.
  intros (n & body & _ & _ & Er) F. assert (R : r = [] \/ r = "/" \/ r = "//") by (destruct n as [|[|[|n]]]; auto).
  assert (X : forall k, telling (repeat [] k ++ l) l).
  { intros k. induction k as [|k IH]; cbn [repeat app]; [|now constructor]. clear - F. induction F as [|p l (A & B & _) F IH]; constructor; assumption. }
  pose proof slashed_all as Y.
  destruct l as [|p l].
  - destruct R as [->|[->| ->]]; cbn [spelled app relative_path].
    + split; [exists 0%nat; eexists; split; [reflexivity|]; split; [intros (t & E); discriminate E|reflexivity]|]. exists [("." : str)]. split; [constructor; intros [E|[]]; discriminate E|apply telling_dot; constructor].
    + split; [exists 1%nat, []; split; [reflexivity|]; split; [intros (t & E); discriminate E|reflexivity]|]. exists [[]; []]. split; [apply (slashed_more [] [] [[]]); [intros []|constructor; intros []]|repeat constructor].
    + split; [exists 2%nat, []; split; [reflexivity|]; split; [intros (t & E); discriminate E|reflexivity]|]. exists [[]; []; []]. split; [apply (slashed_more [] ["/"%char] [[]; []]); [intros []|apply (slashed_more [] [] [[]]); [intros []|constructor; intros []]]|repeat constructor].
  - assert (NE : spelled r (p :: l) = r ++ relative_path (p :: l)).
    { unfold spelled. destruct (r ++ relative_path (p :: l)) eqn:E; [|reflexivity]. exfalso. apply app_eq_nil in E. destruct E as (_ & E). inversion_clear F as [|? ? (P1 & _)]. destruct p; [contradiction|]. destruct l; discriminate E. }
    rewrite NE. pose proof (not_rooted_relative _ F) as NR. pose proof (pieces_relative (p :: l) ltac:(discriminate) F) as PR. set (t := relative_path (p :: l)) in *. pose proof (Y t) as Z. rewrite PR in Z.
    destruct R as [->|[->| ->]]; cbn [app].
    + split; [exists 0%nat, t; now repeat split|]. exists (p :: l). split; [exact Z|exact (X 0%nat)].
    + split; [exists 1%nat, t; now repeat split|]. exists ([] :: p :: l). split; [apply (slashed_more [] t (p :: l)); [intros []|exact Z]|exact (X 1%nat)].
    + split; [exists 2%nat, t; now repeat split|]. exists ([] :: [] :: p :: l). split; [apply (slashed_more [] (slash :: t) ([] :: p :: l)); [intros []|apply (slashed_more [] t (p :: l)); [intros []|exact Z]]|exact (X 2%nat)].
Qed.

(** ** components *)
Lemma relative_is fn b r lb r' lf : starts b r -> names b lb -> starts fn r' -> names fn lf ->
  (forall rest, r' = r -> lf = lb ++ rest -> relative_to fn (as_posix b) = Ok (spelled [] rest)) /\
  ((r' = r -> forall rest, lf <> lb ++ rest) -> relative_to fn (as_posix b) = Err ValueError).
Proof.
  intros Sb Nb Sf Nf. rewrite (as_posix_is b r lb Sb Nb). destruct (starts_spelled b r lb Sb (names_ok b lb Nb)) as (S2 & N2). unfold relative_to.
  rewrite (starts_is _ _ S2), (parts_is _ _ N2), (starts_is _ _ Sf), (parts_is _ _ Nf). split.
  - intros rest -> ->. rewrite keq_refl, strip_parts_app. unfold spelled. cbn [app]. destruct rest as [|p rest]; [reflexivity|].
    apply names_ok in Nf. apply Forall_app in Nf. destruct Nf as (_ & Nf). inversion_clear Nf as [|? ? (P & _)]. destruct p as [|c p]; [contradiction|]. destruct rest; reflexivity.
  - intros H. destruct (keqP r' r) as [E|_]; [|reflexivity]. destruct (strip_iff lb lf) as [(rest & -> & _)|(-> & _)]; [|reflexivity]. exfalso. exact (H E rest eq_refl).
Qed.
Lemma component_loaded b j l : component_any b j l -> load_component (as_posix b) j = Ok l.
Proof.
  intros [(o & -> & F)|fn dir r lb rest rd ld (o & -> & F) Nf (o' & E & D) Sb Nb Sf Nn Sd Nd]; unfold load_component, jindex; rewrite F; cbn [bind].
  - reflexivity.
  - injection E as <-. destruct fn as [|c fn]; [contradiction|]. cbn [jtrue jstr bind]. rewrite D. cbn [bind jstr].
    rewrite (proj1 (relative_is _ b r lb r _ Sb Nb Sf Nn) rest eq_refl eq_refl). cbn [bind]. now rewrite (as_posix_is dir rd ld Sd Nd).
Qed.
Lemma component_refused b j : component_outside b j -> load_component (as_posix b) j = Err ValueError.
Proof.
  intros (fn & dir & r & lb & r' & lf & (o & -> & F) & Nf & (o' & E & D) & Sb & Nb & Sf & Nn & H). injection E as <-. unfold load_component, jindex. rewrite F. cbn [bind].
  destruct fn as [|c fn]; [contradiction|]. cbn [jtrue jstr bind]. rewrite D. cbn [bind jstr]. now rewrite (proj2 (relative_is _ b r lb r' lf Sb Nb Sf Nn) H).
Qed.
Lemma components_loaded o info b ls : dget (list_ascii_of_string "build_component_info") o = Some (JObj info) -> dget (list_ascii_of_string "build_dir") o = Some (JStr b) ->
  Forall2 (fun kv l => component_any b (snd kv) l) info ls -> load_components (JObj o) = Ok (concat ls).
Proof.
  intros I B F. unfold load_components, jindex. rewrite I. cbn [bind]. rewrite B. cbn [bind jstr].
  assert (E : mapM (fun kv => load_component (as_posix b) (snd kv)) info = Ok ls).
  { clear - F. induction F as [|kv l info ls H _ IH]; [reflexivity|]. cbn [mapM]. rewrite (component_loaded _ _ _ H). cbn [bind]. now rewrite IH. }
  now rewrite E.
Qed.
Lemma components_refused o info1 kv info2 b ls : dget (list_ascii_of_string "build_component_info") o = Some (JObj (info1 ++ kv :: info2)) -> dget (list_ascii_of_string "build_dir") o = Some (JStr b) ->
  Forall2 (fun kv l => component_any b (snd kv) l) info1 ls -> component_outside b (snd kv) -> load_components (JObj o) = Err ValueError.
Proof.
  intros I B F C. unfold load_components, jindex. rewrite I. cbn [bind]. rewrite B. cbn [bind jstr].
  assert (E : mapM (fun kv => load_component (as_posix b) (snd kv)) (info1 ++ kv :: info2) = Err ValueError).
  { clear - F C. induction F as [|kv' l info ls H _ IH]; cbn [app mapM]; [now rewrite (component_refused _ _ C)|]. rewrite (component_loaded _ _ _ H). cbn [bind]. now rewrite IH. }
  now rewrite E.
Qed.

(** ** the input file *)
Lemma norm_names r ps : forall acc, fold_left (norm_step r) ps acc = fold_left (norm_step r) (filter sig ps) acc.
Proof.
  induction ps as [|p ps IH]; intros acc; [reflexivity|]. cbn [fold_left filter]. unfold sig at 1. destruct (p =?= []) eqn:E1; cbn [negb andb].
  - unfold norm_step at 2. rewrite E1. cbn [orb]. apply IH.
  - destruct (p =?= dot) eqn:E2; cbn [negb]; [|apply IH]. unfold norm_step at 2. rewrite E1, E2. cbn [orb]. apply IH.
Qed.
Lemma leads_is l q : leads l q -> Forall (fun p => p <> [] /\ p <> dot) l -> fold_left (norm_step true) l [] = rev q.
Proof.
  intros H. induction H as [|l q p H IH N|l q p H IH|l H IH]; intros F; [reflexivity| | |]; apply Forall_app in F; destruct F as (F & F1); rewrite fold_left_app, (IH F); cbn [fold_left].
  - inversion_clear F1 as [|? ? (A & B)]. unfold norm_step. destruct (keqP p []); [contradiction|]. destruct (keqP p dot); [contradiction|]. destruct (keqP p dotdot); [contradiction|]. cbn [orb negb]. now rewrite rev_unit.
  - rewrite rev_unit. reflexivity.
  - reflexivity.
Qed.
Lemma norm_is s r l q : starts s r -> r <> [] -> filter sig (pieces s) = l -> leads l q -> normpath s = r ++ relative_path q.
Proof.
  intros S Nr E L. unfold normpath. destruct s as [|c s].
  - exfalso. apply starts_is in S. now apply Nr.
  - rewrite (starts_is _ _ S), norm_names, E. destruct (keqP r []) as [->|_]; [contradiction|]. cbn [negb]. rewrite (leads_is l q L), rev_involutive, join_relative.
    + destruct r as [|x r]; [contradiction|reflexivity].
    + rewrite <- E. apply Forall_forall. intros p I. apply filter_In in I. now apply sig_true.
Qed.
Lemma rooted_starts s r : rooted s -> starts s r -> r <> [].
Proof. intros (t & ->) (n & body & E & NR & ->). destruct n as [|[|[|n]]]; try discriminate. cbn in E. subst body. destruct NR. now eexists. Qed.
Lemma pieces_joined a b : pieces (a ++ slash :: b) = pieces a ++ pieces b.
Proof.
  induction a as [|c a IH]; cbn [app]; [apply pieces_slash|]. cbn [pieces]. rewrite IH. destruct (c =?= slash); [reflexivity|]. destruct (pieces a) as [|p l] eqn:E; [destruct (pieces_nonempty a E)|reflexivity].
Qed.
Lemma starts_more cwd t r : starts cwd r -> rooted cwd -> ~ rooted t -> starts (cwd ++ t) r.
Proof.
  intros (n & body & E & NR & ->) Rc Nt. destruct body as [|c body].
  - exists n, t. rewrite E, app_nil_r. now repeat split.
  - exists n, ((c :: body) ++ t). rewrite E, <- app_assoc. split; [reflexivity|]. split; [|reflexivity]. intros (x & X). injection X as -> _. destruct NR. now eexists.
Qed.
Lemma starts_joined cwd t r c a : starts cwd r -> cwd = a ++ [c] -> c <> slash -> starts (cwd ++ slash :: t) r.
Proof.
  intros (n & body & E & NR & ->) Ea Nc. destruct body as [|x body].
  - exfalso. rewrite app_nil_r in E. rewrite Ea in E. assert (I : In c (repeat "/"%char n)) by (rewrite <- E; apply in_or_app; right; now left). apply repeat_spec in I. contradiction.
  - exists n, ((x :: body) ++ slash :: t). rewrite E, <- app_assoc. split; [reflexivity|]. split; [|reflexivity]. intros (y & X). injection X as -> _. destruct NR. now eexists.
Qed.
Lemma place_is cwd s r q : place cwd s r q -> abspath cwd s = r ++ relative_path q.
Proof.
  intros [r0 l q0 R S N L|r0 l1 l2 q0 NR Rc S N1 N2 L]; unfold abspath.
  - rewrite join_root by exact R. apply (norm_is s r0 l q0 S (rooted_starts s r0 R S)); [symmetry; now apply names_is|exact L].
  - pose proof (rooted_starts cwd r0 Rc S) as Nr. destruct Rc as (u & Ec). destruct (exists_last (l := cwd)) as (a & c & Ea); [rewrite Ec; discriminate|].
    assert (J : path_join cwd s = if c =?= slash then cwd ++ s else cwd ++ slash :: s).
    { unfold path_join. rewrite Ea, rev_unit. destruct s as [|x s]; [reflexivity|]. destruct (keqP x slash) as [->|_]; [destruct NR; now eexists|reflexivity]. }
    rewrite J. apply names_is in N1, N2. destruct (keqP c slash) as [->|Nc].
    + apply (norm_is _ r0 (l1 ++ l2) q0); [apply (starts_more cwd s r0 S); [now exists u|exact NR]|exact Nr| |exact L].
      rewrite N1, N2, Ea, <- app_assoc. cbn [app]. rewrite !pieces_joined, !filter_app. cbn [pieces filter]. change (sig []) with false. cbn iota. now rewrite app_nil_r.
    + apply (norm_is _ r0 (l1 ++ l2) q0); [exact (starts_joined cwd s r0 c a S Ea Nc)|exact Nr| |exact L].
      rewrite pieces_joined, filter_app. now rewrite N1, N2.
Qed.
Lemma place_files d chips s s' r q ls ud : place (d_cwd d) s r q -> place (d_cwd d) s' r q -> get_files d chips s ls ud = get_files d chips s' ls ud.
Proof. intros P P'. unfold get_files, load_world. now rewrite (place_is _ _ _ _ P), (place_is _ _ _ _ P'). Qed.
Lemma get_path w ls ud mf e m mf' : get w ls ud mf e = Ok (m, mf') -> m_project_path m = w_map_fn w.
Proof.
  unfold get. intros H.
  repeat match type of H with
  | bind ?x _ = Ok _ => destruct x; cbn [bind] in H; [|discriminate H]
  | (let '(_, _) := ?p in _) = Ok _ => destruct p
  | (if ?b then _ else _) = Ok _ => destruct b
  | (match ?x with _ => _ end) = Ok _ => destruct x
  | Ok _ = Ok _ => injection H as <- _
  | Err _ = Ok _ => discriminate H
  end; reflexivity.
Qed.
Lemma place_shown d chips s r q ls ud m : place (d_cwd d) s r q -> get_files d chips s ls ud = Ok m -> m_project_path m = r ++ relative_path q.
Proof.
  intros P. unfold get_files. destruct (load_world d chips s ls ud) as [w|] eqn:W; [|discriminate]. cbn [bind]. destruct (get w ls (Some (w_lto w)) None None) as [[m' mf]|] eqn:G; [|discriminate].
  cbn [bind fst]. intros E. injection E as <-. rewrite (get_path _ _ _ _ _ _ _ G). clear G. unfold load_world in W. rewrite (place_is _ _ _ _ P) in W.
  destruct (get_proj_desc d (r ++ relative_path q)) as [pd|]; [|discriminate W]. cbn [bind] in W.
  destruct (match ud with Some b => Ok b | None => lto_flag d (r ++ relative_path q) end); [|discriminate W]. cbn [bind] in W. destruct (desc_target pd); [|discriminate W]. cbn [bind] in W. injection W as <-. reflexivity.
Qed.
