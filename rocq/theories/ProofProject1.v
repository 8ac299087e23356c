(** * Paths *)
From Coq Require Import Ascii String List ZArith Lia Bool.
From Verif Require Import Base MemMap Pipeline PyStr MapFile SpecMap ElfRead Dwarf Project SpecProject.
Import ListNotations.
Open Scope list_scope.
Open Scope Z_scope.

Lemma mem_true {A} `{Eqb A} (x : A) l : mem x l = true <-> In x l.
Proof. apply mem_In. Qed.
Lemma mem_false {A} `{Eqb A} (x : A) l : mem x l = false <-> ~ In x l.
Proof. rewrite <- (mem_In x l). destruct (mem x l); split; intros; try discriminate; tauto || (exfalso; now auto). Qed.

(** ** base name and directory *)
Lemma basename_plain b : ~ In slash b -> basename b = b.
Proof.
  induction b as [|c b IH]; intros N; [reflexivity|]. cbn [basename].
  destruct (mem slash b) eqn:M; [apply mem_true in M; destruct N; now right|].
  fold slash. rewrite M. destruct (keqP c slash) as [->|]; [destruct N; now left|reflexivity].
Qed.
Lemma basename_in d b : ~ In slash b -> basename (in_dir d b) = b.
Proof.
  intros N. unfold in_dir. induction d as [|c d IH].
  - cbn [app basename]. fold slash. rewrite (proj2 (mem_false slash b) N), keq_refl. reflexivity.
  - cbn [app basename]. fold slash. rewrite (proj2 (mem_true slash _)); [exact IH|apply in_or_app; right; now left].
Qed.
Lemma basename_ends p : ends_in p (basename p).
Proof.
  induction p as [|c p (N & IH)]; [split; [intros []|now left]|]. cbn [basename]. fold slash.
  destruct (mem slash p) eqn:M.
  - split; [exact N|]. destruct IH as [E|(d & E)].
    + exfalso. apply mem_true in M. rewrite E in M. contradiction.
    + right. exists (c :: d). unfold in_dir in *. cbn. now rewrite <- E.
  - apply mem_false in M. destruct (keqP c slash) as [->|Nc].
    + split; [exact M|]. right. exists []. reflexivity.
    + split; [|now left]. intros [E|I]; [now apply Nc|contradiction].
Qed.
Lemma ends_in_fun p b : ends_in p b <-> b = basename p.
Proof.
  split; [|intros ->; apply basename_ends]. intros (N & [->|(d & ->)]); symmetry; [now apply basename_plain|now apply basename_in].
Qed.

Lemma head_part_in d b : ~ In slash b -> head_part (in_dir d b) = d ++ [slash].
Proof.
  intros N. unfold in_dir. induction d as [|c d IH].
  - cbn [app head_part]. rewrite (proj2 (mem_true slash _)); [|now left].
    f_equal. destruct b as [|x b]; [reflexivity|]. cbn [head_part]. now rewrite (proj2 (mem_false slash _) N).
  - cbn [app head_part]. rewrite (proj2 (mem_true slash _)); [now rewrite IH|]. right. apply in_or_app. right. now left.
Qed.

Lemma under_snoc d l p : under d (l ++ [p]) = in_dir (under d l) p.
Proof. unfold under, in_dir. rewrite flat_map_app. cbn. now rewrite app_nil_r, app_assoc. Qed.

Lemma lstrip_slash_other s : (forall c r, s = c :: r -> c <> slash) -> lstrip_slash s = s.
Proof. destruct s as [|c s]; intros N; [reflexivity|]. cbn. destruct (keqP c slash); [now destruct (N c s)|reflexivity]. Qed.
Lemma rstrip_end s : (forall c r, s = r ++ [c] -> c <> slash) -> rstrip_slash (s ++ [slash]) = s.
Proof.
  intros N. unfold rstrip_slash. rewrite rev_unit. cbn [lstrip_slash]. rewrite keq_refl. rewrite lstrip_slash_other; [apply rev_involutive|].
  intros c r E. apply (N c (rev r)). rewrite <- (rev_involutive s), E. reflexivity.
Qed.

Lemma proper_last p : proper p -> exists r c, p = r ++ [c] /\ c <> slash.
Proof.
  intros (N & _ & _ & S1). destruct (exists_last N) as (r & c & ->). exists r, c. split; [reflexivity|].
  intros ->. apply S1. apply in_or_app. right. now left.
Qed.
Lemma directory_end d : directory d -> d <> [] -> exists r c, d = r ++ [c] /\ c <> slash.
Proof.
  intros (l & F & ->) N. destruct l as [|x l'] using rev_ind; [now destruct N|]. clear IHl'.
  rewrite under_snoc. apply Forall_app in F. destruct F as (_ & F). inversion_clear F.
  destruct (proper_last x H) as (r & c & -> & Nc). exists (in_dir (under [] l') r), c. split; [|exact Nc].
  unfold in_dir. now rewrite <- app_assoc.
Qed.
Lemma directory_start d : directory d -> d = [] \/ exists c r, d = slash :: c :: r /\ c <> slash.
Proof.
  intros ([|p l] & F & ->); [now left|]. right. inversion_clear F. destruct H as (N & _ & _ & Ns).
  destruct p as [|c p]; [now destruct N|]. cbn. exists c. eexists. split; [reflexivity|]. intros ->. apply Ns. now left.
Qed.

Lemma dirname_in d b : directory d -> ~ In slash b -> dirname (in_dir d b) = match d with [] => [slash] | _ => d end.
Proof.
  intros D N. unfold dirname. rewrite head_part_in by exact N.
  destruct (directory_start d D) as [->|(c & r & E & Nc)].
  - cbn. reflexivity.
  - destruct (lstrip_slash (d ++ [slash])) eqn:L.
    + exfalso. rewrite E in L. cbn in L. destruct (keqP c slash); [contradiction|discriminate L].
    + rewrite rstrip_end; [now rewrite E|]. destruct (directory_end d D) as (r' & c' & E' & Nc'); [rewrite E; discriminate|].
      intros c0 r0 E0. rewrite E' in E0. apply app_inj_tail in E0. destruct E0 as (_ & <-). exact Nc'.
Qed.

Lemma join_in d b x : directory d -> ~ In slash b -> ~ rooted x -> path_join (dirname (in_dir d b)) x = in_dir d x.
Proof.
  intros D N R. rewrite dirname_in by assumption. unfold path_join, in_dir.
  assert (X : (match rev (match d with [] => [slash] | _ => d end) with [] => x | c :: _ => if c =?= slash then match d with [] => [slash] | _ => d end ++ x else match d with [] => [slash] | _ => d end ++ slash :: x end) = d ++ slash :: x).
  { destruct d as [|y d']; [cbn; now rewrite keq_refl|].
    destruct (directory_end _ D) as (r & c & E & Nc); [discriminate|]. rewrite E. rewrite rev_unit. destruct (keqP c slash); [contradiction|reflexivity]. }
  destruct x as [|c x]; [exact X|]. destruct (keqP c slash) as [->|]; [destruct R; now eexists|exact X].
Qed.
Lemma join_root a x : rooted x -> path_join a x = x.
Proof. intros (r & ->). unfold path_join. now rewrite keq_refl. Qed.

Lemma join_located d b x : directory d -> ~ In slash b -> located d x (path_join (dirname (in_dir d b)) x).
Proof.
  intros D N. destruct x as [|c x].
  - right. split; [intros (r & E); discriminate|]. apply join_in; auto. intros (r & E); discriminate.
  - destruct (keqP c slash) as [->|Nc].
    + left. split; [now eexists|]. apply join_root. now eexists.
    + right. assert (~ rooted (c :: x)) by (intros (r & E); injection E as ->; now apply Nc). split; [assumption|]. now apply join_in.
Qed.

(** ** stems *)
Lemma blast_plain n : ~ In "."%char n -> before_last_dot n = n.
Proof.
  induction n as [|c n IH]; intros N; [reflexivity|]. cbn [before_last_dot].
  rewrite (proj2 (mem_false _ n)); [|intros I; apply N; now right]. destruct (keqP c "."%char) as [->|]; [destruct N; now left|reflexivity].
Qed.
Lemma blast_ext s e : ~ In "."%char e -> before_last_dot (s ++ "."%char :: e) = s.
Proof.
  intros N. induction s as [|c s IH].
  - cbn [app before_last_dot]. rewrite (proj2 (mem_false _ e) N), keq_refl. reflexivity.
  - cbn [app before_last_dot]. rewrite (proj2 (mem_true _ _)); [now rewrite IH|]. apply in_or_app. right. now left.
Qed.
Lemma dots_b s : forallb (fun c => c =?= "."%char) s = true <-> dots s.
Proof.
  unfold dots. rewrite forallb_forall, Forall_forall. split; intros H x I; specialize (H x I).
  - now apply keq_eq in H.
  - subst x. apply keq_refl.
Qed.
Lemma last_dot n : In "."%char n -> exists s e, n = s ++ "."%char :: e /\ ~ In "."%char e.
Proof.
  induction n as [|c n IH]; intros I; [destruct I|].
  destruct (mem "."%char n) eqn:M.
  - apply mem_true in M. destruct (IH M) as (s & e & -> & N). now exists (c :: s), e.
  - apply mem_false in M. destruct I as [->|I]; [|contradiction]. exists [], n. now split.
Qed.
Lemma stem_ok n : stem_of n (stem n).
Proof.
  destruct (mem "."%char n) eqn:M.
  - apply mem_true in M. destruct (last_dot n M) as (s & e & -> & N). unfold stem. rewrite blast_ext by exact N.
    destruct (forallb _ s) eqn:F; [apply dots_b in F; now constructor|]. constructor; [|exact N]. intros D. apply dots_b in D. congruence.
  - apply mem_false in M. unfold stem. rewrite blast_plain by exact M. destruct (forallb _ n); now constructor.
Qed.
Lemma stem_of_fun n st : stem_of n st <-> st = stem n.
Proof.
  split; [|intros ->; apply stem_ok]. intros [n0 N|s e D N|s e D N]; unfold stem.
  - rewrite blast_plain by exact N. now destruct (forallb _ n0).
  - rewrite blast_ext by exact N. now rewrite (proj2 (dots_b s) D).
  - rewrite blast_ext by exact N. destruct (forallb _ s) eqn:F; [apply dots_b in F; contradiction|reflexivity].
Qed.

(** ** absolute paths *)
Lemma pieces_nonempty s : pieces s <> [].
Proof. destruct s as [|c s]; cbn; [discriminate|]. destruct (c =?= slash); [discriminate|]. destruct (pieces s); discriminate. Qed.
Lemma pieces_app p s : ~ In slash p -> pieces (p ++ slash :: s) = p :: pieces s.
Proof.
  intros N. induction p as [|c p IH]; cbn [app pieces].
  - now rewrite keq_refl.
  - rewrite IH by (intros I; apply N; now right). destruct (keqP c slash) as [->|]; [destruct N; now left|reflexivity].
Qed.
Lemma pieces_plain p : ~ In slash p -> pieces p = [p].
Proof.
  intros N. induction p as [|c p IH]; [reflexivity|]. cbn [pieces]. rewrite IH by (intros I; apply N; now right).
  destruct (keqP c slash) as [->|]; [destruct N; now left|reflexivity].
Qed.
Lemma pieces_under l : Forall proper l -> pieces (under [] l) = [] :: l.
Proof.
  assert (G : forall l p, Forall proper l -> ~ In slash p -> pieces (p ++ flat_map (fun p => slash :: p) l) = p :: l).
  { clear. induction l as [|q l IH]; intros p F N.
    - cbn. rewrite app_nil_r. now apply pieces_plain.
    - inversion_clear F. cbn [flat_map]. rewrite <- app_comm_cons. rewrite pieces_app by exact N. f_equal. apply IH; [assumption|]. apply H. }
  intros F. exact (G l [] F (fun x => x)).
Qed.
Lemma norm_steps r l acc : Forall proper l -> fold_left (norm_step r) l acc = rev l ++ acc.
Proof.
  intros F. revert acc. induction F as [|p l P F IH]; intros acc; [reflexivity|]. cbn [fold_left rev].
  assert (E : norm_step r acc p = p :: acc).
  { unfold norm_step. destruct P as (N1 & N2 & N3 & _). destruct (keqP p []) as [E1|_]; [contradiction|].
    destruct (keqP p dot) as [E2|_]; [contradiction|]. destruct (keqP p dotdot) as [E3|_]; [contradiction|]. reflexivity. }
  rewrite E, IH. rewrite <- app_assoc. reflexivity.
Qed.
Lemma join_slash_under l : l <> [] -> slash :: join_slash l = under [] l.
Proof.
  unfold under. cbn. induction l as [|p l IH]; intros N; [now destruct N|]. destruct l as [|q l].
  - cbn. now rewrite app_nil_r.
  - assert (E : slash :: join_slash (p :: q :: l) = slash :: p ++ slash :: join_slash (q :: l)) by reflexivity.
    rewrite E, IH by discriminate. reflexivity.
Qed.
Lemma path_root_under l : l <> [] -> Forall proper l -> path_root (under [] l) = [slash].
Proof.
  intros N F. destruct l as [|p l]; [now destruct N|]. inversion_clear F. destruct H as (Np & _ & _ & Ns).
  destruct p as [|c p]; [now destruct Np|]. assert (Nc : c <> slash) by (intros ->; apply Ns; now left).
  cbn. destruct (p ++ _); rewrite keq_refl; destruct (keqP c slash); try contradiction; reflexivity.
Qed.
Lemma normpath_under l : l <> [] -> Forall proper l -> normpath (under [] l) = under [] l.
Proof.
  intros N F. unfold normpath. destruct (under [] l) eqn:E; [destruct l; [now destruct N|discriminate E]|]. rewrite <- E.
  rewrite path_root_under, pieces_under by assumption. cbn [fold_left].
  lazymatch goal with |- context [norm_step ?r ?a ?b] => change (norm_step r a b) with (@nil str) end.
  rewrite norm_steps by exact F. rewrite app_nil_r, rev_involutive. cbn [app]. rewrite join_slash_under by exact N. now rewrite E.
Qed.
Lemma abspath_in cwd d b : directory d -> proper b -> abspath cwd (in_dir d b) = in_dir d b.
Proof.
  intros (l & F & ->) P. unfold abspath. rewrite join_root.
  - rewrite <- under_snoc. apply normpath_under; [destruct l; discriminate|]. apply Forall_app. now split; [|constructor].
  - unfold in_dir. destruct l; [now eexists|]. cbn. now eexists.
Qed.

Lemma under_under l l' : under (under [] l) l' = under [] (l ++ l').
Proof. unfold under. cbn. now rewrite flat_map_app. Qed.
(** a relative path is looked up from the working directory *)
Lemma abspath_relative d l : directory d -> l <> [] -> Forall proper l -> abspath (shown_dir d) (join_slash l) = under d l.
Proof.
  intros D N F. unfold abspath.
  assert (J : ~ rooted (join_slash l)).
  { destruct l as [|p l]; [now destruct N|]. inversion_clear F. destruct H as (Np & _ & _ & Ns). destruct p as [|c p]; [now destruct Np|].
    intros (r & E). apply Ns. destruct l; cbn in E; injection E as -> _; now left. }
  assert (U : slash :: join_slash l = flat_map (fun p => slash :: p) l) by (rewrite join_slash_under by exact N; reflexivity).
  assert (E : path_join (shown_dir d) (join_slash l) = under d l).
  { assert (X : forall x, ~ rooted x -> path_join (shown_dir d) x = in_dir d x).
    { intros x R. assert (B : ~ In slash dot) by (intros [B|[]]; discriminate B).
      rewrite <- (join_in d dot x D B R). now rewrite (dirname_in d dot D B). }
    rewrite X by exact J. exact (f_equal (fun x => d ++ x) U). }
  rewrite E. destruct D as (l0 & F0 & ->). rewrite under_under. apply normpath_under; [|now apply Forall_app].
  destruct l0; [exact N|discriminate].
Qed.
