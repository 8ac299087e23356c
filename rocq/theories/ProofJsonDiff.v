(** * The JSON summary of a project with and without a reference *)
From Coq Require Import Ascii String List ZArith Lia Bool Permutation Sorted.
From Verif Require Import Base MemMap SpecTree SpecOps Filter SpecFilter Pipeline SpecPipe SpecBuild SpecBytes SpecShape PyStr MapFile SpecMap
  ElfRead SpecElf Project SpecProject SpecEnd Chips SpecChips ProofChips Deps Table SpecTable Formats Main SpecMain Command SpecCommand SpecFail SpecReport
  SpecAdds ProofAdds SpecSteps ProofSteps SpecCompare SpecMerge SpecLayout ProofLayout SpecCompareUsage ProofCompareUsage ProofCompareUsage2 SpecSumForm ProofSumForm SpecSizes ProofSizes SpecJsonDiff.
Import ListNotations.
Open Scope list_scope.
Open Scope Z_scope.

Section Parts.
Variables (k : account) (r : option account) (a b : args) (js : jsummary).
Hypothesis Rj : layout_right k r b js.
Hypothesis Eu : a_unify b = a_unify a.
(** as in ProofSumForm *)
Lemma kl_names j n : In j (js_layout js) -> In n (map fst (j_parts j)) <-> exists N, present k r (sect_listed (a_unify a) (j_name j) N) /\ json_name b N n.
Proof.
  intros Ij. pose proof (lr_type _ _ _ _ Rj) as F. rewrite Forall_forall in F. rewrite (jt_names _ _ _ _ (F j Ij)). unfold json_name. rewrite Eu. destruct (a_unify a) eqn:U; cbn [sect_listed]; [|reflexivity].
  assert (L : forall N, shown_section b N n <-> label [N] n) by (intros N; unfold shown_section; rewrite Eu, andb_false_r; reflexivity). split.
  - intros (N & P & S). exists n. split; [|reflexivity]. apply L in S. destruct P as [P|P]; [left; now exists N|right]. destruct r; [now exists N|contradiction].
  - intros (N & P & ->). destruct P as [(M & Lb & P)|P]; [exists M; split; [now left|now apply L]|]. destruct r; [|contradiction]. destruct P as (M & Lb & P). exists M. split; [now right|now apply L].
Qed.
Lemma kl_figure j n z : In j (js_layout js) -> In (n, z) (j_parts j) -> exists N, present k r (sect_listed (a_unify a) (j_name j) N) /\ json_name b N n /\ sect_bytes (a_unify a) (j_name j) N k z.
Proof.
  intros Ij I. pose proof (lr_type _ _ _ _ Rj) as F. rewrite Forall_forall in F. pose proof (jt_part _ _ _ _ (F j Ij) n z I) as P. unfold part_right in P. rewrite Eu in P.
  destruct (proj1 (kl_names j n Ij) (List.in_map fst _ _ I)) as (N & Q & J). destruct (a_unify a) eqn:U; cbn [sect_listed sect_bytes] in *.
  - exists N. split; [exact Q|]. split; [exact J|]. unfold json_name in J. rewrite Eu in J. now subst n.
  - destruct P as (M & P1 & P2 & P3). exists M. split; [exact P1|]. split; [unfold json_name; now rewrite Eu|exact P3].
Qed.
End Parts.
Section Keeps.
Variables (k r : account) (a b : args) (js js' : jsummary).
Hypothesis Ra : layout_right k None a js.
Hypothesis Rb : layout_right k (Some r) b js'.
Hypothesis Ws : windows_separate (ac_types k).
Hypothesis Eu : a_unify b = a_unify a.
Hypothesis En : a_no_abbrev b = a_no_abbrev a.
Hypothesis Es : a_show_unused b = a_show_unused a.
Hypothesis Ef : a_use_flash_size b = a_use_flash_size a.
Lemma kl_lists T q : lists_type b T q <-> lists_type a T q.
Proof. unfold lists_type, listed_type. now rewrite Es. Qed.
Lemma kl_name N n : json_name b N n <-> json_name a N n.
Proof. unfold json_name, shown_section. rewrite Eu, En. reflexivity. Qed.
Lemma kl_total j j' : In j (js_layout js) -> In j' (js_layout js') -> j_name j' = j_name j -> j_used j' = j_used j /\ j_total j' = j_total j /\ j_free j' = j_free j.
Proof.
  intros I I' E. pose proof (lr_type _ _ _ _ Ra) as F. pose proof (lr_type _ _ _ _ Rb) as F'. rewrite Forall_forall in F, F'. destruct (F j I) as [U T Fr _ _ _ _], (F' j' I') as [U' T' Fr' _ _ _ _].
  rewrite E in U', T'. assert (Eu' : j_used j' = j_used j) by exact (used_unique _ _ _ _ U' U).
  assert (Et : j_total j' = j_total j) by exact (total_unique b a (j_name j) k _ _ Ws Ef (kl_lists _ _) T' T). split; [exact Eu'|]. split; [exact Et|]. now rewrite Fr, Fr', Eu', Et.
Qed.
(** with names of their own *)
Lemma kl_one N N' n : a_unify a = true \/ a_no_abbrev a = true -> json_name a N n -> json_name a N' n -> N = N'.
Proof. unfold json_name, shown_section. destruct (a_unify a); [intros _ -> ->; reflexivity|]. intros [H|H]; [discriminate|]. rewrite H. cbn. congruence. Qed.
Lemma kl_keeps : keeps_figures a js js'.
Proof.
  split.
  - intros j I. assert (J : In (j_name j) (map j_name (js_layout js'))).
    { apply (lr_types _ _ _ _ Rb). left. apply kl_lists. assert (X : present k None (lists_type a (j_name j))) by (apply (lr_types _ _ _ _ Ra); now apply List.in_map). destruct X as [X|[]]. exact X. }
    apply List.in_map_iff in J. destruct J as (j' & E & I'). exists j'. split; [exact I'|]. split; [exact E|]. destruct (kl_total j j' I I' E) as (H1 & H2 & H3). do 3 (split; [assumption|]).
    assert (Names : forall n, In n (map fst (j_parts j)) -> In n (map fst (j_parts j'))).
    { intros n In_n. apply (kl_names k None a a js Ra eq_refl j n I) in In_n. destruct In_n as (N & [P|[]] & Jn). apply (kl_names k (Some r) a b js' Rb Eu j' n I'). exists N. split; [left; now rewrite E|now apply kl_name]. }
    split; [exact Names|]. intros Own.
    assert (Fig : forall n z z', In (n, z) (j_parts j) -> In (n, z') (j_parts j') -> z = z').
    { intros n z z' A B. destruct (kl_figure k None a a js Ra eq_refl j n z I A) as (N & _ & Jn & S). destruct (kl_figure k (Some r) a b js' Rb Eu j' n z' I' B) as (N' & _ & Jn' & S'). apply kl_name in Jn'.
      rewrite (kl_one N N' n Own Jn Jn') in S. rewrite E in S'. exact (sect_unique _ _ _ _ _ _ S S'). }
    split.
    + intros n z A. pose proof (Names n (List.in_map fst _ _ A)) as B. apply List.in_map_iff in B. destruct B as ((n' & z') & En' & B). cbn [fst] in En'. subst n'. now rewrite (Fig n z z' A B).
    + intros n z B. destruct (in_dec (list_eq_dec ascii_dec) n (map fst (j_parts j))) as [A|A].
      * left. apply List.in_map_iff in A. destruct A as ((n' & z') & En' & A). cbn [fst] in En'. subst n'. now rewrite <- (Fig n z' z A B).
      * right. split; [exact A|]. destruct (kl_figure k (Some r) a b js' Rb Eu j' n z I' B) as (N & _ & Jn & S). destruct (Z.eq_dec z 0) as [Z0|Nz]; [exact Z0|]. exfalso. apply A.
        apply (kl_names k None a a js Ra eq_refl j n I). exists N. split; [left; rewrite <- E; exact (proj1 (sect_nonzero a _ _ _ _ _ S Nz))|now apply kl_name].
  - intros j' I' N. assert (L : ~ lists_type a (j_name j') k) by (intros L; apply N, (lr_types _ _ _ _ Ra); now left).
    pose proof (lr_type _ _ _ _ Rb) as F'. rewrite Forall_forall in F'. destruct (F' j' I') as [U' (_ & T') Fr' _ _ _ _].
    assert (Z0 : j_total j' = 0) by (apply T'; now rewrite kl_lists). split; [|split; [exact Z0|split; [now rewrite Fr', Z0|]]].
    + destruct (Z.eq_dec (j_used j') 0) as [H|H]; [exact H|]. exfalso. exact (L (used_nonzero a _ _ _ U' H)).
    + intros n z B. destruct (kl_figure k (Some r) a b js' Rb Eu j' n z I' B) as (M & _ & _ & S). destruct (Z.eq_dec z 0) as [H|H]; [exact H|]. exfalso. exact (L (proj2 (sect_nonzero a _ _ _ _ _ S H))).
Qed.
End Keeps.
Lemma json_keeps d c x y k r o o' fs fs' s s' render encode ord pf : of_types (c_args c) -> a_format (c_args c) = FJson2 -> summarised d (comparing c x y) k (Some r) ->
  run_files d (get_memory_types chip_info) render encode ord pf (reporting c x) o (start fs) = (Done tt, s) ->
  run_files d (get_memory_types chip_info) render encode ord pf (comparing c x y) o' (start fs') = (Done tt, s') ->
  exists js js', s_printed s = [PJson js] /\ s_printed s' = [PJson js'] /\ keeps_figures (c_args c) js js'.
Proof.
  intros Ty Fo (P & Q & V) R R'.
  destruct (layout_printed d (reporting c x) k None o fs s render encode ord pf) as (js & S1 & L1); [|exact Ty|exact Fo|exact R|].
  { destruct (a_unify (c_args c)) eqn:U; [right|left]; (split; [exact P|]; split; [reflexivity|]; now split). }
  destruct (layout_printed d (comparing c x y) k (Some r) o' fs' s' render encode ord pf) as (js' & S2 & L2); [|exact Ty|exact Fo|exact R'|].
  { destruct (a_unify (c_args c)) eqn:U; [right|left]; (split; [exact P|]; split; [exact Q|]; now split). }
  exists js, js'. split; [exact S1|]. split; [exact S2|]. change (keeps_figures (c_args (reporting c x)) js js').
  exact (kl_keeps k r (c_args (reporting c x)) (c_args (comparing c x y)) js js' L1 L2 (project_separate _ _ _ _ P) eq_refl eq_refl eq_refl eq_refl).
Qed.
