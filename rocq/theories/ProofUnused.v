(** * The summary with and without unused memory types *)
From Coq Require Import Ascii String List ZArith Lia Bool Permutation Sorted.
From Verif Require Import Base MemMap SpecTree SpecOps Filter SpecFilter Pipeline SpecPipe SpecBuild SpecBytes SpecShape PyStr MapFile SpecMap
  ElfRead SpecElf Project SpecProject SpecEnd Chips SpecChips ProofChips Deps Table SpecTable Formats Main SpecMain Command SpecCommand SpecFail SpecReport
  SpecAdds ProofAdds SpecSteps ProofSteps SpecCompare SpecMerge SpecLayout ProofLayout SpecCompareUsage ProofCompareUsage ProofCompareUsage2 SpecSumForm ProofSumForm SpecSizes ProofSizes SpecJsonDiff ProofJsonDiff SpecUnused.
Import ListNotations.
Open Scope list_scope.
Open Scope Z_scope.

Lemma measured_one (f : account -> Z -> Prop) k r v w : (forall q n n', f q n -> f q n' -> n = n') -> measured k r f v -> measured k r f w -> v = w.
Proof.
  intros U (A & A') (B & B'). destruct v as (v1 & v2), w as (w1 & w2). cbn [fst snd] in *. pose proof (U _ _ _ A B) as ->. f_equal. destruct r as [q|]; [|congruence].
  destruct A' as (n & N & E), B' as (n' & N' & E'). rewrite (U _ _ _ N N') in E. congruence.
Qed.
Lemma shown_kept a b parts parts' T n n' : size_kept a (a_use_flash_size b) T -> type_size T parts = type_size T parts' -> size_shown a parts T n -> size_shown b parts' T n' -> n' = n.
Proof.
  intros [E|F] Es A B; [symmetry; exact (shown_unique a b parts parts' T n n' (eq_sym E) Es A B)|]. destruct A as (_ & A), B as (_ & B). rewrite A, B by tauto. now symmetry.
Qed.
Lemma total_kept a b T q n n' : windows_separate (ac_types q) -> size_kept a (a_use_flash_size b) T -> lists_type a T q -> lists_type b T q -> total_bytes a T q n -> total_bytes b T q n' -> n' = n.
Proof.
  intros W K L L' (A & _) (B & _). destruct (A L) as (gs & F & S), (B L') as (gs' & F' & S'). exact (shown_kept a b _ _ T n n' K (size_unique _ _ gs gs' T W F F') S S').
Qed.
Lemma one_name a N N' n : a_unify a = true \/ a_no_abbrev a = true -> json_name a N n -> json_name a N' n -> N = N'.
Proof. unfold json_name, shown_section. destruct (a_unify a); [intros _ -> ->; reflexivity|]. intros [H|H]; [discriminate|]. rewrite H. cbn. congruence. Qed.
Section Adds.
Variables (k : account) (r : option account) (a b : args).
Hypothesis Ws : windows_separate (ac_types k).
Hypothesis Sb : a_show_unused b = true.
Hypothesis Eu : a_unify b = a_unify a.
Hypothesis En : a_no_abbrev b = a_no_abbrev a.
Hypothesis Ed : a_diff b = a_diff a.
Hypothesis Ec : a_show_unchanged b = a_show_unchanged a.
Lemma more_lists T q : lists_type a T q -> lists_type b T q.
Proof. unfold lists_type, listed_type. rewrite Sb. intros (H & _). split; [exact H|now left]. Qed.
Lemma more_present T : present k r (lists_type a T) -> present k r (lists_type b T).
Proof. unfold present. destruct r as [q|]; intros [H|H]; [left|right|left|contradiction]; now apply more_lists. Qed.
Lemma same_differs v : differs b v <-> differs a v.
Proof. unfold differs. rewrite Ed, Ec. reflexivity. Qed.
Lemma unused_zero T v : ~ present k r (lists_type a T) -> measured k r (used_bytes T) v -> v = (0, 0).
Proof.
  intros N (A & B). assert (Z1 : fst v = 0) by (destruct (Z.eq_dec (fst v) 0) as [E|E]; [exact E|exfalso; apply N; left; exact (used_nonzero a _ _ _ A E)]).
  destruct v as (v1 & v2). cbn [fst snd] in *. subst v1. f_equal. destruct r as [q|]; [|exact B]. destruct B as (n & M & ->). destruct (Z.eq_dec n 0) as [E|E]; [lia|]. exfalso. apply N. right. exact (used_nonzero a _ _ _ M E).
Qed.
Lemma unused_sections u T N : ~ present k r (lists_type a T) -> ~ present k r (sect_listed u T N).
Proof. intros L P. apply L. unfold present in *. destruct r as [q|]; destruct P as [P|P]; [left|right|left|contradiction]; exact (sect_type a u T N _ P). Qed.
Lemma table_adds u gs gs' : groups_right u k r a gs -> groups_right u k r b gs' -> totals_right k r a gs -> totals_right k r b gs' -> adds_unused a (a_use_flash_size b) gs gs'.
Proof.
  intros R R' Tr Tr'. split.
  - intros g I. assert (J : In (pg_type g) (map pg_type gs')).
    { assert (X : In (pg_type g) (map pg_type gs)) by now apply List.in_map. destruct R as (_ & Ts & _), R' as (_ & Ts' & _). apply Ts in X. apply Ts'. destruct X as (P & v & M & D). split; [now apply more_present|]. exists v. split; [exact M|now apply same_differs]. }
    apply List.in_map_iff in J. destruct J as (g' & E & I'). exists g'. split; [exact I'|]. split; [exact E|]. destruct (group_is _ _ _ _ _ R g I) as (U & _ & S). destruct (group_is _ _ _ _ _ R' g' I') as (U' & _ & S'). rewrite E in U', S'.
    split; [exact (measured_one _ k r _ _ (used_unique (pg_type g)) U' U)|]. split.
    + intros (N & v). rewrite S, S', same_differs. reflexivity.
    + intros Nz K. unfold totals_right in Tr, Tr'. rewrite Forall_forall in Tr, Tr'. pose proof (proj1 (Tr g I)) as A. pose proof (proj1 (Tr' g' I')) as B. rewrite E in B.
      assert (L : lists_type a (pg_type g) k) by exact (used_nonzero a _ _ _ (proj1 U) Nz). exact (total_kept a b _ k _ _ Ws K L (more_lists _ _ L) A B).
  - intros g' I' N. destruct (group_is _ _ _ _ _ R' g' I') as (U' & _ & S').
    assert (D : exists v, measured k r (used_bytes (pg_type g')) v /\ differs a v).
    { assert (X : In (pg_type g') (map pg_type gs')) by now apply List.in_map. destruct R' as (_ & Ts' & _). apply Ts' in X. destruct X as (_ & v & M & D). exists v. split; [exact M|now apply same_differs]. }
    assert (L : ~ present k r (lists_type a (pg_type g'))) by (intros P; apply N; destruct R as (_ & Ts & _); apply Ts; now split).
    split; [exact (unused_zero _ _ L U')|]. destruct (pg_sections g') as [|(M & v) rest] eqn:Es; [reflexivity|]. exfalso. destruct (proj1 (S' M v) (or_introl eq_refl)) as (P & _). exact (unused_sections u _ M L P).
Qed.
Lemma names_own N n : json_name b N n <-> json_name a N n.
Proof. unfold json_name, shown_section. rewrite Eu, En. reflexivity. Qed.
Lemma json_adds js js' : layout_right k r a js -> layout_right k r b js' -> adds_unused_json a (a_use_flash_size b) js js'.
Proof.
  intros R R'. split.
  - intros j I. assert (J : In (j_name j) (map j_name (js_layout js'))) by (apply (lr_types _ _ _ _ R'), more_present, (lr_types _ _ _ _ R); now apply List.in_map).
    apply List.in_map_iff in J. destruct J as (j' & E & I'). exists j'. split; [exact I'|]. split; [exact E|].
    pose proof (lr_type _ _ _ _ R) as F. pose proof (lr_type _ _ _ _ R') as F'. rewrite Forall_forall in F, F'. destruct (F j I) as [U T Fr O _ _ _], (F' j' I') as [U' T' Fr' O' _ _ _]. rewrite E in U', T'.
    assert (Ud : j_used j' = j_used j) by exact (used_unique _ _ _ _ U' U). split; [exact Ud|].
    assert (Names : forall n, In n (map fst (j_parts j')) <-> In n (map fst (j_parts j))).
    { intros n. rewrite (kl_names k r a b js' R' Eu j' n I'), (kl_names k r a a js R eq_refl j n I), E. split; intros (N & P & Jn); exists N; (split; [exact P|now apply names_own]). }
    split; [exact Names|]. split.
    + intros Own.
      assert (Fig : forall n z z', In (n, z) (j_parts j) -> In (n, z') (j_parts j') -> z' = z).
      { intros n z z' A B. destruct (kl_figure k r a a js R eq_refl j n z I A) as (N & _ & Jn & S). destruct (kl_figure k r a b js' R' Eu j' n z' I' B) as (N' & _ & Jn' & S'). apply names_own in Jn'.
        rewrite (one_name a N N' n Own Jn Jn') in S. rewrite E in S'. exact (sect_unique _ _ _ _ _ _ S' S). }
      intros (n & z). split; intros A.
      * pose proof (proj1 (Names n) (List.in_map fst _ _ A)) as B. apply List.in_map_iff in B. destruct B as ((n' & z') & En' & B). cbn [fst] in En'. subst n'. now rewrite (Fig n z' z B A).
      * pose proof (proj2 (Names n) (List.in_map fst _ _ A)) as B. apply List.in_map_iff in B. destruct B as ((n' & z') & En' & B). cbn [fst] in En'. subst n'. now rewrite <- (Fig n z z' A B).
    + intros Nz K. assert (L : lists_type a (j_name j) k) by exact (used_nonzero a _ _ _ U Nz). pose proof (total_kept a b _ k _ _ Ws K L (more_lists _ _ L) T T') as Et. split; [exact Et|]. now rewrite Fr, Fr', Ud, Et.
  - intros j' I' N. assert (L : ~ present k r (lists_type a (j_name j'))) by (intros P; apply N; now apply (lr_types _ _ _ _ R)).
    pose proof (lr_type _ _ _ _ R') as F'. rewrite Forall_forall in F'. destruct (F' j' I') as [U' _ _ _ _ _ _]. split.
    + destruct (Z.eq_dec (j_used j') 0) as [H|H]; [exact H|]. exfalso. apply L. left. exact (used_nonzero a _ _ _ U' H).
    + destruct (j_parts j') as [|(n & z) rest] eqn:Es; [reflexivity|]. exfalso. assert (X : In n (map fst (j_parts j'))) by (rewrite Es; now left). apply (kl_names k r a b js' R' Eu j' n I') in X. destruct X as (M & P & _). exact (unused_sections _ _ M L P).
Qed.
End Adds.
(** the project and the reference are the same with both commands *)
Lemma unused_project d c f fn k : project_at d (c_args c) fn k -> project_at d (c_args (with_unused c f)) fn k.
Proof. intros (dir & name & text & crt & E & B & W & _). exists dir, name, text, crt. split; [exact E|]. split; [exact B|]. split; [exact W|now left]. Qed.
Lemma unused_summarised d c f k r : summarised d c k r -> summarised d (with_unused c f) k r.
Proof.
  intros (P & Q & V). split; [exact (unused_project d c f _ _ P)|]. split; [|exact V]. destruct r as [q|]; [|exact Q]. destruct Q as (fn & E & Q). exists fn. split; [exact E|exact (unused_project d c f _ _ Q)].
Qed.
Lemma unused_table d c f k r o o' fs fs' s s' render encode ord pf :
  summarised d c k r -> of_types (c_args c) -> a_format (c_args c) = FTable \/ a_format (c_args c) = FText \/ a_format (c_args c) = FCsv ->
  run_files d (get_memory_types chip_info) render encode ord pf c o (start fs) = (Done tt, s) ->
  run_files d (get_memory_types chip_info) render encode ord pf (with_unused c f) o' (start fs') = (Done tt, s') ->
  exists gs gs', shows_usage (c_args c) s gs /\ shows_usage (c_args (with_unused c f)) s' gs' /\ adds_unused (c_args c) f gs gs'.
Proof.
  intros Su Ty Fo R R'. destruct (sizes_shown d c k r o fs s render encode ord pf Su Ty Fo R) as (gs & S1 & G & T).
  destruct (sizes_shown d (with_unused c f) k r o' fs' s' render encode ord pf (unused_summarised d c f k r Su) Ty Fo R') as (gs' & S2 & G' & T').
  exists gs, gs'. split; [exact S1|]. split; [exact S2|].
  exact (table_adds k r (c_args c) (c_args (with_unused c f)) (project_separate _ _ _ _ (proj1 Su)) eq_refl eq_refl eq_refl (a_unify (c_args c)) gs gs' G G' T T').
Qed.
Lemma unused_json d c f k r o o' fs fs' s s' render encode ord pf :
  summarised d c k r -> of_types (c_args c) -> a_format (c_args c) = FJson2 ->
  run_files d (get_memory_types chip_info) render encode ord pf c o (start fs) = (Done tt, s) ->
  run_files d (get_memory_types chip_info) render encode ord pf (with_unused c f) o' (start fs') = (Done tt, s') ->
  exists js js', s_printed s = [PJson js] /\ s_printed s' = [PJson js'] /\ adds_unused_json (c_args c) f js js'.
Proof.
  intros Su Ty Fo R R'. pose proof Su as (P & Q & V). pose proof (unused_summarised d c f k r Su) as (P' & Q' & _).
  destruct (layout_printed d c k r o fs s render encode ord pf) as (js & S1 & L1); [|exact Ty|exact Fo|exact R|].
  { destruct (a_unify (c_args c)) eqn:U; [right|left]; (split; [exact P|]; split; [exact Q|]; now split). }
  destruct (layout_printed d (with_unused c f) k r o' fs' s' render encode ord pf) as (js' & S2 & L2); [|exact Ty|exact Fo|exact R'|].
  { destruct (a_unify (c_args c)) eqn:U; [right|left]; (split; [exact P'|]; split; [exact Q'|]; now split). }
  exists js, js'. split; [exact S1|]. split; [exact S2|].
  exact (json_adds k r (c_args c) (c_args (with_unused c f)) (project_separate _ _ _ _ P) eq_refl eq_refl eq_refl js js' L1 L2).
Qed.
