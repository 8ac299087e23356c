(** * Two JSON summaries that differ in the order only *)
From Coq Require Import Ascii String List ZArith Lia Bool Permutation Sorted.
From Verif Require Import Base MemMap SpecTree SpecOps Filter SpecFilter Pipeline SpecPipe SpecBuild SpecBytes SpecShape PyStr MapFile SpecMap
  ElfRead SpecElf Project SpecProject SpecEnd Chips SpecChips ProofChips Deps Table SpecTable Formats Main SpecMain Command SpecCommand SpecFail SpecReport
  SpecAdds ProofAdds SpecSteps ProofSteps SpecCompare SpecMerge SpecLayout ProofLayout SpecCompareUsage ProofCompareUsage ProofCompareUsage2 SpecForm ProofForm SpecSumForm ProofSumForm SpecSizes ProofSizes SpecJsonDiff ProofJsonDiff SpecUnused ProofUnused SpecLayoutOrder.
Import ListNotations.
Open Scope list_scope.
Open Scope Z_scope.

Section Order.
Variables (k : account) (r : option account) (a b : args).
Hypothesis Ws : windows_separate (ac_types k).
Hypothesis Es : a_show_unused b = a_show_unused a.
Hypothesis Eu : a_unify b = a_unify a.
Hypothesis En : a_no_abbrev b = a_no_abbrev a.
Hypothesis Ef : a_use_flash_size b = a_use_flash_size a.
Lemma layouts_order js js' : layout_right k r a js -> layout_right k r b js' -> layout_order a js js'.
Proof.
  intros R R'. assert (Lt : forall T q, lists_type b T q <-> lists_type a T q) by (intros T q; unfold lists_type, listed_type; rewrite Es; reflexivity).
  split.
  { apply NoDup_Permutation; [exact (lr_once _ _ _ _ R)|exact (lr_once _ _ _ _ R')|]. intros T. rewrite (lr_types _ _ _ _ R), (lr_types _ _ _ _ R'). unfold present. destruct r; rewrite !Lt; reflexivity. }
  intros j j' I I' E. pose proof (lr_type _ _ _ _ R) as F. pose proof (lr_type _ _ _ _ R') as F'. rewrite Forall_forall in F, F'. destruct (F j I) as [U T Fr O _ _ _], (F' j' I') as [U' T' Fr' O' _ _ _]. rewrite E in U', T'.
  assert (Ud : j_used j' = j_used j) by exact (used_unique _ _ _ _ U' U).
  assert (Td : j_total j' = j_total j) by exact (total_unique b a _ k _ _ Ws Ef (Lt _ _) T' T).
  split; [exact Ud|]. split; [exact Td|]. split; [now rewrite Fr, Fr', Ud, Td|].
  assert (Names : forall n, In n (map fst (j_parts j)) <-> In n (map fst (j_parts j'))).
  { intros n. rewrite (kl_names k r a b js' R' Eu j' n I'), (kl_names k r a a js R eq_refl j n I), E. split; intros (N & P & Jn); exists N; (split; [exact P|now apply (names_own a b Eu En)]). }
  split; [now apply NoDup_Permutation|]. intros Own.
  assert (Fig : forall n z z', In (n, z) (j_parts j) -> In (n, z') (j_parts j') -> z' = z).
  { intros n z z' A B. destruct (kl_figure k r a a js R eq_refl j n z I A) as (N & _ & Jn & S). destruct (kl_figure k r a b js' R' Eu j' n z' I' B) as (N' & _ & Jn' & S'). apply (names_own a b Eu En) in Jn'.
    rewrite (one_name a N N' n Own Jn Jn') in S. rewrite E in S'. exact (sect_unique _ _ _ _ _ _ S' S). }
  apply NoDup_Permutation; [exact (NoDup_map_inv _ _ O)|exact (NoDup_map_inv _ _ O')|]. intros (n & z). split; intros A.
  - pose proof (proj1 (Names n) (List.in_map fst _ _ A)) as B. apply List.in_map_iff in B. destruct B as ((n' & z') & En' & B). cbn [fst] in En'. subst n'. now rewrite <- (Fig n z z' A B).
  - pose proof (proj2 (Names n) (List.in_map fst _ _ A)) as B. apply List.in_map_iff in B. destruct B as ((n' & z') & En' & B). cbn [fst] in En'. subst n'. now rewrite (Fig n z' z B A).
Qed.
End Order.
Lemma json_order d c c' k r o o' fs fs' s s' render render' encode encode' ord ord' pf pf' :
  summarised d c k r -> other_order c c' -> of_types (c_args c) -> a_format (c_args c) = FJson2 -> a_format (c_args c') = FJson2 ->
  run_files d (get_memory_types chip_info) render encode ord pf c o (start fs) = (Done tt, s) ->
  run_files d (get_memory_types chip_info) render' encode' ord' pf' c' o' (start fs') = (Done tt, s') ->
  exists js js', s_printed s = [PJson js] /\ s_printed s' = [PJson js'] /\ layout_order (c_args c) js js'.
Proof.
  intros (P & Q & D) (Of & En & Ef) Ty Fo Fj R R'. pose proof Of as (E1 & E2 & E3 & E4 & E5 & E6 & E7 & E8 & E9 & E10).
  assert (P' : project_at d (c_args c') (c_input c') k) by (rewrite E1; exact (project_form d c c' _ _ Of P)).
  assert (Q' : reference d (c_args c') r). { destruct r as [q|]; cbn [reference] in *; [|now rewrite E6]. destruct Q as (fn & X & Y). exists fn. rewrite E6. split; [exact X|exact (project_form d c c' _ _ Of Y)]. }
  assert (D' : a_archive_dependencies (c_args c') = false) by congruence.
  destruct (layout_printed d c k r o fs s render encode ord pf) as (js & S1 & L1); [|exact Ty|exact Fo|exact R|].
  { destruct (a_unify (c_args c)) eqn:U; [right|left]; (split; [exact P|]; split; [exact Q|]; now split). }
  destruct (layout_printed d c' k r o' fs' s' render' encode' ord' pf') as (js' & S2 & L2); [|destruct Ty as (T1 & T2 & T3 & T4); repeat split; congruence|exact Fj|exact R'|].
  { destruct (a_unify (c_args c')) eqn:U; [right|left]; (split; [exact P'|]; split; [exact Q'|]; now split). }
  exists js, js'. split; [exact S1|]. split; [exact S2|]. exact (layouts_order k r (c_args c) (c_args c') (project_separate _ _ _ _ P) E8 E7 En Ef js js' L1 L2).
Qed.
