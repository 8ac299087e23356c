(** * Two summaries that differ in the order only *)
From Coq Require Import Ascii String List ZArith Lia Bool Permutation Sorted.
From Verif Require Import Base MemMap SpecTree SpecOps Filter SpecFilter Pipeline SpecPipe SpecBuild SpecBytes SpecShape PyStr MapFile SpecMap
  ElfRead SpecElf Project SpecProject SpecEnd Chips SpecChips ProofChips Deps Table SpecTable Formats Main SpecMain Command SpecCommand SpecFail SpecReport
  SpecAdds ProofAdds SpecSteps ProofSteps SpecCompare SpecMerge SpecCompareUsage ProofCompareUsage ProofCompareUsage2 SpecForm ProofForm SpecSizes ProofSizes SpecUnused ProofUnused SpecUsageOrder.
Import ListNotations.
Open Scope list_scope.
Open Scope Z_scope.

Section Order.
Variables (k : account) (r : option account) (a b : args).
Hypothesis Ws : windows_separate (ac_types k).
Hypothesis Wr : forall q, r = Some q -> windows_separate (ac_types q).
Hypothesis Es : a_show_unused b = a_show_unused a.
Hypothesis Ed : a_diff b = a_diff a.
Hypothesis Ec : a_show_unchanged b = a_show_unchanged a.
Hypothesis Ef : a_use_flash_size b = a_use_flash_size a.
Lemma groups_order u gs gs' : groups_right u k r a gs -> groups_right u k r b gs' -> totals_right k r a gs -> totals_right k r b gs' -> usage_order gs gs'.
Proof.
  intros R R' Tr Tr'. assert (Lt : forall T q, lists_type b T q <-> lists_type a T q) by (intros T q; unfold lists_type, listed_type; rewrite Es; reflexivity).
  assert (Df : forall v, differs b v <-> differs a v) by exact (same_differs a b Ed Ec). split.
  { destruct R as (N & K & _), R' as (N' & K' & _). apply NoDup_Permutation; [exact N|exact N'|]. intros T. rewrite K, K'.
    assert (Lp : present k r (lists_type b T) <-> present k r (lists_type a T)) by (unfold present; destruct r; rewrite !Lt; reflexivity). rewrite Lp. split; intros (L & v & M & D); (split; [exact L|]); exists v; (split; [exact M|now apply Df]). }
  intros g g' I I' E. destruct (group_is _ _ _ _ _ R g I) as (U & O & S). destruct (group_is _ _ _ _ _ R' g' I') as (U' & O' & S'). rewrite E in U', S'.
  unfold totals_right in Tr, Tr'. rewrite Forall_forall in Tr, Tr'. destruct (Tr g I) as (A & B), (Tr' g' I') as (A' & B'). rewrite E in A', B'.
  assert (Et : fst (pg_total g') = fst (pg_total g)) by exact (total_unique b a _ k _ _ Ws Ef (Lt _ _) A' A).
  split; [exact (measured_one _ k r _ _ (used_unique (pg_type g)) U' U)|]. split; [exact Et|]. split.
  - intros Nz. destruct (B (or_introl Nz)) as (_ & Q). rewrite <- Et in Nz. destruct (B' (or_introl Nz)) as (_ & Q'). destruct (pg_total g) as (t1 & t2), (pg_total g') as (u1 & u2). cbn [fst snd] in *. subst u1. f_equal.
    destruct r as [q|]; [|congruence]. destruct Q as (n & N1 & ->), Q' as (n' & N2 & ->). now rewrite (total_unique b a _ q _ _ (Wr q eq_refl) Ef (Lt _ _) N2 N1).
  - apply NoDup_Permutation; [exact (NoDup_map_inv _ _ O)|exact (NoDup_map_inv _ _ O')|]. intros (N & v). rewrite S, S', Df. reflexivity.
Qed.
End Order.
Lemma summary_order d c c' k r o o' fs fs' s s' render render' encode encode' ord ord' pf pf' :
  summarised d c k r -> other_form c c' -> a_use_flash_size (c_args c') = a_use_flash_size (c_args c) -> of_types (c_args c) ->
  a_format (c_args c) = FTable \/ a_format (c_args c) = FText \/ a_format (c_args c) = FCsv -> a_format (c_args c') = FTable \/ a_format (c_args c') = FText \/ a_format (c_args c') = FCsv ->
  run_files d (get_memory_types chip_info) render encode ord pf c o (start fs) = (Done tt, s) ->
  run_files d (get_memory_types chip_info) render' encode' ord' pf' c' o' (start fs') = (Done tt, s') ->
  exists gs gs', shows_usage (c_args c) s gs /\ shows_usage (c_args c') s' gs' /\ usage_order gs gs'.
Proof.
  intros Su Of Ef Ty Fo Fo' R R'. pose proof Su as (P & Q & D). pose proof Of as (E1 & E2 & E3 & E4 & E5 & E6 & E7 & E8 & E9 & E10).
  assert (Su' : summarised d c' k r).
  { split; [rewrite E1; exact (project_form d c c' _ _ Of P)|]. split; [|congruence]. destruct r as [q|]; cbn [reference] in *; [|now rewrite E6]. destruct Q as (fn & X & Y). exists fn. rewrite E6. split; [exact X|exact (project_form d c c' _ _ Of Y)]. }
  destruct (sizes_shown d c k r o fs s render encode ord pf Su Ty Fo R) as (gs & S1 & G & T).
  destruct (sizes_shown d c' k r o' fs' s' render' encode' ord' pf' Su') as (gs' & S2 & G' & T'); [destruct Ty as (T1 & T2 & T3 & T4); repeat split; congruence|exact Fo'|exact R'|].
  rewrite E7 in G'. exists gs, gs'. split; [exact S1|]. split; [exact S2|].
  refine (groups_order k r (c_args c) (c_args c') (project_separate _ _ _ _ P) _ E8 E6 E9 Ef (a_unify (c_args c)) gs gs' G G' T T').
  intros q ->. destruct Q as (fn & _ & Q). exact (project_separate _ _ _ _ Q).
Qed.
