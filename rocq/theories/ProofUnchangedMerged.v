(** * Comparisons of archives with --unify, with and without what has not changed *)
From Coq Require Import Ascii String List ZArith Lia Bool Permutation Sorted.
From Verif Require Import Base MemMap SpecTree SpecOps Filter SpecFilter Pipeline SpecPipe SpecBuild SpecBytes SpecShape SpecSyms PyStr MapFile SpecMap ProofBuild ProofBytes ProofBytes2 ProofBytes3
  ElfRead SpecElf Project SpecProject SpecEnd ProofEnd Chips SpecChips Deps Table SpecTable Formats Main SpecMain Command SpecCommand SpecFail SpecReport SpecSymbols ProofCommand1 ProofCommand2 ProofReport2 ProofReport5
  SpecAdds ProofAdds SpecSteps ProofSteps SpecCompare ProofCompare2 SpecMerge SpecMergeFiles SpecMergeSyms SpecCompareMerged ProofMerge2 ProofMerge3 ProofMerge4 ProofMerge5 ProofGroup2 ProofCompareMerged ProofCompareMerged2 ProofCompareMerged3
  SpecForm ProofForm SpecCompareUsage ProofCompareUsage ProofUnused ProofUnusedMerged SpecUnchanged ProofUnchanged.
Import ListNotations.
Open Scope list_scope.
Open Scope Z_scope.

Lemma merged_kept k r a b rows all : sound k -> (forall q, r = Some q -> sound q) -> a_show_unused b = a_show_unused a -> given (a_diff a) = true -> a_show_unchanged a = false -> a_show_unchanged b = true ->
  mentries_right k r a rows -> mentries_right k r b all -> rows_changed rows all.
Proof.
  intros Sk Sr Eu Ga Ca Cb M M'. pose proof (archives_named a a (differs a) (fun v => conj (fun H => H) (fun H => H)) eq_refl k r rows M) as R.
  pose proof (archives_named b b (differs b) (fun v => conj (fun H => H) (fun H => H)) eq_refl k r all M') as R'.
  assert (L : forall T, present k r (lists_type b T) <-> present k r (lists_type a T)) by (intros T; unfold present, lists_type, listed_type; rewrite Eu; reflexivity).
  assert (V : forall n e v, In (n, e) all -> measured k r (group_bytes (in_archive n) ColTotal) v -> (se_size e, se_diff e) = v).
  { intros n e v I A. destruct (archives_dec n) as (q & Q). exact (measured_one _ k r _ _ (ProofCompareMerged.group_unique _ q Q ColTotal) (named_measured b k r all n e ColTotal (or_intror R') Sk Sr I) A). }
  split.
  { intros n. rewrite (proj1 R n). split.
    - intros (H & v & A & D). assert (X : In n (map fst all)) by (apply (proj1 R' n); split; [exact H|]; exists v; split; [exact A|exact (all_differs b Cb v)]).
      apply List.in_map_iff in X. destruct X as ((n' & e) & E & I). cbn [fst] in E. subst n'. exists e. split; [exact I|]. pose proof (V n e v I A) as <-. exact (proj1 (changed_differs a Ga Ca _) D).
    - intros (e & I & D). assert (X : In n (map fst all)) by exact (List.in_map fst _ _ I). apply (proj1 R' n) in X. destruct X as (H & v & A & _). split; [exact H|]. exists v. split; [exact A|]. pose proof (V n e v I A) as <-. exact (proj2 (changed_differs a Ga Ca (se_size e, se_diff e)) D). }
  intros n e e' I I'. destruct M as (_ & _ & M), M' as (_ & _ & M'). specialize (M n e I). specialize (M' n e' I'). split; intros c.
  - rewrite (mhas _ _ _ _ _ _ M), (mhas _ _ _ _ _ _ M'). destruct c as [|T|T B]; cbn [mlisted]; [reflexivity|now rewrite L|now rewrite L].
  - destruct (archives_dec n) as (q & Q). exact (measured_one _ k r _ _ (ProofCompareMerged.group_unique _ q Q c) (named_measured a k r rows n e c (or_intror R) Sk Sr I) (named_measured b k r all n e' c (or_intror R') Sk Sr I')).
Qed.
Lemma unchanged_merged d c k r o o' fs fs' s s' render encode ord pf :
  merged d c k (Some r) -> asked false (c_args c) -> (given (a_archive_details (c_args c)) = true -> a_use_dwarf (c_args c) <> Some true) -> a_format (c_args c) = FJson2 ->
  run_files d (get_memory_types chip_info) render encode ord pf (with_unchanged c false) o (start fs) = (Done tt, s) ->
  run_files d (get_memory_types chip_info) render encode ord pf (with_unchanged c true) o' (start fs') = (Done tt, s') ->
  exists rows all, s_printed s = [PEntries rows] /\ s_printed s' = [PEntries all] /\ rows_changed rows all.
Proof.
  intros Rp As De Fo R R'. destruct (merged_sound _ _ _ _ Rp) as (Sk & Sr).
  destruct (merged_json d (with_unchanged c false) k (Some r) o fs s render encode ord pf Rp As De Fo R) as (rows & S1 & M1 & _).
  destruct (merged_json d (with_unchanged c true) k (Some r) o' fs' s' render encode ord pf Rp As De Fo R') as (all & S2 & M2 & _).
  exists rows, all. split; [exact S1|]. split; [exact S2|]. destruct Rp as (_ & (fn & Ef & P2) & _).
  refine (merged_kept k (Some r) (c_args (with_unchanged c false)) (c_args (with_unchanged c true)) rows all Sk Sr eq_refl _ eq_refl eq_refl M1 M2).
  cbn [with_unchanged c_args a_diff]. rewrite Ef. exact (project_given _ _ _ _ P2).
Qed.
