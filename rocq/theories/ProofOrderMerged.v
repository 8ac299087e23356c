(** * Two JSON reports on archives with --unify that differ in the order only *)
From Coq Require Import Ascii String List ZArith Lia Bool Permutation Sorted.
From Verif Require Import Base MemMap SpecTree SpecOps Filter SpecFilter Pipeline SpecPipe SpecBuild SpecBytes SpecShape SpecSyms PyStr MapFile SpecMap ProofBuild ProofBytes ProofBytes2 ProofBytes3
  ElfRead SpecElf Project SpecProject SpecEnd ProofEnd Chips SpecChips Deps Table SpecTable Formats Main SpecMain Command SpecCommand SpecFail SpecReport SpecSymbols ProofCommand1 ProofCommand2 ProofReport2 ProofReport5
  SpecAdds ProofAdds SpecSteps ProofSteps SpecCompare SpecMerge SpecMergeFiles SpecMergeSyms SpecCompareMerged ProofMerge2 ProofMerge3 ProofMerge4 ProofMerge5 ProofGroup2 ProofCompareMerged ProofCompareMerged2 ProofCompareMerged3
  SpecForm ProofForm SpecCompareUsage ProofCompareUsage ProofUnused ProofUnusedMerged SpecOrderOnly.
Import ListNotations.
Open Scope list_scope.
Open Scope Z_scope.

Lemma merged_entries_order k r a b rows rows' : sound k -> (forall q, r = Some q -> sound q) -> a_show_unused b = a_show_unused a -> a_diff b = a_diff a -> a_show_unchanged b = a_show_unchanged a ->
  mentries_right k r a rows -> mentries_right k r b rows' -> order_only rows rows'.
Proof.
  intros Sk Sr Eu Ed Ec M M'. pose proof (archives_named a a (differs a) (fun v => conj (fun H => H) (fun H => H)) eq_refl k r rows M) as R.
  pose proof (archives_named b b (differs b) (fun v => conj (fun H => H) (fun H => H)) eq_refl k r rows' M') as R'.
  assert (L : forall T, present k r (lists_type b T) <-> present k r (lists_type a T)) by (intros T; unfold present, lists_type, listed_type; rewrite Eu; reflexivity).
  split.
  { apply NoDup_Permutation; [apply M|apply M'|]. intros n. rewrite (proj1 R n), (proj1 R' n). split; intros (H & v & A & D); (split; [exact H|]); exists v; (split; [exact A|now apply (same_differs a b Ed Ec)]). }
  intros n e e' I I'. destruct M as (_ & _ & M), M' as (_ & _ & M'). specialize (M n e I). specialize (M' n e' I').
  split; [now rewrite (me_name _ _ _ _ _ M), (me_name _ _ _ _ _ M')|]. split; [|split].
  - intros c. rewrite (mhas _ _ _ _ _ _ M), (mhas _ _ _ _ _ _ M'). destruct c as [|T|T B]; cbn [mlisted]; [reflexivity|apply L|now rewrite L].
  - intros c. destruct (archives_dec n) as (q & Q). exact (measured_one _ k r _ _ (ProofCompareMerged.group_unique _ q Q c) (named_measured b k r rows' n e' c (or_intror R') Sk Sr I') (named_measured a k r rows n e c (or_intror R) Sk Sr I)).
  - apply NoDup_Permutation; [exact (me_types_once _ _ _ _ _ M)|exact (me_types_once _ _ _ _ _ M')|]. intros T. now rewrite (me_types _ _ _ _ _ M), (me_types _ _ _ _ _ M'), L.
Qed.
Lemma merged_order d c c' k r o o' fs fs' s s' render render' encode encode' ord ord' pf pf' :
  merged d c k r -> other_form c c' -> asked false (c_args c) -> (given (a_archive_details (c_args c)) = true -> a_use_dwarf (c_args c) <> Some true) -> a_format (c_args c) = FJson2 -> a_format (c_args c') = FJson2 ->
  run_files d (get_memory_types chip_info) render encode ord pf c o (start fs) = (Done tt, s) ->
  run_files d (get_memory_types chip_info) render' encode' ord' pf' c' o' (start fs') = (Done tt, s') ->
  exists rows rows', s_printed s = [PEntries rows] /\ s_printed s' = [PEntries rows'] /\ order_only rows rows'.
Proof.
  intros Rp Of As De Fo Fo' R R'. destruct (merged_sound _ _ _ _ Rp) as (Sk & Sr). pose proof Of as (E1 & E2 & E3 & E4 & E5 & E6 & E7 & E8 & E9 & E10).
  assert (Rp' : merged d c' k r).
  { destruct Rp as (P & Q & U & V). split; [rewrite E1; exact (project_form d c c' _ _ Of P)|]. split; [|split; congruence]. destruct r as [q|]; cbn [reference] in *; [|now rewrite E6]. destruct Q as (fn & X & Y). exists fn. rewrite E6. split; [exact X|exact (project_form d c c' _ _ Of Y)]. }
  assert (As' : asked false (c_args c')) by (unfold asked in *; congruence).
  assert (De' : given (a_archive_details (c_args c')) = true -> a_use_dwarf (c_args c') <> Some true) by (rewrite E4, E10; exact De).
  destruct (merged_json d c k r o fs s render encode ord pf Rp As De Fo R) as (rows & S1 & M1 & _).
  destruct (merged_json d c' k r o' fs' s' render' encode' ord' pf' Rp' As' De' Fo' R') as (rows' & S2 & M2 & _).
  exists rows, rows'. split; [exact S1|]. split; [exact S2|]. exact (merged_entries_order k r (c_args c) (c_args c') rows rows' Sk Sr E8 E6 E9 M1 M2).
Qed.
