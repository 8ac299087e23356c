(** * The report on archives with --unify, with and without unused memory types *)
From Coq Require Import Ascii String List ZArith Lia Bool Permutation Sorted.
From Verif Require Import Base MemMap SpecTree SpecOps Filter SpecFilter Pipeline SpecPipe SpecBuild SpecBytes SpecShape SpecSyms PyStr MapFile SpecMap ProofBuild ProofBytes ProofBytes2 ProofBytes3
  ElfRead SpecElf Project SpecProject SpecEnd ProofEnd Chips SpecChips Deps Table SpecTable Formats Main SpecMain Command SpecCommand SpecFail SpecReport SpecSymbols ProofCommand1 ProofCommand2 ProofReport2 ProofReport5
  SpecAdds ProofAdds SpecSteps ProofSteps SpecCompare SpecMerge SpecMergeFiles SpecMergeSyms SpecCompareMerged ProofMerge2 ProofMerge3 ProofMerge4 ProofMerge5 ProofGroup2 ProofCompareMerged ProofCompareMerged2 ProofCompareMerged3
  SpecForm SpecCompareUsage ProofCompareUsage SpecUnused ProofUnused SpecUnusedRows.
Import ListNotations.
Open Scope list_scope.
Open Scope Z_scope.

Definition mlisted (k : account) (r : option account) (a : args) (c : col) : Prop :=
  match c with ColTotal => True | ColType T => present k r (lists_type a T) | ColSect T B => present k r (lists_type a T) /\ present k r (lists_label T B) end.
Lemma mhas k r a x e c : mentry_right k r a x e -> has_col e c <-> mlisted k r a c.
Proof.
  intros [E1 E2 E3 E4 E5 E6 E7 E8 E9]. destruct c as [|T|T B]; cbn [has_col mlisted]; [reflexivity|apply E4|]. split.
  - intros (st & I & J). split; [apply E4; exact (List.in_map fst _ _ I)|now apply (E7 T st B I)].
  - intros (L & J). apply E4 in L. apply List.in_map_iff in L. destruct L as ((T0 & st) & E & I). cbn [fst] in E. subst T0. exists st. split; [exact I|]. now apply (E7 T st B I).
Qed.
Lemma label_type k r a T B : present k r (lists_label T B) -> present k r (lists_type a T).
Proof. unfold present. destruct r as [q|]; intros [(N & _ & H)|H]; [left|right; destruct H as (N & _ & H)|left|contradiction]; exact (sect_type a false T N _ H). Qed.
Lemma named_measured a k r rows n e c : nrows in_archive a any everything k r rows \/ nrows in_archive a any (differs a) k r rows -> sound k -> (forall q, r = Some q -> sound q) -> In (n, e) rows ->
  measured k r (group_bytes (in_archive n) c) (col_value e c).
Proof.
  intros R Sk Sr I. assert (R' : measured k r (group_bytes (in_archive n) c) (col_value e c) \/ (~ present k r (clisted a c) /\ col_value e c = (0, 0))) by (destruct R as [(_ & R)|(_ & R)]; exact (R n e c I Logic.I)).
  destruct R' as [M|(L & ->)]; [exact M|]. destruct (archives_dec n) as (q & Q).
  assert (Zero : forall k', sound k' -> ~ clisted a c k' -> group_bytes (in_archive n) c k' 0).
  { intros k' S0 N. destruct (ProofCompareMerged.group_value _ q Q c k') as (x & X). destruct (Z.eq_dec x 0) as [->|Z0]; [exact X|]. exfalso. apply N. exact (proj1 (ProofCompareMerged.group_nonzero _ q Q a c k' x S0 X Z0)). }
  split; [apply Zero; [exact Sk|intros C; apply L; now left]|]. destruct r as [r'|]; [|reflexivity]. exists 0. split; [|reflexivity]. apply Zero; [now apply Sr|intros C; apply L; now right].
Qed.
Lemma merged_add k r a b rows rows' : sound k -> (forall q, r = Some q -> sound q) -> a_show_unused b = true -> a_diff b = a_diff a -> a_show_unchanged b = a_show_unchanged a ->
  mentries_right k r a rows -> mentries_right k r b rows' -> adds_types rows rows'.
Proof.
  intros Sk Sr Sb Ed Ec M M'. pose proof (archives_named a a (differs a) (fun v => conj (fun H => H) (fun H => H)) eq_refl k r rows M) as R.
  pose proof (archives_named b b (differs b) (fun v => conj (fun H => H) (fun H => H)) eq_refl k r rows' M') as R'.
  split.
  { intros n. rewrite (proj1 R n), (proj1 R' n). split; intros (H & v & A & D); (split; [exact H|]); exists v; (split; [exact A|now apply (same_differs a b Ed Ec)]). }
  intros n e e' I I'. destruct M as (_ & _ & M), M' as (_ & _ & M'). specialize (M n e I). specialize (M' n e' I').
  assert (V : forall c, col_value e' c = col_value e c).
  { intros c. destruct (archives_dec n) as (q & Q). exact (measured_one _ k r _ _ (ProofCompareMerged.group_unique _ q Q c) (named_measured b k r rows' n e' c (or_intror R') Sk Sr I') (named_measured a k r rows n e c (or_intror R) Sk Sr I)). }
  split; [exact V|]. split.
  - intros c H. apply (mhas _ _ _ _ _ _ M) in H. apply (mhas _ _ _ _ _ _ M'). destruct c as [|X|X B]; cbn [mlisted] in *; [exact H|now apply (more_present k r a b Sb)|]. split; [now apply (more_present k r a b Sb)|tauto].
  - intros c H N. apply (mhas _ _ _ _ _ _ M') in H. rewrite (mhas _ _ _ _ _ _ M) in N. destruct c as [|X|X B]; cbn [mlisted] in *; [now elim N| |].
    + split; [now exists X|]. rewrite V. destruct (row_figures in_archive a k r n e (ColType X)) as [F|(_ & F)]; [exact (me_size _ _ _ _ _ M)|exact (me_types _ _ _ _ _ M)|exact (me_type _ _ _ _ _ M)|exact (me_sections _ _ _ _ _ M)|intros T st B z _; exact (me_section _ _ _ _ _ M T st B z)| |exact F].
      destruct (archives_dec n) as (q & Q).
      assert (Zero : forall k' x, sound k' -> ~ lists_type a X k' -> group_bytes (in_archive n) (ColType X) k' x -> x = 0).
      { intros k' x S0 L G. destruct (Z.eq_dec x 0) as [E|E]; [exact E|]. exfalso. apply L. exact (proj1 (ProofCompareMerged.group_nonzero _ q Q a (ColType X) k' x S0 G E)). }
      destruct F as (F1 & F2). destruct (col_value e (ColType X)) as (v1 & v2). cbn [fst snd] in *. assert (v1 = 0) as -> by (apply (Zero k v1 Sk); [intros L; apply N; now left|exact F1]). f_equal.
      destruct r as [r'|]; [|exact F2]. destruct F2 as (y & G & ->). rewrite (Zero r' y (Sr r' eq_refl)); [reflexivity|intros L; apply N; now right|exact G].
    + exfalso. apply N. destruct H as (_ & H). split; [exact (label_type k r a X B H)|exact H].
Qed.
Lemma unused_merged d c f k r o o' fs fs' s s' render encode ord pf :
  merged d c k r -> asked false (c_args c) -> (given (a_archive_details (c_args c)) = true -> a_use_dwarf (c_args c) <> Some true) -> a_format (c_args c) = FJson2 ->
  run_files d (get_memory_types chip_info) render encode ord pf c o (start fs) = (Done tt, s) ->
  run_files d (get_memory_types chip_info) render encode ord pf (with_unused c f) o' (start fs') = (Done tt, s') ->
  exists rows rows', s_printed s = [PEntries rows] /\ s_printed s' = [PEntries rows'] /\ adds_types rows rows'.
Proof.
  intros Rp As De Fo R R'. destruct (merged_sound _ _ _ _ Rp) as (Sk & Sr).
  assert (Rp' : merged d (with_unused c f) k r).
  { destruct Rp as (P & Q & V). split; [exact (unused_project d c f _ _ P)|]. split; [|exact V]. destruct r as [q|]; [|exact Q]. destruct Q as (fn & E & Q). exists fn. split; [exact E|exact (unused_project d c f _ _ Q)]. }
  destruct (merged_json d c k r o fs s render encode ord pf Rp As De Fo R) as (rows & S1 & E1 & _).
  destruct (merged_json d (with_unused c f) k r o' fs' s' render encode ord pf Rp' As De Fo R') as (rows' & S2 & E2 & _).
  exists rows, rows'. split; [exact S1|]. split; [exact S2|]. exact (merged_add k r (c_args c) (c_args (with_unused c f)) rows rows' Sk Sr eq_refl eq_refl eq_refl E1 E2).
Qed.
