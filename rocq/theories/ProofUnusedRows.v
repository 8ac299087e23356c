(** * A report with and without unused memory types *)
From Coq Require Import Ascii String List ZArith Lia Bool Permutation Sorted.
From Verif Require Import Base MemMap SpecTree SpecOps Filter SpecFilter Pipeline SpecPipe SpecBuild SpecBytes SpecShape SpecSyms PyStr MapFile SpecMap ProofBuild ProofBytes ProofBytes2 ProofBytes3
  ElfRead SpecElf Project SpecProject SpecEnd ProofEnd Chips SpecChips Deps Table SpecTable Formats Main SpecMain Command SpecCommand SpecFail SpecReport SpecSymbols ProofCommand1 ProofCommand2 ProofReport2 ProofReport5 ProofReport6
  ProofSymbols1 ProofSymbols2 ProofSymbols3 ProofSymbols4 ProofSymbols5 SpecAdds ProofAdds SpecSteps ProofSteps SpecCompare ProofCompare ProofCompare2 ProofTiles SpecForm ProofForm SpecCompareUsage ProofCompareUsage SpecUnused ProofUnused SpecUnusedRows.
Import ListNotations.
Open Scope list_scope.
Open Scope Z_scope.

Lemma entry_measured k r a own e c : entry_right k r a own e -> sound k -> (forall q, r = Some q -> sound q) -> measured k r (own_bytes own c) (col_value e c).
Proof.
  intros Er Sk Sr. destruct (listed_dec _ _ _ _ _ c Er) as [L|L]; [exact (proj1 (row_value _ _ _ _ _ c Er) L)|]. rewrite (proj2 (row_value _ _ _ _ _ c Er) L).
  destruct (own_value own c k) as (x & Ox).
  assert (x = 0) as ->. { destruct (Z.eq_dec x 0) as [Z0|Z0]; [exact Z0|]. exfalso. apply L. destruct (own_nonzero _ _ _ _ a Sk Ox Z0) as (Lk & _). destruct c; cbn in *; [exact Logic.I|now left|split; left; tauto]. }
  split; [exact Ox|]. destruct r as [q|]; [|reflexivity]. destruct (own_value own c q) as (y & Oy).
  assert (y = 0) as ->. { destruct (Z.eq_dec y 0) as [Z0|Z0]; [exact Z0|]. exfalso. apply L. destruct (own_nonzero _ _ _ _ a (Sr q eq_refl) Oy Z0) as (Lk & _). destruct c; cbn in *; [exact Logic.I|now right|split; right; tauto]. }
  exists 0. now split.
Qed.
Lemma listed_has k r a own e c : entry_right k r a own e -> listed k r a c -> has_col e c.
Proof.
  intros [H1 H2 H3 H4 H5 H6 H7 H8]. destruct c as [|T|T N]; cbn [has_col listed]; [trivial|now rewrite H3|].
  intros (L & J). apply H3 in L. apply List.in_map_iff in L. destruct L as ((T0 & st) & E & I). cbn [fst] in E. subst T0. exists st. split; [exact I|]. now apply (H6 T st N I).
Qed.
Section Rows.
Variables (P : item -> Prop) (key : item -> str) (own : item -> item -> bool) (T : item -> Prop).
Hypothesis key_own : forall i j, T i -> T j -> key i = key j -> own i = own j.
Variables (k : account) (r : option account) (a b : args).
Hypothesis Sk : sound k.
Hypothesis Sr : forall q, r = Some q -> sound q.
Hypothesis Tk : forall i, present k r (places i) -> T i.
Hypothesis Sb : a_show_unused b = true.
Hypothesis Ed : a_diff b = a_diff a.
Hypothesis Ec : a_show_unchanged b = a_show_unchanged a.
Lemma rows_add rows rows' : rows_right P key own k r a rows -> rows_right P key own k r b rows' -> adds_types rows rows'.
Proof.
  intros (_ & Ks & Es) (_ & Ks' & Es'). split.
  { intros n. rewrite Ks, Ks'. split; intros (i & v & A & B & C & M & D); exists i, v; (do 4 (split; [assumption|])); now apply (same_differs a b Ed Ec). }
  intros n e e' I I'. destruct (Es _ _ I) as (i & _ & Pi & Ei & Er). destruct (Es' _ _ I') as (j & _ & Pj & Ej & Er').
  assert (Ow : own j = own i) by (apply key_own; [now apply Tk|now apply Tk|congruence]). rewrite Ow in Er'.
  assert (V : forall c, col_value e' c = col_value e c).
  { intros c. exact (measured_one _ k r _ _ (own_unique (own i) c) (entry_measured k r b _ _ c Er' Sk Sr) (entry_measured k r a _ _ c Er Sk Sr)). }
  split; [exact V|]. split.
  - intros c H. apply (has_listed _ _ _ _ _ _ Er) in H. apply (listed_has _ _ _ _ _ _ Er'). destruct c as [|X|X N]; cbn [listed] in *; [exact H|now apply (more_present k r a b Sb)|]. split; [now apply (more_present k r a b Sb)|tauto].
  - intros c H N. apply (has_listed _ _ _ _ _ _ Er') in H.
    assert (L : ~ listed k r a c) by (intros L; apply N; exact (listed_has _ _ _ _ _ _ Er L)). split; [|rewrite V; exact (proj2 (row_value _ _ _ _ _ c Er) L)].
    destruct c as [|X|X M]; cbn [listed] in *; [now elim L|now exists X|]. exfalso. apply L. destruct H as (_ & H). split; [|exact H].
    unfold present in *. destruct r as [q|]; destruct H as [H|H]; [left|right|left|contradiction]; exact (sect_type a false X M _ H).
Qed.
End Rows.

(** ** archives and object files *)
Lemma unused_reported d c f k r : reported d c k r -> reported d (with_unused c f) k r.
Proof.
  intros (P & Q & V). split; [exact (unused_project d c f _ _ P)|]. split; [|exact V]. destruct r as [q|]; [|exact Q]. destruct Q as (fn & E & Q). exists fn. split; [exact E|exact (unused_project d c f _ _ Q)].
Qed.
Lemma unused_entries files d c f k r o o' fs fs' s s' render encode ord pf :
  reported d c k r -> asked files (c_args c) -> (given (a_archive_details (c_args c)) = true -> a_use_dwarf (c_args c) <> Some true) -> tells_files files k r -> a_format (c_args c) = FJson2 ->
  run_files d (get_memory_types chip_info) render encode ord pf c o (start fs) = (Done tt, s) ->
  run_files d (get_memory_types chip_info) render encode ord pf (with_unused c f) o' (start fs') = (Done tt, s') ->
  exists rows rows', s_printed s = [PEntries rows] /\ s_printed s' = [PEntries rows'] /\ adds_types rows rows'.
Proof.
  intros Rp As Dw Tf Fo R R'. destruct (entries_json d c k r o files fs s render encode ord pf Rp As Dw Tf Fo R) as (rows & S1 & E1 & _).
  destruct (entries_json d (with_unused c f) k r o' files fs' s' render encode ord pf (unused_reported d c f k r Rp) As Dw Tf Fo R') as (rows' & S2 & E2 & _).
  exists rows, rows'. split; [exact S1|]. split; [exact S2|].
  refine (rows_add (fun _ => True) (row_key files) (row_own files) (ftold files) (key_own' files) k r (c_args c) (c_args (with_unused c f)) _ _ _ eq_refl eq_refl eq_refl rows rows' (entries_rows _ _ _ _ _ E1) (entries_rows _ _ _ _ _ E2)).
  - exact (project_sound _ _ _ _ (proj1 Rp)).
  - intros q ->. destruct Rp as (_ & (fn & _ & Q) & _). exact (project_sound _ _ _ _ Q).
  - intros i I F. now apply (Tf F).
Qed.

(** ** symbols *)
Lemma unused_symbols_project d c f fn q : symbols_project d (c_args c) fn q -> symbols_project d (c_args (with_unused c f)) fn q.
Proof. intros (dir & name & text & crt & k & ys & E & B & N & _ & Q). exists dir, name, text, crt, k, ys. split; [exact E|]. split; [exact B|]. split; [exact N|]. split; [now left|exact Q]. Qed.
Lemma unused_symbols x d c f q r o o' fs fs' s s' render encode ord pf :
  symbols_reported d c q r -> asked_symbols (c_args c) x -> tells_symbols q r -> a_format (c_args c) = FJson2 ->
  run_files d (get_memory_types chip_info) render encode ord pf c o (start fs) = (Done tt, s) ->
  run_files d (get_memory_types chip_info) render encode ord pf (with_unused c f) o' (start fs') = (Done tt, s') ->
  exists rows rows', s_printed s = [PEntries rows] /\ s_printed s' = [PEntries rows'] /\ adds_types rows rows'.
Proof.
  intros Rp As T Fo R R'.
  assert (Rp' : symbols_reported d (with_unused c f) q r).
  { destruct Rp as (P & Q & V). split; [exact (unused_symbols_project d c f _ _ P)|]. split; [|exact V]. destruct r as [q'|]; [|exact Q]. destruct Q as (fn & E & Q). exists fn. split; [exact E|exact (unused_symbols_project d c f _ _ Q)]. }
  destruct (srun d c x render encode ord pf As c q r o fs s As Fo Rp T R) as (rows & S1 & E1 & Sk & Sr).
  destruct (srun d c x render encode ord pf As (with_unused c f) q r o' fs' s' As Fo Rp' T R') as (rows' & S2 & E2 & _).
  exists rows, rows'. split; [exact S1|]. split; [exact S2|].
  exact (rows_add (of_archives x) symbol_key of_symbol stold skey_own q r (c_args c) (c_args (with_unused c f)) Sk Sr T eq_refl eq_refl eq_refl rows rows' E1 E2).
Qed.
