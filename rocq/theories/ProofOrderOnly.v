(** * Two JSON reports that differ in the order only *)
From Coq Require Import Ascii String List ZArith Lia Bool Permutation Sorted.
From Verif Require Import Base MemMap SpecTree SpecOps Filter SpecFilter Pipeline SpecPipe SpecBuild SpecBytes SpecShape SpecSyms PyStr MapFile SpecMap ProofBuild ProofBytes ProofBytes2 ProofBytes3
  ElfRead SpecElf Project SpecProject SpecEnd ProofEnd Chips SpecChips Deps Table SpecTable Formats Main SpecMain Command SpecCommand SpecFail SpecReport SpecSymbols ProofCommand1 ProofCommand2 ProofCommand3 ProofReport2 ProofReport5 ProofReport6
  ProofSymbols1 ProofSymbols2 ProofSymbols3 ProofSymbols4 ProofSymbols5 SpecAdds ProofAdds SpecSteps ProofSteps SpecCompare ProofCompare ProofCompare2 ProofTiles SpecMoved ProofMoved SpecForm ProofForm ProofUnused ProofUnusedRows SpecOrderOnly.
Import ListNotations.
Open Scope list_scope.
Open Scope Z_scope.

Lemma entry_order k r a b own e e' : a_show_unused b = a_show_unused a -> sound k -> (forall q, r = Some q -> sound q) -> entry_right k r a own e -> entry_right k r b own e' ->
  (forall c, has_col e' c <-> has_col e c) /\ (forall c, col_value e' c = col_value e c) /\ Permutation (map fst (se_types e)) (map fst (se_types e')).
Proof.
  intros Eu Sk Sr Er Er'.
  assert (L : forall T, present k r (lists_type b T) <-> present k r (lists_type a T)) by (intros T; unfold present, lists_type, listed_type; rewrite Eu; reflexivity).
  assert (Lc : forall c, listed k r b c <-> listed k r a c) by (intros [|T|T N]; cbn [listed]; [reflexivity|apply L|now rewrite L]).
  split; [|split].
  - intros c. split; intros H; [apply (listed_has _ _ _ _ _ _ Er), Lc, (has_listed _ _ _ _ _ _ Er' H)|apply (listed_has _ _ _ _ _ _ Er'), Lc, (has_listed _ _ _ _ _ _ Er H)].
  - intros c. exact (measured_one _ k r _ _ (own_unique own c) (entry_measured k r b _ _ c Er' Sk Sr) (entry_measured k r a _ _ c Er Sk Sr)).
  - apply NoDup_Permutation; [exact (er_types_once _ _ _ _ _ Er)|exact (er_types_once _ _ _ _ _ Er')|]. intros T. now rewrite (er_types _ _ _ _ _ Er), (er_types _ _ _ _ _ Er'), L.
Qed.
Lemma entries_order files d c c' k r o o' fs fs' s s' render render' encode encode' ord ord' pf pf' :
  reported d c k r -> other_form c c' -> asked files (c_args c) -> (given (a_archive_details (c_args c)) = true -> a_use_dwarf (c_args c) <> Some true) ->
  tells_files files k r -> a_format (c_args c) = FJson2 -> a_format (c_args c') = FJson2 ->
  run_files d (get_memory_types chip_info) render encode ord pf c o (start fs) = (Done tt, s) ->
  run_files d (get_memory_types chip_info) render' encode' ord' pf' c' o' (start fs') = (Done tt, s') ->
  exists rows rows', s_printed s = [PEntries rows] /\ s_printed s' = [PEntries rows'] /\ order_only rows rows'.
Proof.
  intros Rp O As Dw Tf Fo Fo' R R'. pose proof (reported_form _ _ _ _ _ O Rp) as Rp'.
  assert (As' : asked files (c_args c')). { destruct O as (_ & A & _ & D & F & _). unfold asked in *. rewrite A, D, F. exact As. }
  assert (Dw' : given (a_archive_details (c_args c')) = true -> a_use_dwarf (c_args c') <> Some true). { destruct O as (_ & _ & _ & D & _ & _ & _ & _ & _ & W). rewrite D, W. exact Dw. }
  destruct (entries_json d c k r o files fs s render encode ord pf Rp As Dw Tf Fo R) as (rows & P & (Nd & Ks & Es) & _).
  destruct (entries_json d c' k r o' files fs' s' render' encode' ord' pf' Rp' As' Dw' Tf Fo' R') as (rows' & P' & (Nd' & Ks' & Es') & _).
  exists rows, rows'. split; [exact P|]. split; [exact P'|]. split.
  - apply NoDup_Permutation; [exact Nd|exact Nd'|]. intros n. rewrite Ks, Ks'. split; intros (i & v & A & B & C & D); exists i, v; (do 3 (split; [assumption|])); now apply (differs_form c c' v O).
  - intros n e e' I I'. destruct (Es _ _ I) as (i & Pi & Ei & Ab & Er). destruct (Es' _ _ I') as (j & Pj & Ej & Ab' & Er').
    assert (Tj : files = true -> ~ In ":"%char (it_object i) /\ ~ In ":"%char (it_object j)) by (intros F; split; now apply (Tf F)).
    assert (E : row_key files i = row_key files j) by congruence. rewrite <- (key_own files i j Tj E) in Er'. split.
    + rewrite <- (key_names files i j Tj E) in Ab'. exact (after_last_unique _ _ _ _ Ab' Ab).
    + apply (entry_order k r (c_args c) (c_args c') (row_own files i)); [apply O|exact (project_sound _ _ _ _ (proj1 Rp))| |exact Er|exact Er'].
      intros q ->. destruct Rp as (_ & (fn & _ & Q) & _). exact (project_sound _ _ _ _ Q).
Qed.
Lemma symbols_order x d c c' q r o o' fs fs' s s' render render' encode encode' ord ord' pf pf' :
  symbols_reported d c q r -> other_form c c' -> asked_symbols (c_args c) x -> tells_symbols q r -> a_format (c_args c) = FJson2 -> a_format (c_args c') = FJson2 ->
  run_files d (get_memory_types chip_info) render encode ord pf c o (start fs) = (Done tt, s) ->
  run_files d (get_memory_types chip_info) render' encode' ord' pf' c' o' (start fs') = (Done tt, s') ->
  exists rows rows', s_printed s = [PEntries rows] /\ s_printed s' = [PEntries rows'] /\ order_only rows rows'.
Proof.
  intros Rp O As Ts Fo Fo' R R'.
  assert (Rp' : symbols_reported d c' q r).
  { destruct Rp as (P & Rf & U & A). pose proof O as (I & _ & Ad & _ & _ & D & Un & S & _ & W).
    assert (Sp : forall fn z, symbols_project d (c_args c) fn z -> symbols_project d (c_args c') fn z) by (intros fn z; unfold symbols_project; rewrite S, W; trivial).
    split; [rewrite I; now apply Sp|]. split; [|now rewrite Un, Ad]. rewrite D. destruct r as [z|]; [|exact Rf]. destruct Rf as (fn & E & Q). exists fn. split; [exact E|now apply Sp]. }
  assert (As' : asked_symbols (c_args c') x). { destruct O as (_ & A & _ & D & _). unfold asked_symbols in *. rewrite A, D. exact As. }
  destruct (srun d c x render encode ord pf As c q r o fs s As Fo Rp Ts R) as (_ & _ & _ & Sk & Sr).
  destruct (symbols_json d c x q r o fs s render encode ord pf Rp As Ts Fo R) as (rows & P & _ & (Nd & Ks & Es) & _).
  destruct (symbols_json d c' x q r o' fs' s' render' encode' ord' pf' Rp' As' Ts Fo' R') as (rows' & P' & _ & (Nd' & Ks' & Es') & _).
  exists rows, rows'. split; [exact P|]. split; [exact P'|]. split.
  - apply NoDup_Permutation; [exact Nd|exact Nd'|]. intros n. rewrite Ks, Ks'. split; intros (i & v & A & B & C & D); exists i, v; (do 3 (split; [assumption|])); now apply (differs_form c c' v O).
  - intros n e e' I I'. destruct (Es _ _ I) as (i & Pi & Ei & Ab & Er). destruct (Es' _ _ I') as (j & Pj & Ej & Ab' & Er').
    assert (E : symbol_key i = symbol_key j) by congruence. destruct (same_symbol q r Ts i j (proj1 Pi) (proj1 Pj) E) as (A & B & C).
    assert (Ow : of_symbol j = of_symbol i) by (unfold of_symbol; now rewrite A, B, C). rewrite Ow in Er'. split; [congruence|].
    apply (entry_order q r (c_args c) (c_args c') (of_symbol i)); [apply O|exact Sk|exact Sr|exact Er|exact Er'].
Qed.
