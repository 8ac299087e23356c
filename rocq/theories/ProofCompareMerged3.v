(** * Comparisons with --unify: archives, object files and symbols *)
From Coq Require Import Ascii String List ZArith Lia Bool Permutation Sorted.
From Verif Require Import Base MemMap SpecTree SpecOps Filter SpecFilter Pipeline SpecPipe SpecBuild SpecBytes SpecShape SpecSyms PyStr MapFile SpecMap ProofBuild ProofBytes ProofBytes2 ProofBytes3
  ElfRead SpecElf Project SpecProject SpecEnd ProofEnd Chips SpecChips Deps Table SpecTable Formats Main SpecMain Command SpecCommand SpecFail SpecReport SpecSymbols ProofCommand1 ProofCommand2 ProofReport2 ProofReport5 ProofSymbols1 ProofSymbols2 ProofSymbols3 ProofSymbols4
  SpecAdds ProofAdds SpecSteps ProofSteps SpecCompare ProofCompare2 SpecMerge SpecMergeFiles SpecMergeSyms SpecCompareMerged ProofMerge2 ProofMerge4 ProofMerge5 ProofMergeFiles4 ProofMergeSyms4 ProofGroup2 ProofCompareMerged ProofCompareMerged2.
Import ListNotations.
Open Scope list_scope.
Open Scope Z_scope.

Section Merged.
Variables (d : disk) (c : cmd).
Lemma merged_alone x y k r : merged d (comparing c x y) k (Some r) -> merged d (reporting c x) k None /\ merged d (reporting c y) r None.
Proof. intros (P & (fn & E & Q) & U & V). injection E as <-. split; (split; [assumption|split; [reflexivity|now split]]). Qed.
Lemma merged_turned x y k r : merged d (comparing c x y) k (Some r) -> merged d (comparing c y x) r (Some k).
Proof. intros (P & (fn & E & Q) & U & V). injection E as <-. split; [exact Q|]. split; [exists x; split; [reflexivity|exact P]|now split]. Qed.
Lemma merged_given x y k r : merged d (comparing c x y) k (Some r) -> given (Some y) = true.
Proof. intros (P & (fn & E & Q) & U & V). injection E as <-. exact (project_given _ _ _ _ Q). Qed.
Lemma merged_steps x y z k1 k2 k3 : merged d (comparing c x y) k1 (Some k2) -> merged d (comparing c y z) k2 (Some k3) -> merged d (comparing c x z) k1 (Some k3).
Proof. intros (P & _ & U & V) (_ & (fn & E & Q) & _). injection E as <-. split; [exact P|]. split; [exists z; split; [reflexivity|exact Q]|now split]. Qed.
Lemma merged_sound c' k r : merged d c' k r -> sound k /\ (forall r', r = Some r' -> sound r').
Proof. intros (P & Q & _). split; [exact (project_sound _ _ _ _ P)|]. intros r' ->. destruct Q as (fn & _ & Q). exact (project_sound _ _ _ _ Q). Qed.
Lemma smerged_alone x y k r : symbols_merged d (comparing c x y) k (Some r) -> symbols_merged d (reporting c x) k None /\ symbols_merged d (reporting c y) r None.
Proof. intros (P & (fn & E & Q) & U & V). injection E as <-. split; (split; [assumption|split; [reflexivity|now split]]). Qed.
Lemma smerged_turned x y k r : symbols_merged d (comparing c x y) k (Some r) -> symbols_merged d (comparing c y x) r (Some k).
Proof. intros (P & (fn & E & Q) & U & V). injection E as <-. split; [exact Q|]. split; [exists x; split; [reflexivity|exact P]|now split]. Qed.
Lemma smerged_given x y k r : symbols_merged d (comparing c x y) k (Some r) -> given (Some y) = true.
Proof. intros (P & (fn & E & Q) & U & V). injection E as <-. exact (sgiven _ _ _ _ Q). Qed.
Lemma smerged_steps x y z k1 k2 k3 : symbols_merged d (comparing c x y) k1 (Some k2) -> symbols_merged d (comparing c y z) k2 (Some k3) -> symbols_merged d (comparing c x z) k1 (Some k3).
Proof. intros (P & _ & U & V) (_ & (fn & E & Q) & _). injection E as <-. split; [exact P|]. split; [exists z; split; [reflexivity|exact Q]|now split]. Qed.
End Merged.
Lemma symbols_merged_sound d c render encode ord pf x q r o fs s : symbols_merged d c q r -> asked_symbols (c_args c) x ->
  run_files d (get_memory_types chip_info) render encode ord pf c o (start fs) = (Done tt, s) -> sound q /\ (forall q', r = Some q' -> sound q').
Proof.
  intros (Pk & Rr & Au & Ad) (_ & Dt & Nx) R. apply command_merged in R; [|exact Au|exact Ad]. destruct R as (m & e & M & s1 & s2 & G & _ & _ & D & _).
  assert (Lo : load_symbols (c_args c) = true). { unfold load_symbols. rewrite Dt. destruct x; [contradiction|reflexivity]. }
  rewrite Lo in G. destruct Pk as (dir & name & text & crt & k & ys & Ci & Bt & Nd & Fi & Sy & Cs & ->). rewrite Ci in G. destruct k as [rs l im types]. cbn [ac_rs ac_l ac_im ac_types] in *.
  split; [exact (symbols_at_sound _ _ _ _ _ _ _ _ _ _ _ _ Bt G (no_dwarf_option _ _ _ Nd) Sy Cs)|]. intros q' ->.
  destruct Rr as (fn & Ef & dir' & name' & text' & crt' & k' & ys' & En & Bt' & Nd' & Fi' & Sy' & Cs' & ->). destruct D as [(D & _)|(fn' & r0 & D & _ & G2 & _)].
  { exfalso. rewrite Ef in D. destruct fn; [|discriminate D]. pose proof (bt_name _ _ _ _ _ _ _ _ _ Bt') as Pn. destruct Pn as (Pn & _). symmetry in En. now apply (in_dir_some dir' name') in En. }
  rewrite D in Ef. injection Ef as ->. rewrite Lo, En in G2. destruct k' as [rs' l' im' types']. cbn [ac_rs ac_l ac_im ac_types] in *.
  exact (symbols_at_sound _ _ _ _ _ _ _ _ _ _ _ _ Bt' G2 (no_dwarf_option _ _ _ Nd') Sy' Cs').
Qed.
Lemma narrow_archive k r y : one_archive k (Some r) y -> one_archive k None y /\ one_archive r None y /\ one_archive r (Some k) y.
Proof. intros (x & H). repeat split; exists x; intros i; specialize (H i); unfold present in *; tauto. Qed.
Lemma narrow_file k r x y : one_file k (Some r) x y -> one_file k None x y /\ one_file r None x y /\ one_file r (Some k) x y.
Proof. intros (z & H). repeat split; exists z; intros i; specialize (H i); unfold present in *; tauto. Qed.

Section Kinds.
Variables (d : disk) (c : cmd) (render : console -> list piece -> str) (encode : str -> str) (ord : set_order) (pf : pct_format).
Hypothesis Fo : a_format (c_args c) = FJson2.
Local Notation runs c' o fs s := (run_files d (get_memory_types chip_info) render encode ord pf c' o (start fs) = (Done tt, s)).
(** ** archives *)
Section Archives.
Hypothesis As : asked false (c_args c).
Hypothesis De : given (a_archive_details (c_args c)) = true -> a_use_dwarf (c_args c) <> Some true.
Lemma archives_rep c' k r o fs s : variant c c' -> merged d c' k r -> True -> runs c' o fs s ->
  sound k /\ (forall r', r = Some r' -> sound r') /\ exists rows, s_printed s = [PEntries rows] /\ forall df : Z * Z -> Prop, (forall v, df v <-> differs (c_args c') v) -> nrows in_archive (c_args c) any df k r rows.
Proof.
  intros V Rp _ R. destruct (merged_sound _ _ _ _ Rp) as (Sk & Sr). split; [exact Sk|]. split; [exact Sr|].
  destruct (merged_json d c' k r o fs s render encode ord pf Rp) with (4 := R) as (rows & P & E & _); [destruct V as [(x & ->)|(x & y & ->)]; exact As|destruct V as [(x & ->)|(x & y & ->)]; exact De|destruct V as [(x & ->)|(x & y & ->)]; exact Fo|].
  exists rows. split; [exact P|]. intros df Df. apply (archives_named (c_args c')); [exact Df|destruct V as [(x & ->)|(x & y & ->)]; reflexivity|exact E].
Qed.
Lemma archives_compared x y k r o o' o2 fs fs' fs2 s s' s2 : merged d (comparing c x y) k (Some r) ->
  runs (reporting c x) o fs s -> runs (reporting c y) o' fs' s' -> runs (comparing c x y) o2 fs2 s2 ->
  exists new old both, s_printed s = [PEntries new] /\ s_printed s' = [PEntries old] /\ s_printed s2 = [PEntries both] /\ compares (c_args c) new old both.
Proof.
  intros Rp R R' R2. destruct (named_compared d c render encode ord pf in_archive any (merged d) (fun _ _ => True) archives_dec (fun _ => Logic.I) archives_rep (merged_alone d c) (merged_given d c)
    x y k r o o' o2 fs fs' fs2 s s' s2 Rp Logic.I Logic.I Logic.I R R' R2) as (new & old & both & Q1 & Q2 & Q3 & C1 & C2). exists new, old, both. do 3 (split; [assumption|]).
  split; [exact C1|]. intros n e c0 v w. apply C2. exact Logic.I.
Qed.
Lemma archives_turned x y k r o o' fs fs' s s' : merged d (comparing c x y) k (Some r) -> runs (comparing c x y) o fs s -> runs (comparing c y x) o' fs' s' ->
  exists rows rows', s_printed s = [PEntries rows] /\ s_printed s' = [PEntries rows'] /\ turned rows rows'.
Proof.
  intros Rp R R'. destruct (named_turned d c render encode ord pf in_archive any (merged d) (fun _ _ => True) archives_dec archives_rep (merged_turned d c) (merged_given d c)
    x y k r o o' fs fs' s s' Rp Logic.I Logic.I R R') as (rows & rows' & Q1 & Q2 & C1 & C2). exists rows, rows'. do 2 (split; [assumption|]).
  split; [exact C1|]. intros n c0 v w. apply C2. exact Logic.I.
Qed.
Lemma archives_steps x y z k1 k2 k3 o o' o2 fs fs' fs2 s s' s2 : merged d (comparing c x y) k1 (Some k2) -> merged d (comparing c y z) k2 (Some k3) ->
  runs (comparing c x y) o fs s -> runs (comparing c y z) o' fs' s' -> runs (comparing c x z) o2 fs2 s2 ->
  exists rows rows' all, s_printed s = [PEntries rows] /\ s_printed s' = [PEntries rows'] /\ s_printed s2 = [PEntries all] /\ steps (c_args c) rows rows' all.
Proof.
  intros Rp Rp' R R' R2. destruct (named_steps d c render encode ord pf in_archive any (merged d) (fun _ _ => True) archives_dec archives_rep (merged_given d c) (merged_steps d c)
    x y z k1 k2 k3 o o' o2 fs fs' fs2 s s' s2 Rp Rp' Logic.I Logic.I Logic.I R R' R2) as (rows & rows' & all & Q1 & Q2 & Q3 & C). exists rows, rows', all. do 3 (split; [assumption|]).
  intros n c0 v v' w. apply C. exact Logic.I.
Qed.
End Archives.
(** ** object files *)
Section Files.
Hypothesis As : asked true (c_args c).
Lemma files_rep (good : str -> col -> Prop) c' k r o fs s : variant c c' -> merged d c' k r -> (forall n c, good n c -> of_section c -> one_archive k r n) -> runs c' o fs s ->
  sound k /\ (forall r', r = Some r' -> sound r') /\ exists rows, s_printed s = [PEntries rows] /\ forall df : Z * Z -> Prop, (forall v, df v <-> differs (c_args c') v) -> nrows in_file (c_args c) good df k r rows.
Proof.
  intros V Rp G R. destruct (merged_sound _ _ _ _ Rp) as (Sk & Sr). split; [exact Sk|]. split; [exact Sr|].
  destruct (merged_files_json d c' k r o fs s render encode ord pf Rp) with (3 := R) as (rows & P & E & _); [destruct V as [(x & ->)|(x & y & ->)]; exact As|destruct V as [(x & ->)|(x & y & ->)]; exact Fo|].
  exists rows. split; [exact P|]. intros df Df. apply (files_named (c_args c')); [exact Df|destruct V as [(x & ->)|(x & y & ->)]; reflexivity|exact G|exact E].
Qed.
Lemma files_compared x y k r o o' o2 fs fs' fs2 s s' s2 : merged d (comparing c x y) k (Some r) ->
  runs (reporting c x) o fs s -> runs (reporting c y) o' fs' s' -> runs (comparing c x y) o2 fs2 s2 ->
  exists new old both, s_printed s = [PEntries new] /\ s_printed s' = [PEntries old] /\ s_printed s2 = [PEntries both] /\ compares_in (files_good k r) (c_args c) new old both.
Proof.
  intros Rp R R' R2. refine (named_compared d c render encode ord pf in_file (files_good k r) (merged d) _ files_dec (fun n => False_ind _) (files_rep (files_good k r)) (merged_alone d c) (merged_given d c)
    x y k r o o' o2 fs fs' fs2 s s' s2 Rp _ _ _ R R' R2); intros n c0 G S0; specialize (G S0); [exact G| |]; now apply narrow_archive in G.
Qed.
Lemma files_turned x y k r o o' fs fs' s s' : merged d (comparing c x y) k (Some r) -> runs (comparing c x y) o fs s -> runs (comparing c y x) o' fs' s' ->
  exists rows rows', s_printed s = [PEntries rows] /\ s_printed s' = [PEntries rows'] /\ turned_in (files_good k r) rows rows'.
Proof.
  intros Rp R R'. refine (named_turned d c render encode ord pf in_file (files_good k r) (merged d) _ files_dec (files_rep (files_good k r)) (merged_turned d c) (merged_given d c)
    x y k r o o' fs fs' s s' Rp _ _ R R'); intros n c0 G S0; specialize (G S0); [exact G|]. now apply narrow_archive in G.
Qed.
Lemma files_steps x y z k1 k2 k3 o o' o2 fs fs' fs2 s s' s2 : merged d (comparing c x y) k1 (Some k2) -> merged d (comparing c y z) k2 (Some k3) ->
  runs (comparing c x y) o fs s -> runs (comparing c y z) o' fs' s' -> runs (comparing c x z) o2 fs2 s2 ->
  exists rows rows' all, s_printed s = [PEntries rows] /\ s_printed s' = [PEntries rows'] /\ s_printed s2 = [PEntries all] /\
    steps_in (fun n c => files_good k1 k2 n c /\ files_good k2 k3 n c /\ files_good k1 k3 n c) (c_args c) rows rows' all.
Proof.
  intros Rp Rp' R R' R2. refine (named_steps d c render encode ord pf in_file _ (merged d) _ files_dec (files_rep _) (merged_given d c) (merged_steps d c)
    x y z k1 k2 k3 o o' o2 fs fs' fs2 s s' s2 Rp Rp' _ _ _ R R' R2); intros n c0 (G1 & G2 & G3) S0; [exact (G1 S0)|exact (G2 S0)|exact (G3 S0)].
Qed.
End Files.
(** ** symbols *)
Section Symbols.
Variable a : str.
Hypothesis As : asked_symbols (c_args c) a.
Lemma symbols_rep (good : str -> col -> Prop) c' k r o fs s : variant c c' -> symbols_merged d c' k r -> (forall n c, good n c -> of_section c -> one_file k r a n) -> runs c' o fs s ->
  sound k /\ (forall r', r = Some r' -> sound r') /\ exists rows, s_printed s = [PEntries rows] /\ forall df : Z * Z -> Prop, (forall v, df v <-> differs (c_args c') v) -> nrows (named a) (c_args c) good df k r rows.
Proof.
  intros V Rp G R. assert (As' : asked_symbols (c_args c') a) by (destruct V as [(x & ->)|(x & y & ->)]; exact As).
  destruct (symbols_merged_sound _ _ _ _ _ _ _ _ _ _ _ _ Rp As' R) as (Sk & Sr). split; [exact Sk|]. split; [exact Sr|].
  destruct (merged_symbols_json d c' a k r o fs s render encode ord pf Rp As') with (2 := R) as (_ & rows & P & E & _); [destruct V as [(x & ->)|(x & y & ->)]; exact Fo|].
  exists rows. split; [exact P|]. intros df Df. apply (symbols_named (c_args c')); [exact Df|destruct V as [(x & ->)|(x & y & ->)]; reflexivity|exact G|exact E].
Qed.
Lemma symbols_compared x y k r o o' o2 fs fs' fs2 s s' s2 : symbols_merged d (comparing c x y) k (Some r) ->
  runs (reporting c x) o fs s -> runs (reporting c y) o' fs' s' -> runs (comparing c x y) o2 fs2 s2 ->
  exists new old both, s_printed s = [PEntries new] /\ s_printed s' = [PEntries old] /\ s_printed s2 = [PEntries both] /\ compares_in (symbols_good a k r) (c_args c) new old both.
Proof.
  intros Rp R R' R2. refine (named_compared d c render encode ord pf (named a) (symbols_good a k r) (symbols_merged d) _ (symbols_dec a) (fun n => False_ind _) (symbols_rep (symbols_good a k r)) (smerged_alone d c) (smerged_given d c)
    x y k r o o' o2 fs fs' fs2 s s' s2 Rp _ _ _ R R' R2); intros n c0 G S0; specialize (G S0); [exact G| |]; now apply narrow_file in G.
Qed.
Lemma symbols_turned x y k r o o' fs fs' s s' : symbols_merged d (comparing c x y) k (Some r) -> runs (comparing c x y) o fs s -> runs (comparing c y x) o' fs' s' ->
  exists rows rows', s_printed s = [PEntries rows] /\ s_printed s' = [PEntries rows'] /\ turned_in (symbols_good a k r) rows rows'.
Proof.
  intros Rp R R'. refine (named_turned d c render encode ord pf (named a) (symbols_good a k r) (symbols_merged d) _ (symbols_dec a) (symbols_rep (symbols_good a k r)) (smerged_turned d c) (smerged_given d c)
    x y k r o o' fs fs' s s' Rp _ _ R R'); intros n c0 G S0; specialize (G S0); [exact G|]. now apply narrow_file in G.
Qed.
Lemma symbols_steps x y z k1 k2 k3 o o' o2 fs fs' fs2 s s' s2 : symbols_merged d (comparing c x y) k1 (Some k2) -> symbols_merged d (comparing c y z) k2 (Some k3) ->
  runs (comparing c x y) o fs s -> runs (comparing c y z) o' fs' s' -> runs (comparing c x z) o2 fs2 s2 ->
  exists rows rows' all, s_printed s = [PEntries rows] /\ s_printed s' = [PEntries rows'] /\ s_printed s2 = [PEntries all] /\
    steps_in (fun n c => symbols_good a k1 k2 n c /\ symbols_good a k2 k3 n c /\ symbols_good a k1 k3 n c) (c_args c) rows rows' all.
Proof.
  intros Rp Rp' R R' R2. refine (named_steps d c render encode ord pf (named a) _ (symbols_merged d) _ (symbols_dec a) (symbols_rep _) (smerged_given d c) (smerged_steps d c)
    x y z k1 k2 k3 o o' o2 fs fs' fs2 s s' s2 Rp Rp' _ _ _ R R' R2); intros n c0 (G1 & G2 & G3) S0; [exact (G1 S0)|exact (G2 S0)|exact (G3 S0)].
Qed.
End Symbols.
End Kinds.
