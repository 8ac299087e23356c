(** * Comparisons with --unify: the commands *)
From Coq Require Import Ascii String List ZArith Lia Bool Permutation Sorted.
From Verif Require Import Base MemMap SpecTree SpecOps Filter SpecFilter Pipeline SpecPipe SpecBuild SpecBytes SpecShape SpecSyms PyStr MapFile SpecMap ProofBuild ProofBytes ProofBytes2 ProofBytes3
  ElfRead SpecElf Project SpecProject SpecEnd ProofEnd Chips SpecChips Deps Table SpecTable Formats Main SpecMain Command SpecCommand SpecFail SpecReport SpecSymbols ProofCommand1 ProofCommand2 ProofReport2 ProofReport5
  SpecAdds ProofAdds SpecSteps ProofSteps SpecCompare ProofCompare2 SpecMerge SpecMergeFiles SpecMergeSyms SpecCompareMerged ProofMerge2 ProofMerge5 ProofMergeFiles4 ProofMergeSyms4 ProofGroup2 ProofCompareMerged.
Import ListNotations.
Open Scope list_scope.
Open Scope Z_scope.

(** ** from what is known of the reports *)
Lemma m_dec (f : item -> str) y : exists q, forall i, q i = true <-> after_last "/"%char (f i) y.
Proof. exists (fun i => basename (f i) =?= y). intros i. rewrite keq_iff, named_is_basename. intuition congruence. Qed.
Definition in_archive (x : str) (i : item) : Prop := base_name i x.
Definition in_file (y : str) (i : item) : Prop := file_name i y.
Definition any (_ : str) (_ : col) : Prop := True.
Lemma archives_dec y : exists q, forall i, q i = true <-> in_archive y i.
Proof. apply (m_dec it_archive). Qed.
Lemma files_dec y : exists q, forall i, q i = true <-> in_file y i.
Proof. apply (m_dec it_object). Qed.
Lemma symbols_dec x y : exists q, forall i, q i = true <-> named x y i.
Proof.
  destruct (m_dec it_archive x) as (q & Hq). exists (fun i => q i && (it_name i =?= y)). intros i. rewrite andb_true_iff, Hq, keq_iff. unfold named, base_name. reflexivity.
Qed.
Lemma keys_are (name : str -> item -> Prop) (a : args) (df : Z * Z -> Prop) k r (rows : dict str sentry) n : (forall v, df v <-> differs a v) ->
  (In n (map fst rows) <-> exists i v, present k r (places i) /\ name n i /\ measured k r (group_bytes (name n) ColTotal) v /\ differs a v) ->
  In n (map fst rows) <-> present k r (has name n) /\ exists v, measured k r (group_bytes (name n) ColTotal) v /\ df v.
Proof.
  intros D H. rewrite H. split.
  - intros (i & v & P & Nm & M & Dv). split; [|exists v; split; [exact M|now apply D]]. destruct P as [P|P]; [left; exists i; now split|right]. destruct r; [exists i; now split|exact P].
  - intros (P & v & M & Dv). assert (exists i, present k r (places i) /\ name n i) as (i & Pi & Ni).
    { destruct P as [(i & P & Nm)|P]; [exists i; split; [now left|exact Nm]|]. destruct r as [k'|]; [|contradiction]. destruct P as (i & P & Nm). exists i. split; [now right|exact Nm]. }
    exists i, v. split; [exact Pi|]. split; [exact Ni|]. split; [exact M|now apply D].
Qed.
(** the figures of a row: those listed are right, the others are 0 *)
Lemma row_figures (name : str -> item -> Prop) a k r n e c : 
  measured k r (group_bytes (name n) ColTotal) (se_size e, se_diff e) ->
  (forall T, In T (map fst (se_types e)) <-> present k r (lists_type a T)) ->
  (forall T st, In (T, st) (se_types e) -> measured k r (group_bytes (name n) (ColType T)) (st_size st, st_diff st)) ->
  (forall T st B, In (T, st) (se_types e) -> In B (map fst (st_sections st)) <-> present k r (lists_label T B)) ->
  (forall T st B z, c = ColSect T B -> In (T, st) (se_types e) -> In (B, z) (st_sections st) -> measured k r (group_bytes (name n) (ColSect T B)) (ss_size z, ss_diff z)) ->
  measured k r (group_bytes (name n) c) (col_value e c) \/ (~ present k r (clisted a c) /\ col_value e c = (0, 0)).
Proof.
  intros Hs Ht Hv Hl Hb.
  assert (P1 : forall T B, present k r (clisted a (ColSect T B)) -> present k r (lists_type a T) /\ present k r (lists_label T B)).
  { intros T B [(A & B')|P]; [split; now left|]. destruct r; [destruct P as (A & B'); split; now right|contradiction]. }
  destruct c as [|T|T B]; cbn [col_value].
  - left. exact Hs.
  - destruct (dget T (se_types e)) as [st|] eqn:E; [left; exact (Hv _ _ (dget_some _ _ _ E))|right]. split; [|reflexivity]. intros X. apply (dget_none _ _ E), Ht, X.
  - destruct (dget T (se_types e)) as [st|] eqn:E.
    + pose proof (dget_some _ _ _ E) as I. destruct (dget B (st_sections st)) as [z|] eqn:F; [left; exact (Hb _ _ _ _ eq_refl I (dget_some _ _ _ F))|right].
      split; [|reflexivity]. intros X. apply P1 in X. apply (dget_none _ _ F), (Hl _ _ _ I), X.
    + right. split; [|reflexivity]. intros X. apply P1 in X. apply (dget_none _ _ E), Ht, X.
Qed.
Section From.
Variables (a b : args) (df : Z * Z -> Prop).
Hypothesis Df : forall v, df v <-> differs a v.
Hypothesis Eu : a_show_unused a = a_show_unused b.
Lemma lists_same T k r : present k r (lists_type a T) <-> present k r (lists_type b T).
Proof. unfold present, lists_type, listed_type. rewrite Eu. reflexivity. Qed.
Lemma archives_named k r rows : mentries_right k r a rows -> nrows in_archive b any df k r rows.
Proof.
  intros (_ & K & R). split.
  - intros n. apply (keys_are in_archive a df k r rows n Df), K.
  - intros n e c I _. destruct (R n e I) as [E1 E2 E3 E4 E5 E6 E7 E8 E9]. apply (row_figures in_archive b k r n e c); [exact E2|intros T; rewrite E4; apply lists_same|exact E5|exact E7|intros T st B z _; apply E8].
Qed.
Lemma files_named (good : str -> col -> Prop) k r rows : (forall n c, good n c -> of_section c -> one_archive k r n) -> fentries_right k r a rows -> nrows in_file b good df k r rows.
Proof.
  intros Gd (_ & K & R). split.
  - intros n. apply (keys_are in_file a df k r rows n Df), K.
  - intros n e c I G. destruct (R n e I) as [E1 E2 E3 E4 E5 E6 E7 E8 E9]. apply (row_figures in_file b k r n e c); [exact E2|intros T; rewrite E4; apply lists_same|exact E5|exact E7|].
    intros T st B z -> . apply E8. exact (Gd _ _ G Logic.I).
Qed.
Lemma symbols_named x (good : str -> col -> Prop) k r rows : (forall n c, good n c -> of_section c -> one_file k r x n) -> nentries_right x k r a rows -> nrows (named x) b good df k r rows.
Proof.
  intros Gd (_ & K & R). split.
  - intros n. apply (keys_are (named x) a df k r rows n Df), K.
  - intros n e c I G. destruct (R n e I) as [E1 E2 E3 E4 E5 E6 E7 E8 E9]. apply (row_figures (named x) b k r n e c); [exact E2|intros T; rewrite E4; apply lists_same|exact E5|exact E7|].
    intros T st B z -> . apply E8. exact (Gd _ _ G Logic.I).
Qed.
End From.

(** ** the commands, whatever they are about *)
Section Runs.
Variables (d : disk) (c : cmd) (render : console -> list piece -> str) (encode : str -> str) (ord : set_order) (pf : pct_format).
Variables (name : str -> item -> Prop) (good : str -> col -> Prop) (Rep : cmd -> account -> option account -> Prop) (ok : account -> option account -> Prop).
Definition variant (c' : cmd) : Prop := (exists x, c' = reporting c x) \/ (exists x y, c' = comparing c x y).
Hypothesis named_dec : forall n, exists q, forall i, q i = true <-> name n i.
Hypothesis good_total : forall n, good n ColTotal.
Hypothesis rep_rows : forall c' k r o fs s, variant c' -> Rep c' k r -> ok k r -> run_files d (get_memory_types chip_info) render encode ord pf c' o (start fs) = (Done tt, s) ->
  sound k /\ (forall r', r = Some r' -> sound r') /\ exists rows, s_printed s = [PEntries rows] /\ forall df : Z * Z -> Prop, (forall v, df v <-> differs (c_args c') v) -> nrows name (c_args c) good df k r rows.
Hypothesis rep_alone : forall x y k r, Rep (comparing c x y) k (Some r) -> Rep (reporting c x) k None /\ Rep (reporting c y) r None.
Hypothesis rep_turned : forall x y k r, Rep (comparing c x y) k (Some r) -> Rep (comparing c y x) r (Some k).
Hypothesis rep_given : forall x y k r, Rep (comparing c x y) k (Some r) -> given (Some y) = true.
Hypothesis rep_steps : forall x y z k1 k2 k3, Rep (comparing c x y) k1 (Some k2) -> Rep (comparing c y z) k2 (Some k3) -> Rep (comparing c x z) k1 (Some k3).
Lemma run_alone x k o fs s : Rep (reporting c x) k None -> ok k None -> run_files d (get_memory_types chip_info) render encode ord pf (reporting c x) o (start fs) = (Done tt, s) ->
  sound k /\ exists rows, s_printed s = [PEntries rows] /\ nrows name (c_args c) good everything k None rows.
Proof.
  intros Rp O R. destruct (rep_rows _ _ _ _ _ _ (or_introl (ex_intro _ x eq_refl)) Rp O R) as (Sk & _ & rows & P & H). split; [exact Sk|]. exists rows. split; [exact P|]. apply H.
  intros v. unfold everything, differs. cbn. split; [discriminate|tauto].
Qed.
Lemma run_both x y k r o fs s : Rep (comparing c x y) k (Some r) -> ok k (Some r) -> run_files d (get_memory_types chip_info) render encode ord pf (comparing c x y) o (start fs) = (Done tt, s) ->
  sound k /\ sound r /\ exists rows, s_printed s = [PEntries rows] /\ nrows name (c_args c) good (changes (c_args c)) k (Some r) rows.
Proof.
  intros Rp O R. destruct (rep_rows _ _ _ _ _ _ (or_intror (ex_intro _ x (ex_intro _ y eq_refl))) Rp O R) as (Sk & Sr & rows & P & H). split; [exact Sk|]. split; [now apply Sr|]. exists rows. split; [exact P|]. apply H.
  intros v. unfold changes, differs. change (a_diff (c_args (comparing c x y))) with (Some y). rewrite (rep_given _ _ _ _ Rp). change (a_show_unchanged (c_args (comparing c x y))) with (a_show_unchanged (c_args c)). tauto.
Qed.
Lemma named_compared x y k r o o' o2 fs fs' fs2 s s' s2 : Rep (comparing c x y) k (Some r) -> ok k (Some r) -> ok k None -> ok r None ->
  run_files d (get_memory_types chip_info) render encode ord pf (reporting c x) o (start fs) = (Done tt, s) ->
  run_files d (get_memory_types chip_info) render encode ord pf (reporting c y) o' (start fs') = (Done tt, s') ->
  run_files d (get_memory_types chip_info) render encode ord pf (comparing c x y) o2 (start fs2) = (Done tt, s2) ->
  exists new old both, s_printed s = [PEntries new] /\ s_printed s' = [PEntries old] /\ s_printed s2 = [PEntries both] /\ compares_in good (c_args c) new old both.
Proof.
  intros Rp O1 O2 O3 R R' R2. destruct (rep_alone _ _ _ _ Rp) as (Rn & Ro).
  destruct (run_alone _ _ _ _ _ Rn O2 R) as (_ & new & Q1 & E1). destruct (run_alone _ _ _ _ _ Ro O3 R') as (_ & old & Q2 & E2). destruct (run_both _ _ _ _ _ _ _ Rp O1 R2) as (Sk & Sr & both & Q3 & E3).
  exists new, old, both. do 3 (split; [assumption|]). exact (compares_named name (c_args c) good named_dec good_total k r new old both E1 E2 E3 Sk Sr).
Qed.
Lemma named_turned x y k r o o' fs fs' s s' : Rep (comparing c x y) k (Some r) -> ok k (Some r) -> ok r (Some k) ->
  run_files d (get_memory_types chip_info) render encode ord pf (comparing c x y) o (start fs) = (Done tt, s) ->
  run_files d (get_memory_types chip_info) render encode ord pf (comparing c y x) o' (start fs') = (Done tt, s') ->
  exists rows rows', s_printed s = [PEntries rows] /\ s_printed s' = [PEntries rows'] /\ turned_in good rows rows'.
Proof.
  intros Rp O1 O2 R R'. destruct (run_both _ _ _ _ _ _ _ Rp O1 R) as (Sk & Sr & rows & Q1 & E1). destruct (run_both _ _ _ _ _ _ _ (rep_turned _ _ _ _ Rp) O2 R') as (_ & _ & rows' & Q2 & E2).
  exists rows, rows'. do 2 (split; [assumption|]). exact (turned_named name (c_args c) good named_dec k r rows rows' E1 E2 Sk Sr).
Qed.
Lemma named_steps x y z k1 k2 k3 o o' o2 fs fs' fs2 s s' s2 : Rep (comparing c x y) k1 (Some k2) -> Rep (comparing c y z) k2 (Some k3) -> ok k1 (Some k2) -> ok k2 (Some k3) -> ok k1 (Some k3) ->
  run_files d (get_memory_types chip_info) render encode ord pf (comparing c x y) o (start fs) = (Done tt, s) ->
  run_files d (get_memory_types chip_info) render encode ord pf (comparing c y z) o' (start fs') = (Done tt, s') ->
  run_files d (get_memory_types chip_info) render encode ord pf (comparing c x z) o2 (start fs2) = (Done tt, s2) ->
  exists rows rows' all, s_printed s = [PEntries rows] /\ s_printed s' = [PEntries rows'] /\ s_printed s2 = [PEntries all] /\ steps_in good (c_args c) rows rows' all.
Proof.
  intros Rp Rp' O1 O2 O3 R R' R2. destruct (run_both _ _ _ _ _ _ _ Rp O1 R) as (S1 & S2 & rows & Q1 & E1). destruct (run_both _ _ _ _ _ _ _ Rp' O2 R') as (_ & S3 & rows' & Q2 & E2).
  destruct (run_both _ _ _ _ _ _ _ (rep_steps _ _ _ _ _ _ Rp Rp') O3 R2) as (_ & _ & all & Q3 & E3). exists rows, rows', all. do 3 (split; [assumption|]).
  exact (steps_named name (c_args c) good named_dec k1 k2 k3 rows rows' all E1 E2 E3 S1 S2 S3).
Qed.
End Runs.
