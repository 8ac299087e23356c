(** * Comparisons with and without what has not changed *)
From Coq Require Import Ascii String List ZArith Lia Bool Permutation Sorted.
From Verif Require Import Base MemMap SpecTree SpecOps Filter SpecFilter Pipeline SpecPipe SpecBuild SpecBytes SpecShape SpecSyms PyStr MapFile SpecMap ProofBuild ProofBytes ProofBytes2 ProofBytes3
  ElfRead SpecElf Project SpecProject SpecEnd ProofEnd Chips SpecChips ProofChips Deps Table SpecTable Formats Main SpecMain Command SpecCommand SpecFail SpecReport SpecSymbols ProofCommand1 ProofCommand2 ProofReport2 ProofReport5 ProofReport6
  ProofSymbols1 ProofSymbols2 ProofSymbols3 ProofSymbols4 ProofSymbols5 SpecAdds ProofAdds SpecSteps ProofSteps SpecCompare ProofCompare ProofCompare2 ProofTiles SpecForm ProofForm
  SpecCompareUsage ProofCompareUsage ProofCompareUsage2 SpecSizes ProofSizes ProofUnused ProofUnusedRows SpecOrderOnly ProofMoved ProofOrderOnly SpecUnchanged.
Import ListNotations.
Open Scope list_scope.
Open Scope Z_scope.

Section Rows.
Variables (P : item -> Prop) (key : item -> str) (own : item -> item -> bool) (T : item -> Prop).
Hypothesis key_own : forall i j, T i -> T j -> key i = key j -> own i = own j.
Variables (k : account) (r : option account) (a b : args).
Hypothesis Sk : sound k.
Hypothesis Sr : forall q, r = Some q -> sound q.
Hypothesis Tk : forall i, present k r (places i) -> T i.
Hypothesis Es : a_show_unused b = a_show_unused a.
Hypothesis Ga : given (a_diff a) = true.
Hypothesis Ca : a_show_unchanged a = false.
Hypothesis Cb : a_show_unchanged b = true.
Lemma changed_differs v : differs a v <-> snd v <> 0.
Proof. unfold differs. split; [intros H; now apply H|auto]. Qed.
Lemma all_differs v : differs b v.
Proof. intros _ H. congruence. Qed.
Lemma rows_kept rows all : rows_right P key own k r a rows -> rows_right P key own k r b all -> rows_changed rows all.
Proof.
  intros (_ & Ks & Rs) (_ & Ks' & Rs').
  assert (There : forall n, In n (map fst rows) <-> exists e, In (n, e) all /\ se_diff e <> 0).
  { intros n. rewrite Ks. split.
    - intros (i & v & Pi & Pl & -> & M & D). assert (X : In (key i) (map fst all)) by (apply Ks'; exists i, v; (do 4 (split; [assumption || reflexivity|])); apply all_differs).
      apply List.in_map_iff in X. destruct X as ((n' & e) & E & I). cbn [fst] in E. subst n'. exists e. split; [exact I|]. destruct (Rs' _ _ I) as (j & _ & Pj & Ej & Er).
      rewrite (key_own i j (Tk i Pl) (Tk j Pj) Ej) in M. pose proof (measured_one _ k r _ _ (own_unique (own j) ColTotal) M (er_size _ _ _ _ _ Er)) as ->. exact (proj1 (changed_differs _) D).
    - intros (e & I & D). destruct (Rs' _ _ I) as (j & Qj & Pj & -> & Er). exists j, (se_size e, se_diff e). do 3 (split; [assumption || reflexivity|]). split; [exact (er_size _ _ _ _ _ Er)|]. exact (proj2 (changed_differs (se_size e, se_diff e)) D). }
  split; [exact There|]. intros n e e' I I'. destruct (Rs _ _ I) as (i & _ & Pi & Ei & Er). destruct (Rs' _ _ I') as (j & _ & Pj & Ej & Er').
  assert (Ow : own j = own i) by (apply key_own; [now apply Tk|now apply Tk|congruence]). rewrite Ow in Er'.
  destruct (entry_order k r a b (own i) e e' Es Sk Sr Er Er') as (H & V & _). split; intros c; symmetry; [apply H|apply V].
Qed.
End Rows.
Lemma unchanged_entries files d c k r o o' fs fs' s s' render encode ord pf :
  reported d c k (Some r) -> asked files (c_args c) -> (given (a_archive_details (c_args c)) = true -> a_use_dwarf (c_args c) <> Some true) -> tells_files files k (Some r) -> a_format (c_args c) = FJson2 ->
  run_files d (get_memory_types chip_info) render encode ord pf (with_unchanged c false) o (start fs) = (Done tt, s) ->
  run_files d (get_memory_types chip_info) render encode ord pf (with_unchanged c true) o' (start fs') = (Done tt, s') ->
  exists rows all, s_printed s = [PEntries rows] /\ s_printed s' = [PEntries all] /\ rows_changed rows all.
Proof.
  intros Rp As Dw Tf Fo R R'.
  destruct (entries_json d (with_unchanged c false) k (Some r) o files fs s render encode ord pf Rp As Dw Tf Fo R) as (rows & S1 & E1 & _).
  destruct (entries_json d (with_unchanged c true) k (Some r) o' files fs' s' render encode ord pf Rp As Dw Tf Fo R') as (all & S2 & E2 & _).
  exists rows, all. split; [exact S1|]. split; [exact S2|]. destruct Rp as (P1 & (fn & Ef & P2) & _).
  refine (rows_kept (fun _ => True) (row_key files) (row_own files) (ftold files) (key_own' files) k (Some r) (c_args (with_unchanged c false)) (c_args (with_unchanged c true)) (project_sound _ _ _ _ P1) _ _ eq_refl _ eq_refl eq_refl rows all (entries_rows _ _ _ _ _ E1) (entries_rows _ _ _ _ _ E2)).
  - intros q [= <-]. exact (project_sound _ _ _ _ P2).
  - intros i I F. now apply (Tf F).
  - cbn [with_unchanged c_args a_diff]. rewrite Ef. exact (project_given _ _ _ _ P2).
Qed.
Lemma unchanged_symbols x d c q r o o' fs fs' s s' render encode ord pf :
  symbols_reported d c q (Some r) -> asked_symbols (c_args c) x -> tells_symbols q (Some r) -> a_format (c_args c) = FJson2 ->
  run_files d (get_memory_types chip_info) render encode ord pf (with_unchanged c false) o (start fs) = (Done tt, s) ->
  run_files d (get_memory_types chip_info) render encode ord pf (with_unchanged c true) o' (start fs') = (Done tt, s') ->
  exists rows all, s_printed s = [PEntries rows] /\ s_printed s' = [PEntries all] /\ rows_changed rows all.
Proof.
  intros Rp As Ts Fo R R'.
  destruct (srun d c x render encode ord pf As (with_unchanged c false) q (Some r) o fs s As Fo Rp Ts R) as (rows & S1 & E1 & Sk & Sr).
  destruct (srun d c x render encode ord pf As (with_unchanged c true) q (Some r) o' fs' s' As Fo Rp Ts R') as (all & S2 & E2 & _).
  exists rows, all. split; [exact S1|]. split; [exact S2|]. destruct Rp as (P1 & (fn & Ef & P2) & _).
  refine (rows_kept (of_archives x) symbol_key of_symbol stold skey_own q (Some r) (c_args (with_unchanged c false)) (c_args (with_unchanged c true)) Sk Sr Ts eq_refl _ eq_refl eq_refl rows all E1 E2).
  cbn [with_unchanged c_args a_diff]. rewrite Ef. exact (sgiven _ _ _ _ P2).
Qed.

(** ** the summary *)
Section Usage.
Variables (k : account) (r : option account) (a b : args).
Hypothesis Ws : windows_separate (ac_types k).
Hypothesis Wr : forall q, r = Some q -> windows_separate (ac_types q).
Hypothesis Es : a_show_unused b = a_show_unused a.
Hypothesis Ef : a_use_flash_size b = a_use_flash_size a.
Hypothesis Ga : given (a_diff a) = true.
Hypothesis Ca : a_show_unchanged a = false.
Hypothesis Cb : a_show_unchanged b = true.
Lemma usage_kept u gs all : groups_right u k r a gs -> groups_right u k r b all -> totals_right k r a gs -> totals_right k r b all -> usage_changed gs all.
Proof.
  intros R R' Tr Tr'. assert (Lt : forall T q, lists_type b T q <-> lists_type a T q) by (intros T q; unfold lists_type, listed_type; rewrite Es; reflexivity).
  assert (Lp : forall T, present k r (lists_type b T) <-> present k r (lists_type a T)) by (intros T; unfold present; destruct r; rewrite !Lt; reflexivity).
  pose proof (changed_differs a Ga Ca) as Da. pose proof (all_differs b Cb) as Db. split.
  { intros T. split.
    - intros I. apply R in I. destruct I as (L & v & M & D). assert (X : In T (map pg_type all)) by (apply R'; split; [now apply Lp|]; exists v; split; [exact M|apply Db]).
      destruct (type_group _ _ X) as (g & I & E). exists g. split; [exact I|]. split; [exact E|]. destruct (group_is _ _ _ _ _ R' g I) as (U & _). rewrite E in U. rewrite (measured_one _ k r _ _ (used_unique T) U M). exact (proj1 (Da _) D).
    - intros (g & I & <- & D). assert (X : In (pg_type g) (map pg_type all)) by now apply List.in_map. apply R' in X. destruct X as (L & _). apply R. split; [now apply Lp|].
      destruct (group_is _ _ _ _ _ R' g I) as (U & _). exists (pg_used g). split; [exact U|exact (proj2 (Da _) D)]. }
  intros g g' I I' E. destruct (group_is _ _ _ _ _ R g I) as (U & O & S). destruct (group_is _ _ _ _ _ R' g' I') as (U' & O' & S'). rewrite <- E in U', S'.
  unfold totals_right in Tr, Tr'. rewrite Forall_forall in Tr, Tr'. destruct (Tr g I) as (A & B), (Tr' g' I') as (A' & B'). rewrite <- E in A', B'.
  assert (Et : fst (pg_total g') = fst (pg_total g)) by exact (total_unique b a _ k _ _ Ws Ef (Lt _ _) A' A).
  split; [exact (measured_one _ k r _ _ (used_unique (pg_type g)) U U')|]. split; [now symmetry|]. split.
  - intros Nz. destruct (B (or_introl Nz)) as (_ & Q). rewrite <- Et in Nz. destruct (B' (or_introl Nz)) as (_ & Q'). destruct (pg_total g) as (t1 & t2), (pg_total g') as (u1 & u2). cbn [fst snd] in *. subst u1. f_equal.
    destruct r as [q|]; [|congruence]. destruct Q as (n & N1 & ->), Q' as (n' & N2 & ->). now rewrite (total_unique b a _ q _ _ (Wr q eq_refl) Ef (Lt _ _) N2 N1).
  - intros (N & v). rewrite S, S', Da. cbn [snd]. split; [intros (X & Y & D); split; [split; [exact X|split; [exact Y|apply Db]]|exact D]|intros ((X & Y & _) & D); tauto].
Qed.
End Usage.
Lemma unchanged_summary d c k r o o' fs fs' s s' render encode ord pf :
  summarised d c k (Some r) -> of_types (c_args c) -> a_format (c_args c) = FTable \/ a_format (c_args c) = FText \/ a_format (c_args c) = FCsv ->
  run_files d (get_memory_types chip_info) render encode ord pf (with_unchanged c false) o (start fs) = (Done tt, s) ->
  run_files d (get_memory_types chip_info) render encode ord pf (with_unchanged c true) o' (start fs') = (Done tt, s') ->
  exists gs all, shows_usage (c_args (with_unchanged c false)) s gs /\ shows_usage (c_args (with_unchanged c true)) s' all /\ usage_changed gs all.
Proof.
  intros Su Ty Fo R R'. destruct (sizes_shown d (with_unchanged c false) k (Some r) o fs s render encode ord pf Su Ty Fo R) as (gs & S1 & G & T).
  destruct (sizes_shown d (with_unchanged c true) k (Some r) o' fs' s' render encode ord pf Su Ty Fo R') as (all & S2 & G' & T').
  exists gs, all. split; [exact S1|]. split; [exact S2|]. destruct Su as (P1 & (fn & Ef & P2) & _).
  refine (usage_kept k (Some r) (c_args (with_unchanged c false)) (c_args (with_unchanged c true)) (project_separate _ _ _ _ P1) _ eq_refl eq_refl _ eq_refl eq_refl (a_unify (c_args c)) gs all G G' T T').
  - intros q [= <-]. exact (project_separate _ _ _ _ P2).
  - cbn [with_unchanged c_args a_diff]. rewrite Ef. exact (project_given _ _ _ _ P2).
Qed.
