From Coq Require Import Ascii String List ZArith Lia Bool Permutation Sorted.
From Verif Require Import Base MemMap SpecTree SpecOps Filter SpecFilter Pipeline SpecPipe SpecBuild SpecBytes SpecShape SpecSyms PyStr MapFile SpecMap ProofBuild ProofBytes ProofBytes2 ProofBytes3
  ElfRead SpecElf Project SpecProject SpecEnd ProofEnd Chips SpecChips Deps Table SpecTable Formats Main SpecMain Command SpecCommand SpecFail SpecReport SpecSymbols ProofCommand1 ProofCommand2 ProofReport2 ProofReport5
  ProofSymbols1 ProofSymbols2 ProofSymbols3 ProofSymbols4 SpecAdds ProofAdds SpecSteps ProofSteps SpecCompare ProofCompare ProofTiles.
Import ListNotations.
Open Scope list_scope.
Open Scope Z_scope.

Lemma rows_args P key own k r a b rows : a_show_unused a = a_show_unused b -> given (a_diff a) = given (a_diff b) -> a_show_unchanged a = a_show_unchanged b ->
  rows_right P key own k r a rows -> rows_right P key own k r b rows.
Proof.
  intros Eu Ed Ec (N & K & R). assert (D : forall v, differs a v <-> differs b v) by (intros v; unfold differs; rewrite Ed, Ec; reflexivity).
  assert (Lt : forall X q, lists_type a X q <-> lists_type b X q) by (intros X q; unfold lists_type, listed_type; rewrite Eu; reflexivity).
  split; [exact N|]. split.
  { intros n. rewrite K. split; intros (i & v & A & B & C & M & Q); exists i, v; (do 4 (split; [assumption|])); now apply D. }
  intros n e I. destruct (R n e I) as (i & A & B & C & Er). exists i. do 3 (split; [assumption|]).
  destruct Er as [E1 E2 E3 E4 E5 E6 E7 E8]. constructor; try assumption. intros X. rewrite E3. unfold present. destruct r as [q|]; rewrite !Lt; reflexivity.
Qed.

(** ** archives and object files *)
Definition ftold (files : bool) (i : item) : Prop := files = true -> ~ In ":"%char (it_object i).
Lemma entries_rows files k r a rows : entries_right files k r a rows -> rows_right (fun _ => True) (row_key files) (row_own files) k r a rows.
Proof.
  intros (N & K & R). split; [exact N|]. split.
  - intros n. rewrite K. split; [intros (i & v & A & B & C & D); exists i, v; tauto|intros (i & v & _ & A & B & C & D); exists i, v; tauto].
  - intros n e I. destruct (R n e I) as (i & A & B & _ & C). exists i. tauto.
Qed.
Lemma key_own' files i j : ftold files i -> ftold files j -> row_key files i = row_key files j -> row_own files i = row_own files j.
Proof. intros A B. apply key_own. intros F. split; [now apply A|now apply B]. Qed.
Section Files.
Variables (d : disk) (c : cmd) (files : bool) (render : console -> list piece -> str) (encode : str -> str) (ord : set_order) (pf : pct_format).
Hypothesis As : asked files (c_args c).
Hypothesis De : given (a_archive_details (c_args c)) = true -> a_use_dwarf (c_args c) <> Some true.
Hypothesis Fo : a_format (c_args c) = FJson2.
Lemma alone_run x k o fs s : reported d (reporting c x) k None -> tells_files files k None ->
  run_files d (get_memory_types chip_info) render encode ord pf (reporting c x) o (start fs) = (Done tt, s) ->
  exists rows, s_printed s = [PEntries rows] /\ entries_right files k None (c_args (reporting c x)) rows.
Proof.
  intros Rp T R. destruct (entries_json d (reporting c x) k None o files fs s render encode ord pf) as (rows & Q & E & _); [exact Rp| |exact De|exact T|exact Fo|exact R|exists rows; now split].
  unfold asked in *. destruct files; exact As.
Qed.
Lemma compared_runs x y k r o o' o2 fs fs' fs2 s s' s2 : reported d (comparing c x y) k (Some r) -> tells_files files k (Some r) ->
  run_files d (get_memory_types chip_info) render encode ord pf (reporting c x) o (start fs) = (Done tt, s) ->
  run_files d (get_memory_types chip_info) render encode ord pf (reporting c y) o' (start fs') = (Done tt, s') ->
  run_files d (get_memory_types chip_info) render encode ord pf (comparing c x y) o2 (start fs2) = (Done tt, s2) ->
  exists new old both, s_printed s = [PEntries new] /\ s_printed s' = [PEntries old] /\ s_printed s2 = [PEntries both] /\ compares (c_args c) new old both.
Proof.
  intros Rp T R R' R2. pose proof Rp as (P1 & (fy & Ey & P2) & U & V). injection Ey as <-.
  assert (Rn : reported d (reporting c x) k None) by (split; [exact P1|split; [reflexivity|now split]]).
  assert (Ro : reported d (reporting c y) r None) by (split; [exact P2|split; [reflexivity|now split]]).
  destruct (alone_run _ _ o fs s Rn) with (2 := R) as (new & Q1 & E1); [intros F i [I|[]]; apply (T F); now left|].
  destruct (alone_run _ _ o' fs' s' Ro) with (2 := R') as (old & Q2 & E2); [intros F i [I|[]]; apply (T F); now right|].
  destruct (one_run d c files render encode ord pf As De Fo _ _ _ _ _ _ _ Rp T R2) as (both & Q3 & E3).
  exists new, old, both. do 3 (split; [assumption|]).
  refine (compares_ok (fun _ => True) (row_key files) (row_own files) (ftold files) (own_key files) (fun _ _ _ _ => Logic.I) (key_own' files) k r _ (c_args (comparing c x y)) new old both
    (entries_rows _ _ _ _ _ E1) (entries_rows _ _ _ _ _ E2) (entries_rows _ _ _ _ _ E3) eq_refl _ (project_sound _ _ _ _ P1) (project_sound _ _ _ _ P2) _ _).
  - exact (project_given _ _ _ _ P2).
  - intros i I F. apply (T F). now left.
  - intros i I F. apply (T F). now right.
Qed.
End Files.

(** ** symbols *)
Definition stold (i : item) : Prop := ~ In ":"%char (it_object i) /\ ~ In ":"%char (it_name i).
Definition of_archives (x : str) (i : item) : Prop := after_last "/"%char (it_archive i) x.
Lemma symbols_rows x q r a rows : symbols_right x q r a rows -> rows_right (of_archives x) symbol_key of_symbol q r a rows.
Proof.
  intros (N & K & R). split; [exact N|]. split.
  - intros n. rewrite K. unfold symbol_of, of_archives. split; [intros (i & v & (A & B) & C & D); exists i, v; tauto|intros (i & v & A & B & C & D); exists i, v; tauto].
  - intros n e I. destruct (R n e I) as (i & (A & B) & C & _ & D). exists i. unfold of_archives. tauto.
Qed.
Lemma symbol_own i j : of_symbol i j = true -> it_archive j = it_archive i /\ it_object j = it_object i /\ it_name j = it_name i.
Proof. unfold of_symbol, of_object. rewrite !andb_true_iff, !keq_eq. tauto. Qed.
Lemma sown_key i j : of_symbol i j = true -> symbol_key j = symbol_key i.
Proof. intros H. apply symbol_own in H. destruct H as (A & B & C). unfold symbol_key. now rewrite A, B, C. Qed.
Lemma sown_P x i j : of_symbol i j = true -> of_archives x i -> of_archives x j.
Proof. intros H. apply symbol_own in H. destruct H as (A & _). unfold of_archives. now rewrite A. Qed.
Lemma skey_own i j : stold i -> stold j -> symbol_key i = symbol_key j -> of_symbol i = of_symbol j.
Proof. intros (A & B) (A' & B') E. destruct (key_unique _ _ _ _ _ _ E A A' B B') as (E1 & E2 & E3). unfold of_symbol, of_object. now rewrite E1, E2, E3. Qed.
Lemma symbols_at_sound d dir name text rs l crt im types ys ud m : built d dir name text rs l crt im types ->
  get_files d (get_memory_types chip_info) (in_dir dir name) true ud = Ok m -> no_dwarf d dir ud -> symbols_of d dir name im ys -> clear_symbols (Account rs l im types) ys ->
  sound (symbol_account ys (Account rs l im types)).
Proof.
  intros Bt G Nd Sy Cs. destruct (built_map _ _ _ _ _ _ _ _ _ Bt _ _ _ G Nd) as (keep & b & groups & K & Bb & _).
  pose proof (names_distinct _ _ _ _ _ _ _ _ _ Bt keep K) as Nm.
  destruct (symbols_end _ _ _ _ _ _ _ _ _ _ Bt Sy keep b K Bb Cs ud m Nd G) as (Si & _); [now apply (built_target _ _ _ _ _ _ _ _ _ Bt _ _ _ G)|exact Nm|].
  intros o Io Co. cbn [symbol_account ac_l ac_im] in *. apply List.in_map_iff in Io. destruct Io as (o' & <- & Io). apply Si; [exact Io|exact Co].
Qed.
Section Symbols.
Variables (d : disk) (c : cmd) (x : str) (render : console -> list piece -> str) (encode : str -> str) (ord : set_order) (pf : pct_format).
Hypothesis As : asked_symbols (c_args c) x.
Hypothesis Fo : a_format (c_args c) = FJson2.
Lemma srun c' q r o fs s : asked_symbols (c_args c') x -> a_format (c_args c') = FJson2 -> symbols_reported d c' q r -> tells_symbols q r ->
  run_files d (get_memory_types chip_info) render encode ord pf c' o (start fs) = (Done tt, s) ->
  exists rows, s_printed s = [PEntries rows] /\ rows_right (of_archives x) symbol_key of_symbol q r (c_args c') rows /\ sound q /\ (forall q', r = Some q' -> sound q').
Proof.
  intros As' Fo' Rp T R. destruct (symbols_json d c' x q r o fs s render encode ord pf Rp As' T Fo' R) as (rows & Q & _ & E & _). exists rows. split; [exact Q|]. split; [now apply symbols_rows|].
  destruct Rp as (Pk & Rr & Au & Ad). destruct As' as (_ & Dt & Nx). apply command_any in R; [|exact Au|exact Ad]. destruct R as (m & e & M & s1 & s2 & G & _ & _ & D & _).
  assert (Lo : load_symbols (c_args c') = true). { unfold load_symbols. rewrite Dt. destruct x; [contradiction|reflexivity]. }
  rewrite Lo in G. destruct Pk as (dir & name & text & crt & k & ys & Ci & Bt & Nd & Fi & Sy & Cs & ->). rewrite Ci in G. destruct k as [rs l im types]. cbn [ac_rs ac_l ac_im ac_types] in *.
  split; [exact (symbols_at_sound _ _ _ _ _ _ _ _ _ _ _ _ Bt G (no_dwarf_option _ _ _ Nd) Sy Cs)|]. intros q' ->.
  destruct Rr as (fn & Ef & dir' & name' & text' & crt' & k' & ys' & En & Bt' & Nd' & Fi' & Sy' & Cs' & ->). destruct D as [(D & _)|(fn' & r0 & D & _ & G2 & _)].
  { exfalso. rewrite Ef in D. destruct fn; [|discriminate D]. pose proof (bt_name _ _ _ _ _ _ _ _ _ Bt') as Pn. destruct Pn as (Pn & _). symmetry in En. now apply (in_dir_some dir' name') in En. }
  rewrite D in Ef. injection Ef as ->. rewrite Lo, En in G2. destruct k' as [rs' l' im' types']. cbn [ac_rs ac_l ac_im ac_types] in *.
  exact (symbols_at_sound _ _ _ _ _ _ _ _ _ _ _ _ Bt' G2 (no_dwarf_option _ _ _ Nd') Sy' Cs').
Qed.
Lemma sgiven a fn q : symbols_project d a fn q -> given (Some fn) = true.
Proof. intros (dir & name & text & crt & k & ys & -> & _). unfold in_dir. destruct dir; reflexivity. Qed.
Lemma sreporting y z q r : symbols_reported d (comparing c y z) q (Some r) -> symbols_reported d (reporting c y) q None /\ symbols_reported d (reporting c z) r None.
Proof. intros (P1 & (fy & Ey & P2) & U & V). injection Ey as <-. split; (split; [assumption|split; [reflexivity|now split]]). Qed.
Lemma scompared_runs y z q r o o' o2 fs fs' fs2 s s' s2 : symbols_reported d (comparing c y z) q (Some r) -> tells_symbols q (Some r) ->
  run_files d (get_memory_types chip_info) render encode ord pf (reporting c y) o (start fs) = (Done tt, s) ->
  run_files d (get_memory_types chip_info) render encode ord pf (reporting c z) o' (start fs') = (Done tt, s') ->
  run_files d (get_memory_types chip_info) render encode ord pf (comparing c y z) o2 (start fs2) = (Done tt, s2) ->
  exists new old both, s_printed s = [PEntries new] /\ s_printed s' = [PEntries old] /\ s_printed s2 = [PEntries both] /\ compares (c_args c) new old both.
Proof.
  intros Rp T R R' R2. destruct (sreporting _ _ _ _ Rp) as (Rn & Ro). pose proof Rp as (P1 & (fy & Ey & P2) & U & V). injection Ey as <-.
  destruct (srun (reporting c y) q None o fs s) as (new & Q1 & E1 & S1 & _); [exact As|exact Fo|exact Rn|intros i [I|[]]; apply T; now left|exact R|].
  destruct (srun (reporting c z) r None o' fs' s') as (old & Q2 & E2 & S2 & _); [exact As|exact Fo|exact Ro|intros i [I|[]]; apply T; now right|exact R'|].
  destruct (srun (comparing c y z) q (Some r) o2 fs2 s2) as (both & Q3 & E3 & _); [exact As|exact Fo|exact Rp|exact T|exact R2|].
  exists new, old, both. do 3 (split; [assumption|]).
  refine (compares_ok (of_archives x) symbol_key of_symbol stold sown_key (sown_P x) skey_own q r _ (c_args (comparing c y z)) new old both E1 E2 E3 eq_refl _ S1 S2 _ _).
  - exact (sgiven _ _ _ P2).
  - intros i I. apply T. now left.
  - intros i I. apply T. now right.
Qed.
Lemma sturned y z q r : symbols_reported d (comparing c y z) q (Some r) -> symbols_reported d (comparing c z y) r (Some q).
Proof. intros (P1 & (fy & Ey & P2) & U & V). injection Ey as <-. split; [exact P2|]. split; [exists y; split; [reflexivity|exact P1]|]. split; assumption. Qed.
Lemma sturned_runs y z q r o o' fs fs' s s' : symbols_reported d (comparing c y z) q (Some r) -> tells_symbols q (Some r) ->
  run_files d (get_memory_types chip_info) render encode ord pf (comparing c y z) o (start fs) = (Done tt, s) ->
  run_files d (get_memory_types chip_info) render encode ord pf (comparing c z y) o' (start fs') = (Done tt, s') ->
  exists rows rows', s_printed s = [PEntries rows] /\ s_printed s' = [PEntries rows'] /\ turned rows rows'.
Proof.
  intros Rp T R R'. pose proof Rp as (P1 & (fy & Ey & P2) & U & V). injection Ey as <-.
  destruct (srun (comparing c y z) q (Some r) o fs s) as (rows & Q1 & E1 & S1 & _); [exact As|exact Fo|exact Rp|exact T|exact R|].
  destruct (srun (comparing c z y) r (Some q) o' fs' s') as (rows' & Q2 & E2 & S2 & _); [exact As|exact Fo|exact (sturned _ _ _ _ Rp)|intros i [I|I]; apply T; [now right|now left]|exact R'|].
  exists rows, rows'. do 2 (split; [assumption|]).
  refine (turned_ok (of_archives x) symbol_key of_symbol stold skey_own q r (c_args (comparing c y z)) rows rows' E1 (rows_args _ _ _ _ _ (c_args (comparing c z y)) (c_args (comparing c y z)) _ eq_refl _ eq_refl E2) S1 S2 _ _).
  - exact (eq_trans (sgiven _ _ _ P1) (eq_sym (sgiven _ _ _ P2))).
  - intros i I. apply T. now left.
  - intros i I. apply T. now right.
Qed.
Lemma sstep_runs w y z q1 q2 q3 o o' o2 fs fs' fs2 s s' s2 : symbols_reported d (comparing c w y) q1 (Some q2) -> symbols_reported d (comparing c y z) q2 (Some q3) ->
  tells_symbols q1 (Some q2) -> tells_symbols q2 (Some q3) ->
  run_files d (get_memory_types chip_info) render encode ord pf (comparing c w y) o (start fs) = (Done tt, s) ->
  run_files d (get_memory_types chip_info) render encode ord pf (comparing c y z) o' (start fs') = (Done tt, s') ->
  run_files d (get_memory_types chip_info) render encode ord pf (comparing c w z) o2 (start fs2) = (Done tt, s2) ->
  exists rows rows' all, s_printed s = [PEntries rows] /\ s_printed s' = [PEntries rows'] /\ s_printed s2 = [PEntries all] /\ steps (c_args c) rows rows' all.
Proof.
  intros Rp Rp' T T' R R' R2. pose proof Rp as (P1 & (fy & Ey & P2) & U & V). injection Ey as <-. pose proof Rp' as (_ & (fz & Ez & P3) & _). injection Ez as <-.
  assert (Rp2 : symbols_reported d (comparing c w z) q1 (Some q3)). { split; [exact P1|]. split; [exists z; split; [reflexivity|exact P3]|]. split; assumption. }
  assert (T2 : tells_symbols q1 (Some q3)) by (intros i [I|I]; [apply T; now left|apply T'; now right]).
  destruct (srun (comparing c w y) q1 (Some q2) o fs s) as (rows & Q1 & E1 & S1 & _); [exact As|exact Fo|exact Rp|exact T|exact R|].
  destruct (srun (comparing c y z) q2 (Some q3) o' fs' s') as (rows' & Q2 & E2 & S2 & S3); [exact As|exact Fo|exact Rp'|exact T'|exact R'|].
  destruct (srun (comparing c w z) q1 (Some q3) o2 fs2 s2) as (all & Q3 & E3 & _); [exact As|exact Fo|exact Rp2|exact T2|exact R2|].
  exists rows, rows', all. do 3 (split; [assumption|]).
  refine (steps_ok (of_archives x) symbol_key of_symbol stold sown_key (sown_P x) skey_own q1 q2 q3 (c_args (comparing c w z)) rows rows' all (rows_args _ _ _ _ _ (c_args (comparing c w y)) (c_args (comparing c w z)) _ eq_refl _ eq_refl E1) E2 E3 S1 S2 (S3 _ eq_refl) _ _ _).
  - exact (eq_trans (sgiven _ _ _ P2) (eq_sym (sgiven _ _ _ P3))).
  - intros i I. apply T. now left.
  - intros i I. apply T'. now left.
  - intros i I. apply T'. now right.
Qed.
End Symbols.
