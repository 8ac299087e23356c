(** * --unify adds up rows: the reports *)
From Coq Require Import Ascii String List ZArith Lia Bool Permutation Sorted.
From Verif Require Import Base MemMap SpecTree SpecOps Filter SpecFilter Pipeline SpecPipe SpecBuild SpecBytes SpecShape PyStr MapFile SpecMap
  ElfRead SpecElf Project SpecProject SpecEnd Chips SpecChips Deps Table SpecTable Formats Main SpecMain Command SpecCommand SpecFail SpecReport ProofReport5 SpecAdds ProofAdds SpecGroup ProofMergeFiles1 ProofGroup
  ProofCommand3 ProofShape ProofFilter SpecSyms SpecSymbols ProofSymbols4 SpecMerge ProofMerge2 ProofMerge3 ProofMerge5 SpecMergeFiles ProofMergeFiles2 ProofMergeFiles4 SpecMergeSyms ProofMergeSyms4.
Import ListNotations.
Open Scope list_scope.
Open Scope Z_scope.

Lemma short_measured (Q : item -> Prop) grp c k r v : (forall i, grp i = true <-> Q i) ->
  measured k r (fun k n => exists own, (forall i, own i = true <-> Q i) /\ own_bytes own c k n) v <-> measured k r (own_bytes grp c) v.
Proof.
  intros G. assert (H : forall h n, (exists own, (forall i, own i = true <-> Q i) /\ own_bytes own c h n) <-> own_bytes grp c h n).
  { intros h n. split; [|intros O; exists grp; now split]. intros (own & O & B). apply (own_ext own); [|exact B]. intros j _. apply ProofAdds.same_bool. now rewrite O, G. }
  unfold measured. rewrite H. destruct r as [k'|]; [|tauto]. split; intros (A & n & B & E); (split; [exact A|]); exists n; (split; [now apply H|exact E]).
Qed.
Lemma named_is_basename s z : after_last "/"%char s z <-> z = basename s.
Proof. split; [intros H; exact (after_last_unique _ _ _ _ H (basename_after s))|intros ->; apply basename_after]. Qed.

Lemma unified_reported d c k r : reported d (unify_on false c) k r -> merged d (unify_on true c) k r.
Proof. intros (P & Q & _ & V). split; [exact P|]. split; [exact Q|]. split; [reflexivity|exact V]. Qed.
Lemma plain_args files c k r rows : entries_right files k r (c_args (unify_on false c)) rows -> entries_right files k r (c_args (unify_on true c)) rows.
Proof.
  intros (N & K & R). split; [exact N|]. split; [exact K|]. intros n e I. destruct (R n e I) as (i & P & E & A & Er). exists i. split; [exact P|]. split; [exact E|]. split; [exact A|].
  destruct Er as [E1 E2 E3 E4 E5 E6 E7 E8]. constructor; assumption.
Qed.
Lemma archives_grouped d c k r o o' fs fs' s s' render encode ord pf :
  reported d (unify_on false c) k r -> asked false (c_args c) -> (given (a_archive_details (c_args c)) = true -> a_use_dwarf (c_args c) <> Some true) -> a_format (c_args c) = FJson2 ->
  run_files d (get_memory_types chip_info) render encode ord pf (unify_on false c) o (start fs) = (Done tt, s) ->
  run_files d (get_memory_types chip_info) render encode ord pf (unify_on true c) o' (start fs') = (Done tt, s') ->
  exists plain unified, s_printed s = [PEntries plain] /\ s_printed s' = [PEntries unified] /\ grouped (c_args c) plain unified.
Proof.
  intros Rp As Dw Fo R R'.
  destruct (entries_json d (unify_on false c) k r o false fs s render encode ord pf Rp As Dw (fun X => ltac:(discriminate)) Fo R) as (plain & P & Rt & _).
  destruct (merged_json d (unify_on true c) k r o' fs' s' render encode ord pf (unified_reported _ _ _ _ Rp) As Dw Fo R') as (uni & P' & Ru & _).
  exists plain, uni. split; [exact P|]. split; [exact P'|]. intros y part Pt. apply plain_args in Rt. destruct Rt as (N & K & Rr), Ru as (_ & Ku & Rru).
  set (grp := fun i => basename (it_archive i) =?= y).
  assert (G : forall i, grp i = true <-> base_name i y) by (intros i; unfold grp, base_name; rewrite named_is_basename, keq_iff; intuition congruence).
  assert (Sm : forall c v, of_section c \/ measured k r (base_bytes y c) v <-> of_section c \/ measured k r (own_bytes grp c) v).
  { intros [|T|T B] v; [| |cbn; tauto].
    - pose proof (short_measured (fun i => base_name i y) grp ColTotal k r v G) as H. split; (intros [[]|M]; right; apply H; exact M).
    - pose proof (short_measured (fun i => base_name i y) grp (ColType T) k r v G) as H. split; (intros [[]|M]; right; apply H; exact M). }
  assert (S1 : forall v, measured k r (base_bytes y ColTotal) v <-> measured k r (own_bytes grp ColTotal) v) by (intros v; specialize (Sm ColTotal v); cbn in Sm; tauto).
  assert (S2 : forall T v, measured k r (base_bytes y (ColType T)) v <-> measured k r (own_bytes grp (ColType T)) v) by (intros T v; specialize (Sm (ColType T) v); cbn in Sm; tauto).
  apply (grouped_rows k r (c_args (unify_on true c)) it_archive (fun i => of_archive (it_archive i)) grp y plain uni).
  - reflexivity.
  - intros i j _ _ E. unfold grp. now rewrite E.
  - exact N.
  - intros n e I. destruct (Rr n e I) as (i & Pi & E & A & Er). exists i. split; [exact Pi|]. split; [exact E|]. split; [|exact Er]. apply named_is_basename in A. cbn [row_file] in A. unfold grp. rewrite keq_iff, A. intuition congruence.
  - intros i v Pi _ M D. apply K. exists i, v. split; [exact Pi|split; [reflexivity|split; [exact M|exact D]]].
  - rewrite Ku. split; intros (i & v & Pi & Bn & M & D); exists i, v; (split; [exact Pi|]); (split; [now apply G|]); (split; [now apply S1|exact D]).
  - intros e I. apply S1, (me_size _ _ _ _ _ (Rru y e I)).
  - intros e T I. apply (me_types _ _ _ _ _ (Rru y e I)).
  - intros e T st I J. apply S2. exact (me_type _ _ _ _ _ (Rru y e I) T st J).
  - exact Pt.
Qed.
Lemma files_grouped d c k r o o' fs fs' s s' render encode ord pf :
  reported d (unify_on false c) k r -> asked true (c_args c) -> tells_files true k r -> a_format (c_args c) = FJson2 ->
  run_files d (get_memory_types chip_info) render encode ord pf (unify_on false c) o (start fs) = (Done tt, s) ->
  run_files d (get_memory_types chip_info) render encode ord pf (unify_on true c) o' (start fs') = (Done tt, s') ->
  exists plain unified, s_printed s = [PEntries plain] /\ s_printed s' = [PEntries unified] /\ grouped (c_args c) plain unified.
Proof.
  intros Rp As Tf Fo R R'. pose proof As as (_ & A2 & _).
  destruct (entries_json d (unify_on false c) k r o true fs s render encode ord pf Rp As (fun X => ltac:(cbn in X; congruence)) Tf Fo R) as (plain & P & Rt & _).
  destruct (merged_files_json d (unify_on true c) k r o' fs' s' render encode ord pf (unified_reported _ _ _ _ Rp) As Fo R') as (uni & P' & Ru & _).
  exists plain, uni. split; [exact P|]. split; [exact P'|]. intros y part Pt. apply plain_args in Rt. destruct Rt as (N & K & Rr), Ru as (_ & Ku & Rru).
  set (grp := fun i => basename (it_object i) =?= y).
  assert (G : forall i, grp i = true <-> file_name i y) by (intros i; unfold grp, file_name; rewrite named_is_basename, keq_iff; intuition congruence).
  assert (S1 : forall v, measured k r (file_bytes y ColTotal) v <-> measured k r (own_bytes grp ColTotal) v) by (intros v; exact (short_measured (fun i => file_name i y) grp ColTotal k r v G)).
  assert (S2 : forall T v, measured k r (file_bytes y (ColType T)) v <-> measured k r (own_bytes grp (ColType T)) v) by (intros T v; exact (short_measured (fun i => file_name i y) grp (ColType T) k r v G)).
  assert (Ky : forall i j, present k r (places i) -> present k r (places j) -> row_key true j = row_key true i -> it_archive j = it_archive i /\ it_object j = it_object i).
  { intros i j Pi Pj E. cbn [row_key] in E. exact (last_unique _ _ _ _ _ E (Tf eq_refl j Pj) (Tf eq_refl i Pi)). }
  apply (grouped_rows k r (c_args (unify_on true c)) (row_key true) (row_own true) grp y plain uni).
  - intros i j Pi Pj. apply ProofAdds.same_bool. cbn [row_own]. unfold of_object. rewrite andb_true_iff, !keq_iff. split; [intros (E1 & E2); cbn [row_key]; congruence|]. now apply Ky.
  - intros i j Pi Pj E. unfold grp. destruct (Ky j i Pj Pi E) as (_ & ->). reflexivity.
  - exact N.
  - intros n e I. destruct (Rr n e I) as (i & Pi & E & A & Er). exists i. split; [exact Pi|]. split; [exact E|]. split; [|exact Er]. apply named_is_basename in A. cbn [row_file] in A. unfold grp. rewrite keq_iff, A. intuition congruence.
  - intros i v Pi _ M D. apply K. exists i, v. split; [exact Pi|split; [reflexivity|split; [exact M|exact D]]].
  - rewrite Ku. split; intros (i & v & Pi & Bn & M & D); exists i, v; (split; [exact Pi|]); (split; [now apply G|]); (split; [now apply S1|exact D]).
  - intros e I. apply S1, (fe_size _ _ _ _ _ (Rru y e I)).
  - intros e T I. apply (fe_types _ _ _ _ _ (Rru y e I)).
  - intros e T st I J. apply S2. exact (fe_type _ _ _ _ _ (Rru y e I) T st J).
  - exact Pt.
Qed.
Lemma symbols_grouped d c x q r o o' fs fs' s s' render encode ord pf :
  symbols_reported d (unify_on false c) q r -> asked_symbols (c_args c) x -> tells_symbols q r -> a_format (c_args c) = FJson2 ->
  run_files d (get_memory_types chip_info) render encode ord pf (unify_on false c) o (start fs) = (Done tt, s) ->
  run_files d (get_memory_types chip_info) render encode ord pf (unify_on true c) o' (start fs') = (Done tt, s') ->
  exists plain unified, s_printed s = [PEntries plain] /\ s_printed s' = [PEntries unified] /\ grouped (c_args c) plain unified.
Proof.
  intros Rp As Ts Fo R R'.
  destruct (symbols_json d (unify_on false c) x q r o fs s render encode ord pf Rp As Ts Fo R) as (plain & P & _ & (N & K & Rr) & _).
  assert (Mg : symbols_merged d (unify_on true c) q r) by (destruct Rp as (P0 & Q0 & _ & V0); split; [exact P0|]; split; [exact Q0|]; split; [reflexivity|exact V0]).
  destruct (merged_symbols_json d (unify_on true c) x q r o' fs' s' render encode ord pf Mg As Fo R') as (_ & uni & P' & (_ & Ku & Rru) & _).
  exists plain, uni. split; [exact P|]. split; [exact P'|]. intros y part Pt.
  set (grp := fun i => (basename (it_archive i) =?= x) && (it_name i =?= y)).
  assert (G : forall i, grp i = true <-> named x y i) by (intros i; unfold grp, named, base_name; rewrite andb_true_iff, named_is_basename, !keq_iff; intuition congruence).
  assert (S1 : forall v, measured q r (named_bytes x y ColTotal) v <-> measured q r (own_bytes grp ColTotal) v) by (intros v; exact (short_measured (named x y) grp ColTotal q r v G)).
  assert (S2 : forall T v, measured q r (named_bytes x y (ColType T)) v <-> measured q r (own_bytes grp (ColType T)) v) by (intros T v; exact (short_measured (named x y) grp (ColType T) q r v G)).
  assert (Ky : forall i j, present q r (places i) -> present q r (places j) -> symbol_key j = symbol_key i -> it_archive j = it_archive i /\ it_object j = it_object i /\ it_name j = it_name i).
  { intros i j Pi Pj E. destruct (Ts i Pi) as (O1 & N1), (Ts j Pj) as (O2 & N2). unfold symbol_key in E.
    replace (it_archive j ++ ":"%char :: it_object j ++ ":"%char :: it_name j) with ((it_archive j ++ ":"%char :: it_object j) ++ ":"%char :: it_name j) in E by (rewrite <- app_assoc; reflexivity).
    replace (it_archive i ++ ":"%char :: it_object i ++ ":"%char :: it_name i) with ((it_archive i ++ ":"%char :: it_object i) ++ ":"%char :: it_name i) in E by (rewrite <- app_assoc; reflexivity).
    destruct (last_unique _ _ _ _ _ E N2 N1) as (E1 & E2). destruct (last_unique _ _ _ _ _ E1 O2 O1) as (E3 & E4). now repeat split. }
  apply (grouped_rows q r (c_args (unify_on true c)) symbol_key of_symbol grp y plain uni).
  - intros i j Pi Pj. apply ProofAdds.same_bool. unfold of_symbol, of_object. rewrite !andb_true_iff, !keq_iff. split; [intros ((E1 & E2) & E3); unfold symbol_key; congruence|]. intros E. destruct (Ky i j Pi Pj E) as (E1 & E2 & E3). tauto.
  - intros i j Pi Pj E. unfold grp. destruct (Ky j i Pj Pi E) as (-> & _ & ->). reflexivity.
  - exact N.
  - intros n e I. destruct (Rr n e I) as (i & (Pi & B) & E & A & Er). exists i. split; [exact Pi|]. split; [exact E|]. split.
    + rewrite G. unfold named, base_name. rewrite A. tauto.
    + destruct Er as [E1 E2 E3 E4 E5 E6 E7 E8]. constructor; assumption.
  - intros i v Pi Gi M D. apply K. apply G in Gi. exists i, v. split; [split; [exact Pi|apply Gi]|]. split; [reflexivity|split; [exact M|exact D]].
  - rewrite Ku. split; intros (i & v & Pi & Bn & M & D); exists i, v; (split; [exact Pi|]); (split; [now apply G|]); (split; [now apply S1|exact D]).
  - intros e I. apply S1, (ne_size _ _ _ _ _ _ (Rru y e I)).
  - intros e T I. apply (ne_types _ _ _ _ _ _ (Rru y e I)).
  - intros e T st I J. apply S2. exact (ne_type _ _ _ _ _ _ (Rru y e I) T st J).
  - exact Pt.
Qed.
