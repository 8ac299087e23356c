(** * Comparisons of summaries *)
From Coq Require Import Ascii String List ZArith Lia Bool Permutation Sorted.
From Verif Require Import Base MemMap SpecTree SpecOps Filter SpecFilter Pipeline SpecPipe SpecBuild SpecBytes SpecShape SpecSyms PyStr MapFile SpecMap ProofBuild ProofBytes ProofBytes2 ProofBytes3
  ElfRead SpecElf Project SpecProject SpecEnd ProofEnd Chips SpecChips Deps Table SpecTable Formats Main SpecMain Command SpecCommand SpecFail SpecReport ProofCommand1 ProofCommand2 ProofReport2 ProofReport4 ProofReport5
  SpecAdds ProofAdds SpecSteps ProofSteps SpecCompare SpecMerge ProofMerge2 ProofMerge4 SpecCompareUsage ProofCompareUsage.
Import ListNotations.
Open Scope list_scope.
Open Scope Z_scope.

Lemma usage_compares u k r a b new old both : (forall T q, lists_type a T q <-> lists_type b T q) -> given (a_diff a) = false -> given (a_diff b) = true ->
  groups_right u k None a new -> groups_right u r None a old -> groups_right u k (Some r) b both -> compares_usage b new old both.
Proof.
  intros Lt Ga Gb Rn Ro Rb.
  assert (Tn : forall T, In T (map pg_type new) \/ In T (map pg_type old) <-> present k (Some r) (lists_type b T)).
  { intros T. rewrite (alone_types u k a new Rn Ga), (alone_types u r a old Ro Ga). unfold present. now rewrite !Lt. }
  split; [|split; [|split]].
  - intros T. rewrite Tn. destruct Rb as (_ & Ts & _). rewrite Ts. destruct (used_value T k) as (x & X). destruct (used_value T r) as (y & Y).
    split; intros (P & H); (split; [exact P|]).
    + destruct H as (v & M & D). rewrite (measured_pair k r (used_bytes T) v x y (used_unique T) M X Y) in D. destruct (a_show_unchanged b) eqn:Sb; [now left|right]. intros v1 v2 F1 F2.
      rewrite (alone_used u k a new Rn Ga T v1 x F1 X), (alone_used u r a old Ro Ga T v2 y F2 Y). cbn [fst]. specialize (D Gb Sb). cbn [snd] in D. lia.
    + exists (x, x - y). split; [now apply pair_measured|]. intros _ Sb. destruct H as [H|H]; [congruence|]. destruct (used_there new T) as (v1 & F1). destruct (used_there old T) as (v2 & F2). specialize (H v1 v2 F1 F2).
      rewrite (alone_used u k a new Rn Ga T v1 x F1 X), (alone_used u r a old Ro Ga T v2 y F2 Y) in H. cbn [fst snd] in *. lia.
  - intros g v w Ig F1 F2. destruct (used_value (pg_type g) k) as (x & X). destruct (used_value (pg_type g) r) as (y & Y).
    rewrite (alone_used u k a new Rn Ga _ v x F1 X), (alone_used u r a old Ro Ga _ w y F2 Y). cbn [fst]. apply (measured_pair k r (used_bytes (pg_type g))); try assumption; [apply used_unique|]. apply (group_is u k (Some r) b both Rb g Ig).
  - intros g N Ig. set (T := pg_type g). destruct (sect_value u T N k) as (x & X). destruct (sect_value u T N r) as (y & Y).
    rewrite (alone_has u k a new Rn Ga), (alone_has u r a old Ro Ga). pose proof (proj2 (proj2 (group_is u k (Some r) b both Rb g Ig)) N) as Gi. fold T in Gi. split.
    + intros I. apply List.in_map_iff in I. destruct I as ((M & v) & E & I). cbn [fst] in E. subst M. apply Gi in I. destruct I as (P & M & D). split; [exact P|].
      rewrite (measured_pair k r (sect_bytes u T N) v x y (sect_unique u T N) M X Y) in D. destruct (a_show_unchanged b) eqn:Sb; [now left|right]. intros v1 v2 F1 F2.
      rewrite (alone_section u k a new Rn Ga T N v1 x F1 X), (alone_section u r a old Ro Ga T N v2 y F2 Y). cbn [fst]. specialize (D Gb Sb). cbn [snd] in D. lia.
    + intros (P & H). apply (List.in_map fst _ (N, (x, x - y))). apply Gi. split; [exact P|]. split; [now apply pair_measured|]. intros _ Sb. destruct H as [H|H]; [congruence|].
      destruct (section_there new T N) as (v1 & F1). destruct (section_there old T N) as (v2 & F2). specialize (H v1 v2 F1 F2).
      rewrite (alone_section u k a new Rn Ga T N v1 x F1 X), (alone_section u r a old Ro Ga T N v2 y F2 Y) in H. cbn [fst snd] in *. lia.
  - intros g N v0 v w Ig I F1 F2. set (T := pg_type g) in *. destruct (sect_value u T N k) as (x & X). destruct (sect_value u T N r) as (y & Y).
    rewrite (alone_section u k a new Rn Ga T N v x F1 X), (alone_section u r a old Ro Ga T N w y F2 Y). cbn [fst]. apply (measured_pair k r (sect_bytes u T N)); try assumption; [apply sect_unique|].
    apply (proj2 (proj2 (group_is u k (Some r) b both Rb g Ig))) in I. apply I.
Qed.
Lemma turned_measured k r (f : account -> Z -> Prop) v : measured k (Some r) f v -> measured r (Some k) f (fst v - snd v, - snd v).
Proof. intros (M1 & y & M2 & E). split; [cbn [fst]; replace (fst v - snd v) with y by lia; exact M2|]. exists (fst v). split; [exact M1|]. cbn [fst snd]. lia. Qed.
Lemma turned_differs a v : differs a v -> differs a (fst v - snd v, - snd v).
Proof. intros D G U. specialize (D G U). cbn [snd]. lia. Qed.
Lemma turned_present k r P : present k (Some r) P -> present r (Some k) P.
Proof. unfold present. tauto. Qed.
Lemma usage_turned u k r a b gs gs' : (forall T q, lists_type a T q <-> lists_type b T q) -> (forall v, differs a v <-> differs b v) ->
  groups_right u k (Some r) a gs -> groups_right u r (Some k) b gs' -> turned_usage gs gs'.
Proof.
  intros Lt Df R R'.
  assert (Pl : forall T, present k (Some r) (lists_type a T) <-> present r (Some k) (lists_type b T)) by (intros T; unfold present; rewrite !Lt; tauto).
  assert (Mv : forall f, (exists v, measured k (Some r) f v /\ differs a v) <-> (exists v, measured r (Some k) f v /\ differs b v)).
  { intros f. split; intros (v & M & D); exists (fst v - snd v, - snd v); (split; [now apply turned_measured|]); apply Df, turned_differs, D || (apply turned_differs, Df, D). }
  assert (Ty : forall T, In T (map pg_type gs) <-> In T (map pg_type gs')) by (intros T; destruct R as (_ & -> & _), R' as (_ & -> & _); rewrite Pl, Mv; reflexivity).
  assert (Se : forall T N, has_section gs T N <-> has_section gs' T N).
  { intros T N. rewrite (section_has u k (Some r) a gs R), (section_has u r (Some k) b gs' R'), Ty, Mv. unfold present. tauto. }
  split; [exact Ty|]. split; [exact Se|]. split.
  - intros T v v' F F'. destruct (used_case u k (Some r) a gs R T v F) as [(I & M)|(Ni & ->)], (used_case u r (Some k) b gs' R' T v' F') as [(I' & M')|(Ni' & ->)].
    + apply turned_measured in M. destruct M' as (A1 & y & A2 & A3), M as (B1 & z & B2 & B3). rewrite <- (used_unique T k _ _ A2 B2) in B3. pose proof (used_unique T r _ _ A1 B1) as E. destruct v'; cbn [fst snd] in *. f_equal; lia.
    + exfalso. apply Ni', Ty, I.
    + exfalso. apply Ni, Ty, I'.
    + reflexivity.
  - intros T N v v' F F'. destruct (section_case u k (Some r) a gs R T N v F) as [(I & M)|(Ni & ->)], (section_case u r (Some k) b gs' R' T N v' F') as [(I' & M')|(Ni' & ->)].
    + apply turned_measured in M. destruct M' as (A1 & y & A2 & A3), M as (B1 & z & B2 & B3). rewrite <- (sect_unique u T N k _ _ A2 B2) in B3. pose proof (sect_unique u T N r _ _ A1 B1) as E. destruct v'; cbn [fst snd] in *. f_equal; lia.
    + exfalso. apply Ni', Se, I.
    + exfalso. apply Ni, Se, I'.
    + reflexivity.
Qed.
Lemma usage_steps u k1 k2 k3 a b e gs gs' all : a_show_unchanged b = a_show_unchanged a -> a_show_unchanged e = a_show_unchanged a ->
  groups_right u k1 (Some k2) a gs -> groups_right u k2 (Some k3) b gs' -> groups_right u k1 (Some k3) e all -> steps_usage a gs gs' all.
Proof.
  intros Eb Ee R R' Ra. split.
  - intros T v v' w F F' Fa. destruct (used_value T k1) as (x & X). destruct (used_value T k2) as (y & Y). destruct (used_value T k3) as (z & Zz).
    destruct (both_used u k1 k2 a gs R T v x y F X Y) as (A1 & A2). destruct (both_used u k2 k3 b gs' R' T v' y z F' Y Zz) as (B1 & B2). destruct (both_used u k1 k3 e all Ra T w x z Fa X Zz) as (C1 & C2).
    split; [lia|]. intros Sa. rewrite A2, C2 by (right; congruence). reflexivity.
  - intros Sa T N v v' w F F' Fa. destruct (sect_value u T N k1) as (x & X). destruct (sect_value u T N k2) as (y & Y). destruct (sect_value u T N k3) as (z & Zz).
    rewrite (both_section u k1 k2 a gs R T N v x y F X Y), (both_section u k2 k3 b gs' R' T N v' y z F' Y Zz), (both_section u k1 k3 e all Ra T N w x z Fa X Zz) by (right; congruence). cbn [fst snd]. lia.
Qed.

(** ** runs *)
Lemma usage_shown d c k r o fs s render encode ord pf : summarised d c k r -> of_types (c_args c) -> a_format (c_args c) = FTable \/ a_format (c_args c) = FText \/ a_format (c_args c) = FCsv ->
  run_files d (get_memory_types chip_info) render encode ord pf c o (start fs) = (Done tt, s) ->
  exists gs, shows_usage (c_args c) s gs /\ groups_right (a_unify (c_args c)) k r (c_args c) gs.
Proof.
  intros (P & Q & V) Ty Fo Rn. destruct (a_unify (c_args c)) eqn:U.
  - destruct (merged_usage d c k r o fs s render encode ord pf) as (tb & i & gs & rows & H1 & H2 & H3 & H4 & H5 & H6 & H7 & _); [now split|assumption..|]. exists gs. split.
    + exists tb, rows. rewrite U. do 5 (split; [assumption|]). eapply Forall_impl; [|exact H7]. intros g [_ _ _ D _]. exact D.
    + split; [exact H5|]. split; [exact H6|]. eapply Forall_impl; [|exact H7]. intros g [A1 _ _ A4 A5]. split; [exact A1|]. now split.
  - destruct (usage_report d c k r o fs s render encode ord pf) as (tb & i & gs & rows & H1 & H2 & H3 & H4 & H5 & H6 & H7 & _); [now split|assumption..|]. exists gs. split.
    + exists tb, rows. rewrite U. do 5 (split; [assumption|]). eapply Forall_impl; [|exact H7]. intros g [_ _ _ D _]. exact D.
    + split; [exact H5|]. split; [exact H6|]. eapply Forall_impl; [|exact H7]. intros g [A1 _ _ A4 A5]. split; [exact A1|]. now split.
Qed.
Section Runs.
Variables (d : disk) (c : cmd) (render : console -> list piece -> str) (encode : str -> str) (ord : set_order) (pf : pct_format).
Hypothesis Ty : of_types (c_args c).
Hypothesis Fo : a_format (c_args c) = FTable \/ a_format (c_args c) = FText \/ a_format (c_args c) = FCsv.
Lemma summaries_compared x y k r o o' o2 fs fs' fs2 s s' s2 : summarised d (comparing c x y) k (Some r) ->
  run_files d (get_memory_types chip_info) render encode ord pf (reporting c x) o (start fs) = (Done tt, s) ->
  run_files d (get_memory_types chip_info) render encode ord pf (reporting c y) o' (start fs') = (Done tt, s') ->
  run_files d (get_memory_types chip_info) render encode ord pf (comparing c x y) o2 (start fs2) = (Done tt, s2) ->
  exists new old both, shows_usage (c_args (reporting c x)) s new /\ shows_usage (c_args (reporting c y)) s' old /\ shows_usage (c_args (comparing c x y)) s2 both /\ compares_usage (c_args c) new old both.
Proof.
  intros Su R1 R2 R3. pose proof Su as (P & (fy & Ey & Q) & V). injection Ey as <-.
  destruct (usage_shown d (reporting c x) k None o fs s render encode ord pf) as (new & N1 & N2); [split; [exact P|split; [reflexivity|exact V]]|exact Ty|exact Fo|exact R1|].
  destruct (usage_shown d (reporting c y) r None o' fs' s' render encode ord pf) as (old & O1 & O2); [split; [exact Q|split; [reflexivity|exact V]]|exact Ty|exact Fo|exact R2|].
  destruct (usage_shown d (comparing c x y) k (Some r) o2 fs2 s2 render encode ord pf) as (both & B1 & B2); [exact Su|exact Ty|exact Fo|exact R3|].
  exists new, old, both. do 3 (split; [assumption|]). change (compares_usage (c_args (comparing c x y)) new old both).
  refine (usage_compares (a_unify (c_args c)) k r (c_args (reporting c x)) (c_args (comparing c x y)) new old both (fun T q => conj (fun H => H) (fun H => H)) eq_refl _ N2 O2 B2).
  exact (project_given _ _ _ _ Q).
Qed.
Lemma given_reference x y k r : summarised d (comparing c x y) k (Some r) -> given (Some y) = true.
Proof. intros (_ & (fy & Ey & Q) & _). injection Ey as <-. exact (project_given _ _ _ _ Q). Qed.
Lemma summaries_turned x y k r o o' fs fs' s s' : summarised d (comparing c x y) k (Some r) ->
  run_files d (get_memory_types chip_info) render encode ord pf (comparing c x y) o (start fs) = (Done tt, s) ->
  run_files d (get_memory_types chip_info) render encode ord pf (comparing c y x) o' (start fs') = (Done tt, s') ->
  exists gs gs', shows_usage (c_args (comparing c x y)) s gs /\ shows_usage (c_args (comparing c y x)) s' gs' /\ turned_usage gs gs'.
Proof.
  intros Su R1 R2. pose proof Su as (P & (fy & Ey & Q) & V). injection Ey as <-.
  assert (Sv : summarised d (comparing c y x) r (Some k)) by (split; [exact Q|split; [exists x; split; [reflexivity|exact P]|exact V]]).
  destruct (usage_shown d (comparing c x y) k (Some r) o fs s render encode ord pf) as (gs & N1 & N2); [exact Su|exact Ty|exact Fo|exact R1|].
  destruct (usage_shown d (comparing c y x) r (Some k) o' fs' s' render encode ord pf) as (gs' & O1 & O2); [exact Sv|exact Ty|exact Fo|exact R2|].
  exists gs, gs'. do 2 (split; [assumption|]).
  refine (usage_turned (a_unify (c_args c)) k r (c_args (comparing c x y)) (c_args (comparing c y x)) gs gs' (fun T q => conj (fun H => H) (fun H => H)) _ N2 O2).
  intros v. unfold differs. cbn [comparing c_args a_diff a_show_unchanged]. rewrite (given_reference _ _ _ _ Su), (given_reference _ _ _ _ Sv). reflexivity.
Qed.
Lemma summaries_steps x y z k1 k2 k3 o o' o2 fs fs' fs2 s s' s2 : summarised d (comparing c x y) k1 (Some k2) -> summarised d (comparing c y z) k2 (Some k3) ->
  run_files d (get_memory_types chip_info) render encode ord pf (comparing c x y) o (start fs) = (Done tt, s) ->
  run_files d (get_memory_types chip_info) render encode ord pf (comparing c y z) o' (start fs') = (Done tt, s') ->
  run_files d (get_memory_types chip_info) render encode ord pf (comparing c x z) o2 (start fs2) = (Done tt, s2) ->
  exists gs gs' all, shows_usage (c_args (comparing c x y)) s gs /\ shows_usage (c_args (comparing c y z)) s' gs' /\ shows_usage (c_args (comparing c x z)) s2 all /\ steps_usage (c_args c) gs gs' all.
Proof.
  intros Su Sv R1 R2 R3. pose proof Su as (P & _ & V). pose proof Sv as (_ & (fz & Ez & Q) & _). injection Ez as <-.
  assert (Sw : summarised d (comparing c x z) k1 (Some k3)) by (split; [exact P|split; [exists z; split; [reflexivity|exact Q]|exact V]]).
  destruct (usage_shown d (comparing c x y) k1 (Some k2) o fs s render encode ord pf) as (gs & N1 & N2); [exact Su|exact Ty|exact Fo|exact R1|].
  destruct (usage_shown d (comparing c y z) k2 (Some k3) o' fs' s' render encode ord pf) as (gs' & O1 & O2); [exact Sv|exact Ty|exact Fo|exact R2|].
  destruct (usage_shown d (comparing c x z) k1 (Some k3) o2 fs2 s2 render encode ord pf) as (all & B1 & B2); [exact Sw|exact Ty|exact Fo|exact R3|].
  exists gs, gs', all. do 3 (split; [assumption|]).
  exact (usage_steps (a_unify (c_args c)) k1 k2 k3 (c_args (comparing c x y)) (c_args (comparing c y z)) (c_args (comparing c x z)) gs gs' all eq_refl eq_refl N2 O2 B2).
Qed.
End Runs.
