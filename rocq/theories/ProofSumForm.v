(** * The summary in two formats *)
From Coq Require Import Ascii String List ZArith Lia Bool Permutation Sorted.
From Verif Require Import Base MemMap SpecTree SpecOps Filter SpecFilter Pipeline SpecPipe SpecBuild SpecBytes SpecShape SpecSyms PyStr MapFile SpecMap ProofBuild ProofBytes ProofBytes2 ProofBytes3
  ElfRead SpecElf Project SpecProject SpecEnd ProofEnd Chips SpecChips Deps Table SpecTable Formats Main SpecMain Command SpecCommand SpecFail SpecReport ProofCommand1 ProofCommand2 ProofReport2 ProofReport4 ProofReport5
  SpecAdds ProofAdds SpecSteps ProofSteps SpecCompare SpecMerge ProofMerge2 ProofMerge4 SpecLayout ProofLayout SpecForm ProofForm SpecCompareUsage ProofCompareUsage ProofCompareUsage2 SpecSumForm.
Import ListNotations.
Open Scope list_scope.
Open Scope Z_scope.

Lemma some_measured (f : account -> Z -> Prop) k r : (forall q, exists n, f q n) -> exists v, measured k r f v.
Proof.
  intros H. destruct (H k) as (x & X). destruct r as [q|]; [destruct (H q) as (y & Y); exists (x, x - y); split; [exact X|now exists y]|exists (x, 0); now split].
Qed.
Lemma shown_exists a N : exists n, shown_section a N n.
Proof.
  unfold shown_section. destruct (a_no_abbrev a && negb (a_unify a)); [now exists N|]. destruct (proj2 (label_abbrev N (abbrev N)) eq_refl) as (b & A & _). exists ("."%char :: b), b. now split.
Qed.
Section Same.
Variables (k : account) (r : option account) (a b : args) (gs : list pgroup) (js : jsummary).
Hypothesis Rg : groups_right (a_unify a) k r a gs.
Hypothesis Rj : layout_right k r b js.
Hypothesis Eu : a_unify b = a_unify a.
Hypothesis Es : a_show_unused b = a_show_unused a.
Hypothesis Ed : a_diff b = a_diff a.
Hypothesis Ec : a_show_unchanged b = a_show_unchanged a.
Lemma lists_same T q : lists_type b T q <-> lists_type a T q.
Proof. unfold lists_type, listed_type. rewrite Es. reflexivity. Qed.
Lemma present_same T : present k r (lists_type b T) <-> present k r (lists_type a T).
Proof. unfold present. destruct r; rewrite ?lists_same; reflexivity. Qed.
Lemma all_same : shows_all b -> shows_all a.
Proof. unfold shows_all. rewrite Ed, Ec. tauto. Qed.
Lemma json_type_of g : In g gs -> exists j, In j (js_layout js) /\ j_name j = pg_type g.
Proof.
  intros I. assert (J : In (pg_type g) (map j_name (js_layout js))). { apply (lr_types _ _ _ _ Rj), present_same. destruct Rg as (_ & Ts & _). apply Ts. now apply List.in_map. }
  apply List.in_map_iff in J. destruct J as (j & E & J). now exists j.
Qed.
(** the names of the parts *)
Lemma part_names j n : In j (js_layout js) -> In n (map fst (j_parts j)) <-> exists N, present k r (sect_listed (a_unify a) (j_name j) N) /\ json_name b N n.
Proof.
  intros Ij. pose proof (lr_type _ _ _ _ Rj) as F. rewrite Forall_forall in F. rewrite (jt_names _ _ _ _ (F j Ij)). unfold json_name. rewrite Eu. destruct (a_unify a) eqn:U; cbn [sect_listed]; [|reflexivity].
  assert (L : forall N, shown_section b N n <-> label [N] n) by (intros N; unfold shown_section; rewrite Eu, andb_false_r; reflexivity). split.
  - intros (N & P & S). exists n. split; [|reflexivity]. apply L in S. destruct P as [P|P]; [left; now exists N|right]. destruct r; [now exists N|contradiction].
  - intros (N & P & ->). destruct P as [(M & Lb & P)|P]; [exists M; split; [now left|now apply L]|]. destruct r; [|contradiction]. destruct P as (M & Lb & P). exists M. split; [now right|now apply L].
Qed.
Lemma part_figure j n z : In j (js_layout js) -> In (n, z) (j_parts j) -> exists N, present k r (sect_listed (a_unify a) (j_name j) N) /\ json_name b N n /\ sect_bytes (a_unify a) (j_name j) N k z.
Proof.
  intros Ij I. pose proof (lr_type _ _ _ _ Rj) as F. rewrite Forall_forall in F. pose proof (jt_part _ _ _ _ (F j Ij) n z I) as P. unfold part_right in P. rewrite Eu in P.
  destruct (proj1 (part_names j n Ij) (List.in_map fst _ _ I)) as (N & Q & J). destruct (a_unify a) eqn:U; cbn [sect_listed sect_bytes] in *.
  - exists N. split; [exact Q|]. split; [exact J|]. unfold json_name in J. rewrite Eu in J. now subst n.
  - destruct P as (M & P1 & P2 & P3). exists M. split; [exact P1|]. split; [unfold json_name; now rewrite Eu|exact P3].
Qed.
Lemma section_shown g N z : In g gs -> shows_all a -> present k r (sect_listed (a_unify a) (pg_type g) N) -> sect_bytes (a_unify a) (pg_type g) N k z -> exists v, In (N, v) (pg_sections g) /\ fst v = z.
Proof.
  intros Ig Sa P B. destruct (some_measured (sect_bytes (a_unify a) (pg_type g) N) k r (sect_value _ _ _)) as (v & M). exists v. split.
  - apply (proj2 (proj2 (group_is _ _ _ _ _ Rg g Ig))). split; [exact P|]. split; [exact M|now apply all_differs].
  - exact (sect_unique _ _ _ _ _ _ (proj1 M) B).
Qed.
Lemma in_json g j N v n : In g gs -> In j (js_layout js) -> j_name j = pg_type g -> shows_all b \/ a_unify b = true \/ a_no_abbrev b = true ->
  In (N, v) (pg_sections g) -> json_name b N n -> (forall M w, In (M, w) (pg_sections g) -> json_name b M n -> M = N) -> In (n, fst v) (j_parts j).
Proof.
  intros Ig Ij E Case I Jn Only. pose proof (proj1 (proj2 (proj2 (group_is _ _ _ _ _ Rg g Ig)) N v) I) as (P & (M1 & _) & _). rewrite <- E in P, M1.
  assert (In_n : In n (map fst (j_parts j))) by (apply (part_names j n Ij); now exists N). apply List.in_map_iff in In_n. destruct In_n as ((n' & z) & En & Iz). cbn [fst] in En. subst n'.
  destruct (part_figure j n z Ij Iz) as (M & Pm & Jm & Bm).
  assert (EM : M = N).
  { destruct Case as [Sa|[U|Na]].
    - rewrite E in Pm, Bm. destruct (section_shown g M z Ig (all_same Sa) Pm Bm) as (w & Iw & _). exact (Only M w Iw Jm).
    - unfold json_name in Jm, Jn. rewrite U in Jm, Jn. congruence.
    - unfold json_name, shown_section in Jm, Jn. rewrite Na in Jm, Jn. destruct (a_unify b); cbn in Jm, Jn; congruence. }
  subst M. rewrite (sect_unique _ _ _ _ _ _ M1 Bm). exact Iz.
Qed.
Lemma summary_same : same_summary b gs js.
Proof.
  split; [exact (lr_once _ _ _ _ Rj)|]. split.
  - intros g Ig. destruct (json_type_of g Ig) as (j & Ij & E). exists j. split; [exact Ij|]. split; [exact E|]. pose proof (lr_type _ _ _ _ Rj) as F. rewrite Forall_forall in F. specialize (F j Ij).
    destruct (group_is _ _ _ _ _ Rg g Ig) as ((U1 & _) & _ & Sg). split; [rewrite <- E in U1; exact (used_unique _ _ _ _ (jt_used _ _ _ _ F) U1)|]. split; [exact (jt_once _ _ _ _ F)|]. split; [|split].
    + intros N v I. apply Sg in I. destruct I as (P & _). assert (X : exists n, json_name b N n) by (unfold json_name; destruct (a_unify b); [now exists N|apply shown_exists]). destruct X as (n & Jn). exists n. split; [exact Jn|].
      apply (part_names j n Ij). exists N. split; [now rewrite E|exact Jn].
    + intros Case N v n I Jn Only. exact (in_json g j N v n Ig Ij E Case I Jn Only).
    + intros Sa n z I. destruct (part_figure j n z Ij I) as (N & P & Jn & B). rewrite E in P, B. destruct (section_shown g N z Ig (all_same Sa) P B) as (v & Iv & Ev). exists N, v. split; [exact Iv|]. split; [exact Jn|now symmetry].
  - intros Sa j Ij. destruct Rg as (_ & Ts & _). apply Ts. split; [apply present_same, (lr_types _ _ _ _ Rj); now apply List.in_map|]. destruct (some_measured (used_bytes (j_name j)) k r (used_value _)) as (v & M). exists v. split; [exact M|]. apply all_differs, all_same, Sa.
Qed.
End Same.
Lemma summary_form d c c' k r o o' fs fs' s s' render encode ord pf :
  summarised d c k r -> other_form c c' -> of_types (c_args c) -> a_format (c_args c) = FTable \/ a_format (c_args c) = FText \/ a_format (c_args c) = FCsv -> a_format (c_args c') = FJson2 ->
  run_files d (get_memory_types chip_info) render encode ord pf c o (start fs) = (Done tt, s) ->
  run_files d (get_memory_types chip_info) render encode ord pf c' o' (start fs') = (Done tt, s') ->
  exists gs js, shows_usage (c_args c) s gs /\ s_printed s' = [PJson js] /\ same_summary (c_args c') gs js.
Proof.
  intros Su Of Ty Fo Fj R R'. pose proof Su as (P & Q & D).
  destruct (usage_shown d c k r o fs s render encode ord pf Su Ty Fo R) as (gs & S1 & G).
  pose proof Of as (E1 & E2 & E3 & E4 & E5 & E6 & E7 & E8 & E9 & E10).
  assert (P' : project_at d (c_args c') (c_input c') k) by (rewrite E1; exact (project_form d c c' _ _ Of P)).
  assert (Q' : reference d (c_args c') r). { destruct r as [q|]; cbn [reference] in *; [|now rewrite E6]. destruct Q as (fn & X & Y). exists fn. rewrite E6. split; [exact X|exact (project_form d c c' _ _ Of Y)]. }
  assert (D' : a_archive_dependencies (c_args c') = false) by congruence.
  destruct (layout_printed d c' k r o' fs' s' render encode ord pf) as (js & S2 & L); [|destruct Ty as (T1 & T2 & T3 & T4); repeat split; congruence|exact Fj|exact R'|].
  - destruct (a_unify (c_args c')) eqn:U; [right|left]; (split; [exact P'|]; split; [exact Q'|]; now split).
  - exists gs, js. split; [exact S1|]. split; [exact S2|]. exact (summary_same k r (c_args c) (c_args c') gs js G L E7 E8 E6 E9).
Qed.
