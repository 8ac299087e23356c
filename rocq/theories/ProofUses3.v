(** * The dependency reports of a project in each format *)
From Coq Require Import Ascii String List ZArith Lia Bool Sorted.
From Verif Require Import Base MemMap SpecTree SpecOps MapFile Deps SpecDeps Filter SpecFilter ProofFilter Pipeline SpecPipe SpecBuild SpecBytes SpecShape ProofSummary2 ProofShape PyStr SpecMap ProofArch ProofDeps ProofDeps2 ProofDot
  ElfRead SpecElf Project SpecProject SpecEnd Chips Table SpecTable ProofTable Formats Main SpecMain ProofMain Command SpecCommand SpecFail SpecReport
  ProofCommand1 ProofCommand3 ProofCommand6 ProofReport2 ProofReport3 ProofReport4 ProofReport5 ProofReport6 SpecUses ProofUses1 ProofUses2.
Import ListNotations.
Open Scope list_scope.
Open Scope Z_scope.

Section Shown.
Variables (k : account) (es : list SpecMap.entry) (ys : list (str * xsym)) (a : args) (M : memmap) (fu : str -> Z * Z) (fn : str -> str -> Z * Z) (fo : (item -> bool) -> str -> str -> Z * Z).
Variables (x : extras).
Hypotheses (F : final a k None M fu fn fo) (Ad : a_archive_dependencies a = true) (Au : a_unify a = false) (SI : set_iteration (x_order x))
  (Cr : forall t, x_crt x = Some t -> proper_crt t /\ map fst t = distinct (map en_symbol es) /\ forall y v, dget y t = Some v <-> last_entry es y v)
  (Sy : exists syms, x_syms x = Some syms /\ forall y, elf_symbol syms y <-> names_code ys y).
Variable r : dict str darch.
Hypothesis E : get_archives_dependencies (x_order x) (x_crt x) M (x_syms x) (final_args a) = Ok r.

Lemma inputs : exists t syms, x_crt x = Some t /\ x_syms x = Some syms /\ proper_crt t.
Proof.
  destruct Sy as (syms & Es & _). destruct (x_crt x) as [t|] eqn:Ec; [|discriminate E]. exists t, syms. split; [reflexivity|]. split; [exact Es|]. now apply Cr.
Qed.
Lemma right keep (sel : str -> Prop) : (forall y d, In (y, d) r -> keep (y, d) = true <-> sel y) ->
  depreport_right k es ys a sel (content (filter keep r)) /\ Forall2 (dep_object k) (content (filter keep r)) (filter keep r).
Proof.
  destruct inputs as (t & syms & Ec & Es & _). destruct (Cr t Ec) as (P & Ck & Ce). destruct Sy as (syms' & Es' & Hs). rewrite Es in Es'. injection Es' as <-. rewrite Ec, Es in E.
  eapply report_right; eassumption.
Qed.
Lemma all_right : depreport_right k es ys a (fun _ => True) (content r) /\ Forall2 (dep_object k) (content r) r.
Proof. destruct (right (fun _ => true) (fun _ => True)) as (A & B); [intros; split; auto|]. rewrite filter_true in A, B by reflexivity. now split. Qed.
Lemma abbrev_is y d : In (y, d) r -> after_last "/"%char y (da_abbrev d).
Proof.
  intros I. destruct all_right as (_ & B). assert (X : forall ds q, Forall2 (dep_object k) ds q -> In (y, d) q -> after_last "/"%char y (da_abbrev d)).
  { induction 1 as [|e p ds q H _ IH]; [contradiction|]. intros [->|J]; [|auto]. destruct H as (H1 & H2 & _). cbn [fst snd] in *. now rewrite H1. }
  eapply X; eassumption.
Qed.
Lemma abbrev_f : a_abbrev (final_args a) = negb (a_no_abbrev a).
Proof. cbn. unfold conflict_abbrev. rewrite Au. now destruct (a_no_abbrev a). Qed.
Lemma shown_is y b : after_last "/"%char y b -> shown_archive a y (shown (final_args a) y b).
Proof. intros H. unfold shown_archive, shown. rewrite abbrev_f. destruct (a_no_abbrev a); [reflexivity|exact H]. Qed.
Lemma shown_archive_unique y s s' : shown_archive a y s -> shown_archive a y s' -> s = s'.
Proof. unfold shown_archive. destruct (a_no_abbrev a); [congruence|]. apply after_last_unique. Qed.

Definition picked (ps : option (list (list SpecFilter.piece))) (y : str) : Prop := exists s, shown_archive a y s /\ selected ps s.
Lemma filter_right ps : asked_filter a ps -> let q := summary_filtered da_abbrev r (final_args a) in
  depreport_right k es ys a (picked ps) (content q) /\ Forall2 (dep_object k) (content q) q.
Proof.
  intros As q. assert (K : exists keep, q = filter keep r /\ forall y d, keep (y, d) = true <-> selected ps (shown (final_args a) y (da_abbrev d))).
  { unfold asked_filter in As. destruct ps as [l|].
    - destruct As as (E1 & E2). destruct (written_filter_ok da_abbrev r (final_args a) l E1 E2) as (keep & Eq & H). exists keep. split; [exact Eq|exact H].
    - exists (fun _ => true). split; [|intros; split; [intros _; exact I|reflexivity]]. unfold q, summary_filtered. change (a_filter (final_args a)) with (a_filter a). rewrite As. now rewrite filter_true. }
  destruct K as (keep & -> & Hk). apply right. intros y d I. rewrite Hk. unfold picked. pose proof (shown_is y _ (abbrev_is y d I)) as Hs. split.
  - intros H. eexists. split; [exact Hs|exact H].
  - intros (s & S1 & S2). now rewrite (shown_archive_unique _ _ _ Hs S1).
Qed.

(** ** tree *)
Lemma label_right y b z : after_last "/"%char y b -> archive_bytes k y z -> dep_label k a y (shown (final_args a) y b ++ " "%char :: show_Z z).
Proof. intros H1 H2. exists (shown (final_args a) y b), (show_Z z), z. split; [reflexivity|]. split; [now apply shown_is|]. split; [exact H2|apply show_Z_written]. Qed.
Lemma tree_right ds q : Forall2 (dep_object k) ds q -> exists groups, tree_dependencies (final_args a) q = (0%nat, dep_title a) :: concat groups /\ Forall2 (dep_branch k a) ds groups.
Proof.
  intros H. exists (map (fun kv => (1%nat, shown (final_args a) (fst kv) (da_abbrev (snd kv)) ++ " "%char :: show_Z (da_size (snd kv))) :: flat_map (tree_dep (final_args a)) (da_archives (snd kv))) q).
  split; [unfold tree_dependencies; now rewrite flat_map_concat_map|]. induction H as [|d kv ds q (H1 & H2 & H3 & H4) _ IH]; cbn [map]; constructor; [|exact IH].
  eexists _, (map (tree_dep (final_args a)) (da_archives (snd kv))). split; [|split; [rewrite <- flat_map_concat_map, H1; reflexivity|]]; [now apply label_right|].
  clear -H4 Au. induction H4 as [|e p ds q (H1 & H2 & H3 & H4) _ IH]; cbn [map]; constructor; [|exact IH].
  eexists. split; [|unfold tree_dep; rewrite H1, H4; reflexivity]. now apply label_right.
Qed.

(** ** table *)
Lemma joined_right l : l <> [] -> lines_joined l (join_lines l).
Proof.
  induction l as [|s l IH]; [congruence|]. intros _. destruct l as [|s' l]; [constructor|]. change (join_lines (s :: s' :: l)) with (s ++ newline :: join_lines (s' :: l)).
  constructor. apply IH. discriminate.
Qed.
Lemma cells_right y d0 (outer : option str) i e p : dep_entry k e p -> snd e <> [] ->
  (i = 0%nat -> outer = Some y /\ after_last "/"%char y (da_abbrev d0) /\ archive_bytes k y (da_size d0)) -> (i <> 0%nat -> outer = None) ->
  dep_cells k a outer e (dep_row (final_args a) y d0 i p).
Proof.
  intros (H1 & H2 & H3 & H4) Ne Ho Hn. unfold dep_row, dep_cells. change (a_dep_symbols (final_args a)) with (a_dep_symbols a). rewrite H1, H4.
  set (n' := shown (final_args a) (fst e) (de_abbrev (snd p))). set (z' := show_Z (de_size (snd p))). set (rest := if a_dep_symbols a then [join_lines (snd e)] else []).
  assert (R : if a_dep_symbols a then exists t, rest = [t] /\ lines_joined (snd e) t else rest = []).
  { unfold rest. destruct (a_dep_symbols a); [|reflexivity]. eexists. split; [reflexivity|now apply joined_right]. }
  assert (Z' : shown_archive a (fst e) n' /\ exists v, archive_bytes k (fst e) v /\ written z' v).
  { split; [now apply shown_is|]. eexists. split; [exact H3|apply show_Z_written]. }
  destruct i as [|i]; cbn [Nat.eqb app].
  - destruct (Ho eq_refl) as (-> & Ho1 & Ho2). exists (shown (final_args a) y (da_abbrev d0)), (show_Z (da_size d0)), n', z', rest. split; [reflexivity|].
    split; [|split; [apply Z'|split; [apply Z'|exact R]]]. split; [now apply shown_is|]. eexists. split; [exact Ho2|apply show_Z_written].
  - rewrite Hn by discriminate. exists [], [], n', z', rest. split; [reflexivity|]. split; [now split|]. split; [apply Z'|]. split; [apply Z'|exact R].
Qed.
Lemma later_rows y d0 es0 q : Forall2 (dep_entry k) es0 q -> Forall (fun e => snd e <> []) es0 -> forall i, Forall2 (dep_cells k a None) es0 (dep_rows (final_args a) y d0 (S i) q).
Proof.
  induction 1 as [|e p es0 q H _ IH]; intros Ne i; cbn [dep_rows]; [constructor|]. inversion Ne; subst. constructor; [|now apply IH].
  apply cells_right; [exact H|assumption|discriminate|reflexivity].
Qed.
Lemma table_right sel ds q : depreport_right k es ys a sel ds -> Forall2 (dep_object k) ds q -> let tb := dependencies_table (final_args a) q in
  tb_headers tb = dep_headers a /\ exists rows, tb_rows tb = concat rows /\ Forall2 (dep_rows_right k a) ds rows.
Proof.
  intros Dr H tb. split.
  - unfold tb, dependencies_table, dep_headers. cbn [tb_headers]. change (a_dep_reverse (final_args a)) with (a_dep_reverse a). change (a_dep_symbols (final_args a)) with (a_dep_symbols a).
    destruct (a_dep_reverse a), (a_dep_symbols a); reflexivity.
  - exists (map (fun kv => dep_rows (final_args a) (fst kv) (snd kv) 0 (da_archives (snd kv))) q). split; [unfold tb, dependencies_table; cbn [tb_rows]; apply flat_map_concat_map|].
    pose proof (dr_filled _ _ _ _ _ _ Dr) as Fi. clear Dr tb. induction H as [|d kv ds q (H1 & H2 & H3 & H4) _ IH]; cbn [map]; constructor; [|apply IH; now inversion Fi].
    inversion Fi as [|? ? (N1 & N2) Fi']; subst. unfold dep_rows_right. destruct H4 as [|e p es0 q0 H4 H5]; [contradiction|]. inversion N2; subst.
    exists e, es0. cbn [dep_rows]. eexists _, _. split; [reflexivity|]. split; [reflexivity|]. split; [|apply later_rows; assumption].
    rewrite H1. apply cells_right; [exact H4|assumption| |congruence]. intros _. split; [reflexivity|]. now split.
Qed.

(** ** graph *)
Lemma object_in ds q y d : Forall2 (dep_object k) ds q -> In (y, d) q -> exists l, In (y, l) ds /\ after_last "/"%char y (da_abbrev d) /\ archive_bytes k y (da_size d) /\ Forall2 (dep_entry k) l (da_archives d).
Proof.
  induction 1 as [|e p ds q H _ IH]; [contradiction|]. intros [->|J].
  - destruct H as (H1 & H2 & H3 & H4). destruct e as [y' l]. cbn [fst snd] in *. subst y'. exists l. split; [now left|]. now split.
  - destruct (IH J) as (l & I & R). exists l. split; [now right|exact R].
Qed.
Lemma entry_in l q y e : Forall2 (dep_entry k) l q -> In (y, e) q -> In (y, de_symbols e) l /\ after_last "/"%char y (de_abbrev e) /\ archive_bytes k y (de_size e).
Proof.
  induction 1 as [|p0 p l q H _ IH]; [contradiction|]. intros [->|J].
  - destruct H as (H1 & H2 & H3 & H4). destruct p0 as [y' ss]. cbn [fst snd] in *. subst. split; [now left|]. now split.
  - destruct (IH J) as (I & R). split; [now right|exact R].
Qed.
Lemma graph_is ps lines : asked_filter a ps -> dot_show (x_order x) (x_crt x) M (x_syms x) (final_args a) = Ok lines ->
  let q := summary_filtered da_abbrev r (final_args a) in graph_right k a (content q) lines.
Proof.
  intros As Ed q. destruct (filter_right ps As) as (Dr & Ob). fold q in Dr, Ob. destruct inputs as (t & syms & Ec & Es & P). rewrite Ec, Es in Ed. pose proof E as E'. rewrite Ec, Es in E'.
  destruct (dot_graph_ok _ _ _ _ _ _ _ SI P E' Ed) as (N1 & N2 & Ed1 & Ed2 & No & Al). fold q in Ed1, No, Al.
  change (a_dep_reverse (final_args a)) with (a_dep_reverse a) in *. change (a_dep_symbols (final_args a)) with (a_dep_symbols a) in *.
  assert (Wq : wf_dict q). { pose proof (dr_once _ _ _ _ _ _ Dr) as H. rewrite content_keys in H. exact H. }
  assert (Wi : forall y d, In (y, d) q -> wf_dict (da_archives d)).
  { intros y d I. pose proof (dr_inner_once _ _ _ _ _ _ Dr) as H. rewrite Forall_forall in H. specialize (H (y, map (fun p : str * dent => (fst p, de_symbols (snd p))) (da_archives d))).
    cbn [snd] in H. rewrite map_map in H. apply H. apply List.in_map_iff. exists (y, d). now split. }
  assert (Fi : forall y d, In (y, d) q -> da_archives d <> []).
  { intros y d I. pose proof (dr_filled _ _ _ _ _ _ Dr) as H. rewrite Forall_forall in H. destruct (H (y, map (fun p : str * dent => (fst p, de_symbols (snd p))) (da_archives d))) as (N & _).
    - apply List.in_map_iff. exists (y, d). now split.
    - cbn [snd] in N. intros X. rewrite X in N. now apply N. }
  assert (Keys : map fst (content q) = keys q) by apply content_keys.
  assert (Edge : forall y z p, In (DotEdge y z p) lines <-> exists u v l ss, In (u, l) (content q) /\ In (v, ss) l /\
    (y, z) = (if a_dep_reverse a then (v, u) else (u, v)) /\ p = if a_dep_symbols a then Some ss else None).
  { intros y z p. rewrite Ed1. split.
    - intros (d & e & G1 & G2 & ->). apply dget_In in G1, G2. exists (if a_dep_reverse a then z else y), (if a_dep_reverse a then y else z),
        (map (fun p : str * dent => (fst p, de_symbols (snd p))) (da_archives d)), (de_symbols e). split; [|split; [|split; [now destruct (a_dep_reverse a)|reflexivity]]].
      + apply List.in_map_iff. eexists. split; [|exact G1]. reflexivity.
      + apply List.in_map_iff. eexists. split; [|exact G2]. reflexivity.
    - intros (u & v & l & ss & I1 & I2 & Eq & ->). apply List.in_map_iff in I1. destruct I1 as ((u0 & d) & X & I1). injection X as -> <-. cbn [snd] in I2.
      apply List.in_map_iff in I2. destruct I2 as ((v0 & e) & X & I2). injection X as -> <-. cbn [snd]. exists d, e.
      assert (Y : (if a_dep_reverse a then z else y) = u /\ (if a_dep_reverse a then y else z) = v) by (destruct (a_dep_reverse a); injection Eq as -> ->; now split).
      destruct Y as (-> & ->). split; [now apply In_dget|]. split; [|reflexivity]. apply In_dget; [eapply Wi; exact I1|exact I2]. }
  split; [exact N1|]. split; [exact N2|]. split; [|split; [|exact Edge]].
  - intros y. split.
    + intros I. apply in_flat_map in I. destruct I as (l & I & J). destruct l as [n lb z o|]; [|contradiction J]. destruct J as [->|[]].
      destruct (No _ _ _ _ I) as (_ & [(d & G & _)|(w & d & e & G1 & G2 & _)]).
      * apply dget_In in G. eexists. split; [apply List.in_map_iff; exists (y, d); split; [reflexivity|exact G]|now left].
      * apply dget_In in G1, G2. eexists. split; [apply List.in_map_iff; exists (w, d); split; [reflexivity|exact G1]|]. right. cbn [snd]. rewrite map_map. cbn [fst].
        apply (List.in_map fst _ _ G2).
    + intros (d & I & [->|J]).
      * apply Al. apply dget_keys. rewrite <- Keys. now apply List.in_map.
      * destruct d as [u l]. cbn [snd] in J. apply List.in_map_iff in J. destruct J as ((v & ss) & <- & J). cbn [fst].
        assert (Ie : In (if a_dep_reverse a then DotEdge v u (if a_dep_symbols a then Some ss else None) else DotEdge u v (if a_dep_symbols a then Some ss else None)) lines).
        { destruct (a_dep_reverse a) eqn:Rv; apply Edge; exists u, v, l, ss; (split; [exact I|]); (split; [exact J|]); split; reflexivity. }
        destruct (a_dep_reverse a).
        { apply (Ed2 v u). apply in_flat_map. eexists. split; [exact Ie|now left]. }
        { apply (Ed2 u v). apply in_flat_map. eexists. split; [exact Ie|now left]. }
  - intros y lb z o I. destruct (No _ _ _ _ I) as (Ho & Hd). split; [|split].
    + destruct Hd as [(d & G & -> & _)|(w & d & e & G1 & G2 & -> & _)].
      * apply dget_In in G. destruct (object_in _ _ _ _ Ob G) as (l & _ & Af & _). exact (shown_is y _ Af).
      * apply dget_In in G1, G2. destruct (object_in _ _ _ _ Ob G1) as (l & _ & _ & _ & Fe). destruct (entry_in _ _ _ _ Fe G2) as (_ & Af & _). exact (shown_is y _ Af).
    + destruct Hd as [(d & G & _ & ->)|(w & d & e & G1 & G2 & _ & ->)].
      * apply dget_In in G. now destruct (object_in _ _ _ _ Ob G) as (l & _ & _ & Ab & _).
      * apply dget_In in G1, G2. destruct (object_in _ _ _ _ Ob G1) as (l & _ & _ & _ & Fe). now destruct (entry_in _ _ _ _ Fe G2) as (_ & _ & Ab).
    + rewrite Ho, dget_keys, Keys. reflexivity.
Qed.
End Shown.
