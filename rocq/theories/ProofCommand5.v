From Coq Require Import Ascii String List ZArith Lia Bool Permutation Sorted.
From Verif Require Import Base MemMap SpecTree SpecOps SpecTable Filter Pipeline SpecPipe SpecBuild SpecBytes SpecShape ProofOps ProofTrim ProofSummary ProofSummary2 ProofSummary3 ProofBuild ProofRegions ProofTypes ProofBytes ProofBytes2 ProofBytes3 ProofShape PyStr MapFile SpecMap
  ElfRead SpecElf Project SpecProject ProofProject2 SpecEnd ProofEnd Chips SpecChips ProofChips Deps Table Formats ProofFormats Main SpecMain ProofMain ProofMain4 ProofMain5 Command SpecCommand ProofCommand1 ProofCommand2 ProofCommand3 ProofCommand4 Fixtures.
Import ListNotations.
Open Scope list_scope.
Open Scope Z_scope.

(** ** sorting keeps the rows *)
Section SortedFrom.
Context {V : Type} (key : V -> Z) (rev : bool) (R : V -> V -> Prop) (d d' : dict str V).
Hypothesis H : sorted_from key rev R d d'.
Lemma sorted_from_r k v' : In (k, v') d' -> exists v, In (k, v) d /\ R v v'.
Proof.
  destruct H as (d1 & P & _ & _ & F). intros I. destruct (f2_In_r _ _ _ _ F I) as ((k1 & v) & I1 & E & Rv). cbn in E, Rv. subst k1.
  exists v. split; [|exact Rv]. eapply Permutation_in; [apply Permutation_sym, P|exact I1].
Qed.
Lemma sorted_from_l k v : In (k, v) d -> exists v', In (k, v') d' /\ R v v'.
Proof.
  destruct H as (d1 & P & _ & _ & F). intros I. apply (Permutation_in _ P) in I. destruct (f2_In_l _ _ _ _ F I) as ((k1 & v') & I1 & E & Rv). cbn in E, Rv. subst k1.
  exists v'. now split.
Qed.
Lemma sorted_from_keys : Permutation (map fst d) (map fst d').
Proof.
  destruct H as (d1 & P & _ & _ & F). transitivity (map fst d1); [now apply Permutation_map|].
  replace (map fst d') with (map fst d1); [reflexivity|]. clear -F. induction F as [|[] [] ? ? (E & _) F IH]; [reflexivity|]. cbn in *. congruence.
Qed.
Lemma sorted_from_order (key' : V -> Z) : (forall v v', R v v' -> key v = key' v') ->
  StronglySorted (fun x y => if rev then key' (snd y) <= key' (snd x) else key' (snd x) <= key' (snd y)) d'.
Proof.
  intros E. destruct H as (d1 & _ & S1 & _ & F). clear -E S1 F. induction F as [|x x' l l' (Ex & Rx) F IH]; [constructor|].
  apply StronglySorted_inv in S1. destruct S1 as (S1 & Fx). constructor; [now apply IH|]. apply Forall_forall. intros y' I'.
  destruct (f2_In_r _ _ _ _ F I') as (y & Iy & Ey & Ry). rewrite Forall_forall in Fx. specialize (Fx y Iy). cbn beta in Fx. rewrite (E _ _ Rx), (E _ _ Ry) in Fx. exact Fx.
Qed.
End SortedFrom.

Lemma row_sorted a im types l own e e' : sorted_sentry a e e' -> row_report im types l own e -> row_report im types l own e'.
Proof.
  intros (_ & Sz & _ & S1) [R1 R2 R3 R4 R5 R6]. split.
  - now rewrite <- Sz.
  - eapply Permutation_NoDup; [apply (sorted_from_keys _ _ _ _ _ S1)|exact R2].
  - intros T st I. destruct (sorted_from_r _ _ _ _ _ S1 _ _ I) as (st0 & I0 & _). eapply R3, I0.
  - intros T st I. destruct (sorted_from_r _ _ _ _ _ S1 _ _ I) as (st0 & I0 & E & _). rewrite <- E. eapply R4, I0.
  - intros T st n q I Iq. destruct (sorted_from_r _ _ _ _ _ S1 _ _ I) as (st0 & I0 & _ & _ & S2). destruct (sorted_from_r _ _ _ _ _ S2 _ _ Iq) as (q0 & Iq0 & ->).
    eapply R5; eassumption.
  - intros o T n Io Co O N. destruct (R6 o T n Io Co O N) as (st & q & I & Iq & E).
    destruct (sorted_from_l _ _ _ _ _ S1 _ _ I) as (st' & I' & _ & _ & S2). destruct (sorted_from_l _ _ _ _ _ S2 _ _ Iq) as (q' & Iq' & <-).
    exists st', q. now repeat split.
Qed.
Lemma sorted_rows_size a rows : a_sort_diff a = false -> rows_sorted a (get_summary_sorted rows a).
Proof.
  intros Sd. pose proof (summary_sort_ok rows a) as S1. rewrite Sd in S1. apply (sorted_from_order _ _ _ _ _ S1 se_size). intros v v' (_ & E & _). exact E.
Qed.

Section Rows.
Variables (rs : list region) (l : list printed) (im : option (list (str * xshdr))) (types : list chip_type).
Variables (m : memmap) (a : args) (keep : printed -> bool) (b : str -> Z -> str -> bool).
Hypothesis Se : Forall (fun o => counted im o -> section_mapped rs types (printed_section o) /\ items_in o) l.
Hypothesis Sz : Forall (fun o => Forall (fun i => 0 <= it_size i) (pr_items o)) l.
Hypothesis K : forall o, keep o = true <-> counted im o.
Hypothesis Bb : forall n a T, b n a T = true <-> byte_goes types n a T.
Hypothesis Pr : pristine m.
Hypothesis Nm : NoDup (map pr_name (filter keep l)).
Hypothesis Ks : forall t, In t (keys (m_types m)) <-> exists c, In c types /\ ct_name c = t.
Hypothesis Us : forall T t, dget T (m_types m) = Some t ->
  t_used t = zsumf (fun o => bytes_with (fun a => b (pr_name o) a T) (pr_addr o) (pr_size o)) (filter keep l).
Hypothesis Li : forall T t, dget T (m_types m) = Some t -> forall o, In o l -> counted im o ->
  listed_as b T (printed_section o) (dget (pr_name o) (t_sections t)).
Hypothesis Lo : forall T t, dget T (m_types m) = Some t -> forall n x, dget n (t_sections t) = Some x -> exists o, In o l /\ counted im o /\ pr_name o = n.
Let m' := prepare a m.
Let W : wf_map m := proj1 Pr.

Lemma archive_own T x o s : listed_as b T (printed_section o) (Some s) ->
  esize (look_sect [x] s) = zsumf (fun i => bytes_with (fun y => b (pr_name o) y T) (it_addr i) (it_size i)) (filter (of_archive x) (pr_items o)).
Proof.
  intros (_ & _ & A & _). specialize (A x). unfold archive_bytes_with in A. cbn [printed_section o_isecs o_name] in A. rewrite filter_map, zsumf_map in A.
  transitivity (archive_size x s); [|rewrite A; reflexivity]. unfold archive_size, look_sect, look_node, look_dict. destruct (dget x (n_sub s)); reflexivity.
Qed.
Lemma object_own T x ob o s : listed_as b T (printed_section o) (Some s) ->
  esize (look_sect [x; ob] s) = zsumf (fun i => bytes_with (fun y => b (pr_name o) y T) (it_addr i) (it_size i)) (filter (of_object x ob) (pr_items o)).
Proof.
  intros (_ & _ & _ & A & _). specialize (A x ob). unfold object_bytes_with in A. cbn [printed_section o_isecs o_name] in A. rewrite filter_map, zsumf_map in A.
  transitivity (object_size x ob s); [|rewrite A; reflexivity]. unfold object_size, look_sect, look_arch, look_node, look_dict. destruct (dget x (n_sub s)) as [y|]; [|reflexivity].
  destruct (dget ob (n_sub y)); reflexivity.
Qed.
Lemma archive_row x e : row_ok m' (fun t s => look m' t [s; x]) e -> row_report im types l (of_archive x) e.
Proof.
  eapply (row_report_ok rs l im types m a keep b Se Sz K Bb W Nm Ks Us Li Lo (of_archive x) [x]).
  - intros T o s L. now apply archive_own.
  - intros s E. unfold look_sect, look_node, look_dict. now rewrite E.
Qed.
Lemma object_row x ob e : row_ok m' (fun t s => look m' t [s; x; ob]) e -> row_report im types l (of_object x ob) e.
Proof.
  eapply (row_report_ok rs l im types m a keep b Se Sz K Bb W Nm Ks Us Li Lo (of_object x ob) [x; ob]).
  - intros T o s L. now apply object_own.
  - intros s E. unfold look_sect, look_node, look_dict. now rewrite E.
Qed.

(** an input section that counts is listed *)
Lemma placed_listed i : placed im l i -> exists T n, look m' T [n; it_archive i; it_object i] <> None /\ look m' T [n; it_archive i] <> None.
Proof.
  intros (o & Io & Co & Ii & Nz). pose proof Se as Se'. pose proof Sz as Sz'. rewrite Forall_forall in Se', Sz'. destruct (Se' o Io Co) as (M & In0).
  unfold items_in in In0. rewrite Forall_forall in In0. specialize (In0 i Ii). specialize (Sz' o Io). rewrite Forall_forall in Sz'. specialize (Sz' i Ii).
  destruct (byte_goes_some rs types o (it_addr i) M) as (T & G); [split; cbn; lia|]. apply Bb in G.
  assert (IT : In T (keys (m_types m))) by (apply Ks; eapply byte_goes_In; apply Bb; exact G).
  destruct (dget T (m_types m)) as [t|] eqn:Et; [|apply dget_None in Et; contradiction].
  assert (U : t_used t <> 0).
  { rewrite (Us T t Et). assert (0 < zsumf (fun o => bytes_with (fun a => b (pr_name o) a T) (pr_addr o) (pr_size o)) (filter keep l)); [|lia].
    apply (zsumf_pos _ _ o); [intros; apply bytes_nonneg|apply filter_In; split; [exact Io|now apply K]|]. apply bytes_pos. exists (it_addr i). split; [lia|exact G]. }
  destruct (prepare_has a m T t Et U) as (t' & E').
  pose proof (row_section rs l im types m a b Se W Li (of_object (it_archive i) (it_object i)) [it_archive i; it_object i]
    (fun T o s => object_own T (it_archive i) (it_object i) o s) (fun s E => ltac:(unfold look_sect, look_node, look_dict; now rewrite E)) T t' o E' Io Co) as R.
  assert (P : 0 < zsumf (fun i0 => bytes_with (fun x => b (pr_name o) x T) (it_addr i0) (it_size i0)) (filter (of_object (it_archive i) (it_object i)) (pr_items o))).
  { apply (zsumf_pos _ _ i); [intros; apply bytes_nonneg| |].
    - apply filter_In. split; [exact Ii|]. unfold of_object. now rewrite !keq_refl.
    - apply bytes_pos. exists (it_addr i). split; [lia|exact G]. }
  rewrite <- R in P. clear R. exists T, (pr_name o). unfold look. fold m' in E'. rewrite E'. cbn [look_dict].
  destruct (dget (pr_name o) (t_sections t')) as [s|]; [|lia]. unfold look_sect, look_arch, look_node, look_dict in *.
  destruct (dget (it_archive i) (n_sub s)) as [y|]; [|cbn in P; lia]. destruct (dget (it_object i) (n_sub y)); [|cbn in P; lia]. split; discriminate.
Qed.
(** and nothing else *)
Lemma listed_placed T n x e : look m' T [n; x] = Some e -> (exists i, placed im l i /\ it_archive i = x) /\ after_last "/"%char x (e_abbrev e).
Proof.
  intros L. unfold look in L. destruct (dget T (m_types m')) as [t'|] eqn:E'; [|discriminate]. cbn [look_dict] in L.
  destruct (dget n (t_sections t')) as [s|] eqn:G; [|discriminate]. destruct (prepare_sections _ _ _ _ W E') as (t & Et & S1 & _). pose proof (S1 n s G) as Gs.
  destruct (Lo T t Et n s Gs) as (o & Io & Co & <-). pose proof (Li T t Et o Io Co) as Ls. rewrite Gs in Ls. destruct Ls as (_ & _ & _ & _ & On).
  split.
  - unfold look_sect, look_arch, look_node, look_dict in L. destruct (dget x (n_sub s)) as [y|] eqn:Gx; [|discriminate]. destruct (On x y Gx) as ((i & Ii & Ex & Nz) & _).
    cbn [printed_section o_isecs] in Ii. apply List.in_map_iff in Ii. destruct Ii as (i0 & <- & Ii). exists i0. split; [|exact Ex]. exists o. repeat split; try assumption; apply Co.
  - pose proof (proj2 (proj2 (proj2 (proj2 Pr)))) as Sh. destruct (Sh T t (dget_In _ _ _ Et)) as (_ & _ & Sl & _).
    assert (Lm : look m T [pr_name o; x] = Some e) by (unfold look; rewrite Et; cbn [look_dict]; rewrite Gs; exact L).
    apply look_ents in Lm. destruct Lm as (T0 & I1 & I2). apply In_dget in I1; [|apply W]. replace T0 with t in I2 by congruence. destruct (Sl _ _ I2) as (_ & Lb). exact Lb.
Qed.
Lemma listed_placed_object T n x ob : look m' T [n; x; ob] <> None -> exists i, placed im l i /\ it_archive i = x /\ it_object i = ob.
Proof.
  intros L. unfold look in L. destruct (dget T (m_types m')) as [t'|] eqn:E'; [|contradiction]. cbn [look_dict] in L.
  destruct (dget n (t_sections t')) as [s|] eqn:G; [|contradiction]. destruct (prepare_sections _ _ _ _ W E') as (t & Et & S1 & _). pose proof (S1 n s G) as Gs.
  destruct (Lo T t Et n s Gs) as (o & Io & Co & <-). pose proof (Li T t Et o Io Co) as Ls. rewrite Gs in Ls. destruct Ls as (_ & _ & _ & _ & On).
  unfold look_sect, look_arch, look_node, look_dict in L. destruct (dget x (n_sub s)) as [y|] eqn:Gx; [|contradiction].
  destruct (dget ob (n_sub y)) as [z|] eqn:Go; [|contradiction]. destruct (On x y Gx) as (_ & On2). destruct (On2 ob z Go) as (i & Ii & Ex & Eo & Nz).
  cbn [printed_section o_isecs] in Ii. apply List.in_map_iff in Ii. destruct Ii as (i0 & <- & Ii). exists i0. split; [|now split]. exists o. repeat split; try assumption; apply Co.
Qed.

Lemma counts_alone f d : given (a_diff f) = false -> counts f d.
Proof. intros D (X & _). congruence. Qed.

Lemma archives_ok f : given (a_diff f) = false -> archive_rows im types l (get_summary_sorted (get_archives_summary m' f) f).
Proof.
  intros D. assert (W' : wf_map m') by (apply wf_prepare, W). pose proof (archives_report_wf m' f) as Wd. pose proof (summary_sort_ok (get_archives_summary m' f) f) as S1.
  assert (Row : forall x e, In (x, e) (get_archives_summary m' f) -> (exists i, placed im l i /\ it_archive i = x) /\ after_last "/"%char x (se_abbrev e) /\ row_report im types l (of_archive x) e).
  { intros x e I. apply In_dget in I; [|exact Wd]. pose proof (archives_report m' f x W') as R. rewrite I in R. destruct R as (R & _ & T & n & y & L & Ea).
    destruct (listed_placed T n x y L) as (P & Al). split; [exact P|]. rewrite Ea. split; [exact Al|]. now apply archive_row. }
  split; [|split].
  - eapply Permutation_NoDup; [apply (sorted_from_keys _ _ _ _ _ S1)|exact Wd].
  - intros x. split.
    + intros I. apply List.in_map_iff in I. destruct I as ((x0 & e) & E & I). cbn in E. subst x0. destruct (sorted_from_r _ _ _ _ _ S1 _ _ I) as (e0 & I0 & _). apply (Row _ _ I0).
    + intros (i & P & <-). apply (Permutation_in _ (sorted_from_keys _ _ _ _ _ S1)). destruct (placed_listed i P) as (T & n & _ & L).
      pose proof (archives_report m' f (it_archive i) W') as R. destruct (dget (it_archive i) (get_archives_summary m' f)) as [e|] eqn:E.
      * apply dget_In in E. apply (List.in_map fst) in E. exact E.
      * exfalso. destruct R as [R|(e & _ & N)]; [apply L, R|]. apply N. now apply counts_alone.
  - intros x e I. destruct (sorted_from_r _ _ _ _ _ S1 _ _ I) as (e0 & I0 & So). destruct (Row _ _ I0) as (_ & Al & R). split.
    + destruct So as (<- & _). exact Al.
    + eapply row_sorted; eassumption.
Qed.

Lemma objects_ok f : given (a_diff f) = false -> a_unify f = false -> joined_names im l -> object_rows im types l (get_summary_sorted (get_object_files_summary m' f) f).
Proof.
  intros D U J. assert (W' : wf_map m') by (apply wf_prepare, W). pose proof (summary_sort_ok (get_object_files_summary m' f) f) as S1.
  assert (Wd : wf_dict (get_object_files_summary m' f)) by (unfold get_object_files_summary; apply wf_rem_unchanged; rewrite objects_collect; apply wf_collect).
  assert (In0 : inj_objects m').
  { apply inj_objects_colon. intros T s x ob L. destruct (listed_placed_object T s x ob L) as (i & P & _ & <-). now apply J. }
  assert (Row : forall n e, In (n, e) (get_object_files_summary m' f) -> exists i, placed im l i /\ n = it_archive i ++ ":"%char :: it_object i /\
    after_last "/"%char (it_object i) (se_abbrev e) /\ row_report im types l (of_object (it_archive i) (it_object i)) e).
  { intros n e I. apply In_dget in I; [|exact Wd]. pose proof (objects_report m' f n W' In0 U) as R. rewrite I in R. destruct R as (x & ob & -> & Ea & (T & s & L) & R & _).
    destruct (listed_placed_object T s x ob L) as (i & P & <- & <-). exists i. split; [exact P|]. split; [apply colon2|]. rewrite Ea. split; [apply basename_after|]. now apply object_row. }
  split; [|split].
  - eapply Permutation_NoDup; [apply (sorted_from_keys _ _ _ _ _ S1)|exact Wd].
  - intros n. split.
    + intros I. apply List.in_map_iff in I. destruct I as ((x0 & e) & E & I). cbn in E. subst x0. destruct (sorted_from_r _ _ _ _ _ S1 _ _ I) as (e0 & I0 & _).
      destruct (Row _ _ I0) as (i & P & E & _). eauto.
    + intros (i & P & ->). apply (Permutation_in _ (sorted_from_keys _ _ _ _ _ S1)). destruct (placed_listed i P) as (T & n & L & _).
      assert (Key : forall nm x ob, nm = colon [x; ob] -> look m' T [n; x; ob] <> None -> In nm (map fst (get_object_files_summary m' f))).
      { intros nm x ob Ec L0. pose proof (objects_report m' f nm W' In0 U) as R. destruct (dget nm (get_object_files_summary m' f)) as [e|] eqn:E.
        - apply dget_In in E. apply (List.in_map fst) in E. exact E.
        - exfalso. destruct (R x ob T n Ec L0) as (e & _ & N). apply N. now apply counts_alone. }
      apply (Key _ _ _ (eq_sym (colon2 _ _)) L).
  - intros n e I. destruct (sorted_from_r _ _ _ _ _ S1 _ _ I) as (e0 & I0 & So). destruct (Row _ _ I0) as (i & P & E & Al & R). exists i. split; [exact P|]. split; [exact E|]. split.
    + destruct So as (<- & _). exact Al.
    + eapply row_sorted; eassumption.
Qed.
End Rows.

Section Built.
Variables (d : disk) (dir name text : str) (rs : list region) (l : list printed) (crt : option (list SpecMap.entry)) (im : option (list (str * xshdr))) (types : list chip_type).
Hypothesis Bt : built d dir name text rs l crt im types.

(** the reports on archives and on object files *)
Lemma entries_report c o files s render encode ord pf :
  c_input c = in_dir dir name -> alone (c_args c) -> no_dwarf d dir (dwarf_option (c_args c)) ->
  run_files d (get_memory_types chip_info) render encode ord pf c o (start files) = (Done tt, s) ->
  exists m m' x s1 s2, m' = prepare (c_args c) m /\
    s_printed s1 = [] /\ show x m' (final_args (c_args c)) o s1 = (Done tt, s2) /\ s_printed s = s_printed s2 /\
    archive_rows im types l (get_summary_sorted (get_archives_summary m' (final_args (c_args c))) (final_args (c_args c))) /\
    (joined_names im l -> object_rows im types l (get_summary_sorted (get_object_files_summary m' (final_args (c_args c))) (final_args (c_args c)))).
Proof.
  intros Ci (Ad & Au) Nd R. apply command_done in R; [|exact Ad]. destruct R as (m & x & s1 & s2 & G & _ & _ & P1 & Sh & P2). rewrite Ci in G.
  destruct (built_map _ _ _ _ _ _ _ _ _ Bt _ _ _ G Nd) as (keep & b & groups & K & Bb & Pr & _ & Ks & _ & H).
  pose proof (names_distinct _ _ _ _ _ _ _ _ _ Bt keep K) as Nm.
  set (a := c_args c) in *. change (a_unify (final_args a)) with (a_unify a) in Sh. rewrite Au in Sh. cbn zeta in Sh.
  change (prepare (final_args a) m) with (prepare a m) in Sh.
  assert (Se : Forall (fun o => counted im o -> section_mapped rs types (printed_section o) /\ items_in o) l).
  { eapply Forall_impl; [|apply (bt_sections _ _ _ _ _ _ _ _ _ Bt)]. intros q Hq Cq. split; apply Hq, Cq. }
  assert (Sz : Forall (fun o => Forall (fun i => 0 <= it_size i) (pr_items o)) l).
  { eapply Forall_impl; [|apply (printed_nonneg _ _ _ _ (bt_map _ _ _ _ _ _ _ _ _ Bt))]. intros q (_ & Hq). eapply Forall_impl; [|exact Hq]. intros i Hi. apply Hi. }
  exists m, (prepare a m), x, s1, s2. split; [reflexivity|]. do 3 (split; [assumption|]). split.
  - apply (archives_ok rs l im types m a keep b Se Sz K Bb Pr Nm Ks); [| | |now apply final_diff]; intros T t Et; apply (H T t Et).
  - intros J. apply (objects_ok rs l im types m a keep b Se Sz K Bb Pr Nm Ks); [| | |now apply final_diff|exact Au|exact J]; intros T t Et; apply (H T t Et).
Qed.

Lemma json_archives c o files s render encode ord pf :
  c_input c = in_dir dir name -> alone (c_args c) -> a_archives (c_args c) = true -> a_format (c_args c) = FJson2 -> no_dwarf d dir (a_use_dwarf (c_args c)) ->
  run_files d (get_memory_types chip_info) render encode ord pf c o (start files) = (Done tt, s) ->
  exists rows, s_printed s = [PEntries rows] /\ archive_rows im types l rows /\ (a_sort_diff (c_args c) = false -> rows_sorted (c_args c) rows).
Proof.
  intros Ci Al Ta Fo Nd R.
  assert (Nd' : no_dwarf d dir (dwarf_option (c_args c))).
  { unfold dwarf_option. destruct (a_use_dwarf (c_args c)) as [[|]|]; [|exact Nd|exact Nd]. destruct Nd as [Nd|(Nd & _)]; discriminate Nd. }
  destruct (entries_report _ _ _ _ _ _ _ _ Ci Al Nd' R) as (m & m' & x & s1 & s2 & _ & P1 & Sh & P2 & Ar & _). set (f := final_args (c_args c)) in *.
  exists (get_summary_sorted (get_archives_summary m' f) f). split; [|split; [exact Ar|intros Sd; now apply (sorted_rows_size f)]].
  unfold show in Sh. change (a_format f) with (a_format (c_args c)) in Sh. rewrite Fo in Sh. unfold json_show in Sh.
  change (a_archives f) with (a_archives (c_args c)) in Sh. rewrite Ta in Sh. apply print_done in Sh. rewrite P2, Sh, P1. reflexivity.
Qed.
Lemma json_files c o files s render encode ord pf :
  c_input c = in_dir dir name -> alone (c_args c) ->
  a_archives (c_args c) = false -> given (a_archive_details (c_args c)) = false -> a_archive_dependencies (c_args c) = false -> a_files (c_args c) = true ->
  a_format (c_args c) = FJson2 -> no_dwarf d dir (a_use_dwarf (c_args c)) -> joined_names im l ->
  run_files d (get_memory_types chip_info) render encode ord pf c o (start files) = (Done tt, s) ->
  exists rows, s_printed s = [PEntries rows] /\ object_rows im types l rows /\ (a_sort_diff (c_args c) = false -> rows_sorted (c_args c) rows).
Proof.
  intros Ci Al Ta Td Tp Tf Fo Nd J R.
  assert (Nd' : no_dwarf d dir (dwarf_option (c_args c))).
  { unfold dwarf_option. destruct (a_use_dwarf (c_args c)) as [[|]|]; [|exact Nd|exact Nd]. destruct Nd as [Nd|(Nd & _)]; discriminate Nd. }
  destruct (entries_report _ _ _ _ _ _ _ _ Ci Al Nd' R) as (m & m' & x & s1 & s2 & _ & P1 & Sh & P2 & _ & Ob). set (f := final_args (c_args c)) in *.
  exists (get_summary_sorted (get_object_files_summary m' f) f). split; [|split; [now apply Ob|intros Sd; now apply (sorted_rows_size f)]].
  unfold show in Sh. change (a_format f) with (a_format (c_args c)) in Sh. rewrite Fo in Sh. unfold json_show in Sh.
  change (a_archives f) with (a_archives (c_args c)) in Sh. change (a_archive_details f) with (a_archive_details (c_args c)) in Sh.
  change (a_archive_dependencies f) with (a_archive_dependencies (c_args c)) in Sh. change (a_files f) with (a_files (c_args c)) in Sh.
  rewrite Ta, Td, Tp, Tf in Sh. apply print_done in Sh. rewrite P2, Sh, P1. reflexivity.
Qed.
End Built.
