From Coq Require Import Ascii String List ZArith Lia Bool Permutation Sorted.
From Verif Require Import Base MemMap SpecTree SpecOps Filter SpecFilter Pipeline SpecPipe SpecBuild SpecBytes SpecShape ProofOps ProofBytes ProofGet ProofBytes3 PyStr MapFile SpecMap
  ElfRead SpecElf Dwarf SpecDwarf SpecDebug Project SpecProject ProofProject2 SpecPath SpecEnd ProofEnd Chips SpecChips ProofChips ProofShape Deps Table SpecTable Formats ProofFormats Main SpecMain ProofMain ProofMain4 ProofMain5 Command SpecCommand SpecFail SpecReport
  SpecOwner SpecLto SpecLto2 ProofLto1 ProofLto2 ProofLto4 ProofCommand1 ProofCommand2 ProofCommand3 ProofCommand4 ProofCommand5 ProofCommand6 ProofReport1 ProofReport2 ProofReport3 ProofReport4 ProofReport5 ProofReport6 SpecLtoReport ProofLtoReport1 ProofLtoReport2 ProofLtoReport3.
Import ListNotations.
Open Scope list_scope.
Open Scope Z_scope.

(** ** accounts with the same output sections *)
Definition same_outline (o o' : printed) : Prop := pr_name o' = pr_name o /\ pr_addr o' = pr_addr o /\ pr_size o' = pr_size o.
Record same_outlines (k q : account) : Prop := {
  su_rs : ac_rs q = ac_rs k; su_im : ac_im q = ac_im k; su_types : ac_types q = ac_types k; su_l : Forall2 same_outline (ac_l k) (ac_l q) }.
Lemma outline_counted im o o' : same_outline o o' -> counted im o' <-> counted im o.
Proof. intros (A & _ & C). unfold counted. now rewrite A, C. Qed.
Lemma outline_sum (keep : printed -> bool) (f : printed -> Z) l l' : Forall2 same_outline l l' ->
  (forall o o', same_outline o o' -> keep o' = keep o /\ f o' = f o) -> zsumf f (filter keep l') = zsumf f (filter keep l).
Proof.
  intros F H. induction F as [|o o' l l' S0 F IH]; [reflexivity|]. destruct (H o o' S0) as (E1 & E2). cbn [filter]. rewrite E1. destruct (keep o); [|exact IH]. now rewrite !zsumf_cons, E2, IH.
Qed.
Section Same.
Variables (k q : account).
Hypothesis E : same_outlines k q.
Let Fl := su_l _ _ E.
Lemma keep_same keep im o o' : (forall o, keep o = true <-> counted im o) -> same_outline o o' -> keep o' = keep o.
Proof. intros K S0. apply eq_true_iff_eq. rewrite !K. now apply outline_counted. Qed.
Lemma used_same T n : used_bytes T q n <-> used_bytes T k n.
Proof.
  unfold used_bytes, type_bytes. rewrite (su_im _ _ E), (su_types _ _ E).
  assert (H : forall keep b, (forall o, keep o = true <-> counted (ac_im k) o) -> (forall o a, b o a = true <-> byte_goes (ac_types k) (pr_name o) a T) ->
    zsumf (fun o => bytes_with (b o) (pr_addr o) (pr_size o)) (filter keep (ac_l q)) = zsumf (fun o => bytes_with (b o) (pr_addr o) (pr_size o)) (filter keep (ac_l k))).
  { intros keep b K B. apply outline_sum; [exact Fl|]. intros o o' S0. split; [eapply keep_same; eassumption|]. destruct S0 as (A1 & A2 & A3). rewrite A2, A3. apply bytes_ext.
    intros x. apply eq_true_iff_eq. rewrite !B, A1. reflexivity. }
  split; intros (keep & b & K & B & ->); exists keep, b; (split; [exact K|]; split; [exact B|]); [|symmetry]; now apply H.
Qed.
Lemma name_same T N n : name_bytes T N q n <-> name_bytes T N k n.
Proof.
  unfold name_bytes. rewrite (su_im _ _ E), (su_types _ _ E).
  assert (H : forall keep b, (forall o, keep o = true <-> counted (ac_im k) o /\ pr_name o = N) ->
    zsumf (fun o => bytes_with b (pr_addr o) (pr_size o)) (filter keep (ac_l q)) = zsumf (fun o => bytes_with b (pr_addr o) (pr_size o)) (filter keep (ac_l k))).
  { intros keep b K. apply outline_sum; [exact Fl|]. intros o o' S0. split; [|destruct S0 as (A1 & A2 & A3); now rewrite A2, A3].
    apply eq_true_iff_eq. rewrite !K, (outline_counted _ o o' S0). destruct S0 as (-> & _). reflexivity. }
  split; intros (keep & b & K & B & ->); exists keep, b; (split; [exact K|]; split; [exact B|]); [|symmetry]; now apply H.
Qed.
Lemma image_same n : image_bytes (ac_im q) (ac_l q) n <-> image_bytes (ac_im k) (ac_l k) n.
Proof.
  unfold image_bytes. rewrite (su_im _ _ E).
  assert (H : forall keep, (forall o, keep o = true <-> counted (ac_im k) o /\ image_section (pr_name o)) -> zsumf pr_size (filter keep (ac_l q)) = zsumf pr_size (filter keep (ac_l k))).
  { intros keep K. apply outline_sum; [exact Fl|]. intros o o' S0. split; [|apply S0]. apply eq_true_iff_eq. rewrite !K, (outline_counted _ o o' S0). destruct S0 as (-> & _). reflexivity. }
  split; intros (A & B); (split; [exact A|]); intros L; destruct (B L) as (keep & K & ->); exists keep; (split; [exact K|]); [|symmetry]; now apply H.
Qed.
Lemma section_same T N : lists_section T N q <-> lists_section T N k.
Proof. unfold lists_section. split; intros (n & A & B); exists n; (split; [now apply name_same|exact B]). Qed.
Lemma listed_same a T : lists_type a T q <-> lists_type a T k.
Proof.
  unfold lists_type, listed_type. pose proof (used_same T) as U. unfold used_bytes in U. rewrite (su_types _ _ E).
  rewrite (su_im _ _ E), (su_types _ _ E) in U. rewrite (su_im _ _ E).
  split; intros (A & B); (split; [exact A|]); (destruct B as [B|(n & B1 & B2)]; [now left|right; exists n; split; [now apply U|exact B2]]).
Qed.
Lemma total_same a T n : total_bytes a T q n <-> total_bytes a T k n.
Proof. unfold total_bytes. now rewrite listed_same, (su_rs _ _ E), (su_types _ _ E). Qed.
End Same.

Lemma apart_outlines s q : apart s q -> same_outlines (so_account s) q.
Proof.
  unfold apart. destruct (so_units s) as [[comps syms]|].
  - intros (A & B & C & own & _ & _ & F). now split.
  - intros ->. split; try reflexivity. induction (ac_l (so_account s)); constructor; [now repeat split|assumption].
Qed.
Section Both.
Variables (k q : account) (r q' : option account).
Hypothesis E : same_outlines k q.
Hypothesis E' : match r, q' with None, None => True | Some k', Some p' => same_outlines k' p' | _, _ => False end.
Lemma measured_same (f : account -> Z -> Prop) v : (forall k q n, same_outlines k q -> f q n <-> f k n) -> measured q q' f v <-> measured k r f v.
Proof.
  intros H. unfold measured. rewrite (H k q _ E). destruct r as [k'|], q' as [p'|]; try contradiction; [|reflexivity].
  split; intros (A & n & B & C); (split; [exact A|]); exists n; (split; [|exact C]); now apply (H k' p' n E').
Qed.
Lemma present_same (P : account -> Prop) : (forall k q, same_outlines k q -> P q <-> P k) -> present q q' P <-> present k r P.
Proof.
  intros H. unfold present. rewrite (H k q E). destruct r as [k'|], q' as [p'|]; try contradiction; [|reflexivity]. now rewrite (H k' p' E').
Qed.
Lemma group_same a g : pgroup_right q q' a g -> pgroup_right k r a g.
Proof.
  intros [A B C D F]. split.
  - apply measured_same; [|exact A]. intros. now apply used_same.
  - now apply (total_same k q E).
  - intros N. specialize (C N). apply measured_same; [|exact C]. intros. now apply total_same.
  - exact D.
  - intros N v. rewrite F. rewrite present_same by (intros; now apply section_same). rewrite measured_same by (intros; now apply name_same). reflexivity.
Qed.
End Both.

Definition reference_account (r : option source) : option account := match r with None => None | Some s => Some (so_account s) end.
Lemma source_summary d c s r o fs st render encode ord pf :
  sourced d c s r -> of_types (c_args c) -> a_use_dwarf (c_args c) <> Some true -> a_format (c_args c) = FTable \/ a_format (c_args c) = FText \/ a_format (c_args c) = FCsv ->
  run_files d (get_memory_types chip_info) render encode ord pf c o (start fs) = (Done tt, st) ->
  let k := so_account s in let r' := reference_account r in
  exists tb i groups rows, prints (c_args c) st tb /\ tb_headers tb = usage_headers /\ tb_rows tb = concat rows /\ Forall2 (pgroup_rows (c_args c)) groups rows /\
    NoDup (map pg_type groups) /\
    (forall T, In T (map pg_type groups) <-> present k r' (lists_type (c_args c) T) /\ exists v, measured k r' (used_bytes T) v /\ differs (c_args c) v) /\
    Forall (pgroup_right k r' (c_args c)) groups /\
    names_column usage_headers (a_sort (c_args c)) i /\
    (i <> 2%nat -> StronglySorted (fun x y => in_order (a_sort_reverse (c_args c)) (pick (a_sort_diff (c_args c)) (pg_value i x)) (pick (a_sort_diff (c_args c)) (pg_value i y))) groups) /\
    (i = 1%nat -> Forall (fun g => StronglySorted (fun x y => in_order (a_sort_reverse (c_args c)) (pick (a_sort_diff (c_args c)) (snd x)) (pick (a_sort_diff (c_args c)) (snd y))) (pg_sections g)) groups) /\
    (a_format (c_args c) <> FCsv -> exists v, measured k r' (fun q => image_bytes (ac_im q) (ac_l q)) v /\ In (ImageInfo (fst v) (snd v)) (s_notes st)).
Proof.
  intros Rp (Ta & Td & Tp & Tf) Nt Fo R k r'. pose proof Rp as (_ & _ & Au & Ad).
  assert (Do : dwarf_option (c_args c) = a_use_dwarf (c_args c)) by (unfold dwarf_option; destruct (a_use_dwarf (c_args c)) as [[|]|]; congruence).
  destruct (shown_source _ _ _ _ _ _ _ _ _ _ _ Rp Do R) as (q & q' & M & x & s1 & s2 & fu & fn & fo & (Ap & Ap') & F & _ & _ & P1 & Sh & P2 & N2).
  destruct (prints_done x M (c_args c) o s1 s2 st Sh P1 P2 N2 Fo) as (tb & t & t' & E & Pr & Im).
  unfold table_of in E. cbn [final_args set_use_dwarf set_abbrev without_conflicts a_archives a_archive_details a_archive_dependencies a_files] in E. rewrite Ta, Td, Tp, Tf in E.
  apply table_done in E. destruct E as (E & _). destruct (summary_report _ _ _ _ _ _ _ _ _ F Au Ad E) as (i & groups & rows & H1 & H2 & H3 & H4 & H5 & H6 & H7 & H8 & H9).
  pose proof (apart_outlines _ _ Ap) as S1. fold k in S1.
  assert (S2 : match r', q' with None, None => True | Some k', Some p' => same_outlines k' p' | _, _ => False end).
  { unfold r', reference_account. destruct r as [s'|], q' as [p'|]; try contradiction; [|exact Logic.I]. now apply apart_outlines. }
  exists tb, i, groups, rows. split; [exact Pr|]. do 4 (split; [assumption|]). split; [|split; [|split; [exact H7|split; [exact H8|split; [exact H9|]]]]].
  - intros T. rewrite H5, (present_same k q r' q' S1 S2) by (intros; now apply listed_same). split; intros (A & v & B & C); (split; [exact A|]); exists v; (split; [|exact C]).
    + apply (measured_same k q r' q' S1 S2); [intros; now apply used_same|exact B].
    + apply (measured_same k q r' q' S1 S2); [intros; now apply used_same|exact B].
  - eapply Forall_impl; [|exact H6]. intros g. now apply group_same.
  - intros Nf. exists (m_image_size M, m_image_size_diff M). split.
    + apply (measured_same k q r' q' S1 S2); [intros k0 q0 n S0; now apply (image_same k0 q0)|]. apply (f_image _ _ _ _ _ _ _ F).
    + apply Im; [exact Nf|]. unfold is_summary. cbn [final_args set_use_dwarf set_abbrev without_conflicts a_archives a_archive_details a_archive_dependencies a_files]. rewrite Ta, Td, Tp, Tf. reflexivity.
Qed.
