From Coq Require Import Ascii String List ZArith Lia Bool Permutation Sorted.
From Verif Require Import Base MemMap SpecTree SpecOps Filter Pipeline SpecPipe SpecBuild SpecBytes SpecShape ProofOps ProofTrim ProofDiff ProofUnify ProofUnifyDiff ProofSummary ProofSummary2 ProofSummary3 Fixtures PyStr MapFile SpecMap
  ElfRead SpecElf Project SpecProject SpecEnd Chips SpecChips ProofChips ProofShape Deps Table SpecTable Formats Main SpecMain ProofMain ProofMain4 Command SpecCommand SpecFail SpecReport SpecMerge SpecMergeFiles
  ProofBytes ProofCommand1 ProofCommand2 ProofCommand3 ProofCommand4 ProofReport1 ProofReport2 ProofReport3 ProofReport5 ProofMerge1 ProofMerge2 ProofMerge3 ProofMergeFiles1 ProofMergeFiles2
  SpecSyms SpecSymbols ProofSymbols3 ProofSymbols4 SpecMergeSyms.
Import ListNotations.
Open Scope list_scope.
Open Scope Z_scope.

(** ** paths and abbreviated paths *)
Definition lab3 (p : list str) : list str := match p with [] => [] | o :: p => basename o :: p end.
Definition lab2 (p : list str) : list str := match p with [] => [] | x :: p => basename x :: lab3 p end.
Definition lab1 (p : list str) : list str := match p with [] => [] | N :: p => abbrev N :: lab2 p end.
Definition relabel (lab : list str -> list str) (pe : list str * SpecTree.entry) := (lab (fst pe), snd pe).
Lemma aents_dict {C} (ents aents : C -> list (list str * SpecTree.entry)) lab d : (forall key c, In (key, c) d -> aents c = map (fun pe => (lab (key :: fst pe), snd pe)) (ents c)) ->
  flat_map (fun kc => aents (snd kc)) d = map (relabel lab) (ents_dict ents d).
Proof.
  unfold ents_dict. induction d as [|[key c] d IH]; intros H; [reflexivity|]. cbn [flat_map fst snd]. rewrite map_app, <- IH by (intros k0 c0 I; apply H; now right). f_equal.
  rewrite (H key c (or_introl eq_refl)), map_map. apply map_ext. intros [p e]. reflexivity.
Qed.
Lemma aents_node_lab {C} (ents aents : C -> list (list str * SpecTree.entry)) lab (n : node C) b : n_abbrev n = b -> lab [] = [] ->
  flat_map (fun kc => aents (snd kc)) (n_sub n) = map (relabel lab) (ents_dict ents (n_sub n)) ->
  aents_node aents n = map (fun pe => (b :: lab (fst pe), snd pe)) (ents_node ents n).
Proof.
  intros <- L H. unfold aents_node, ents_node. cbn [map fst snd]. rewrite L, H, map_map. f_equal.
Qed.

(** ** what is counted of an account, by names of symbols *)
Definition own_named (X Y : str) (i : item) : bool := (basename (it_archive i) =?= X) && (it_name i =?= Y).
Lemma own_named_is X Y i : own_named X Y i = true <-> named X Y i.
Proof. unfold own_named, named. now rewrite andb_true_iff, !keq_iff, base_basename. Qed.
Lemma own_is_named own X Y : (forall i, own i = true <-> named X Y i) -> forall i, own i = own_named X Y i.
Proof. intros H i. eapply ProofMerge2.same_bool; [apply H|apply own_named_is]. Qed.
Lemma account_named q T kp b X Y B n : (forall o, kp o = true <-> counted (ac_im q) o) -> (forall o a, b o a = true <-> byte_goes (ac_types q) (pr_name o) a T) ->
  named_bytes X Y (ColSect T B) q n <-> n = owns_sum kp b (ac_l q) (own_named X Y) (fun z => abbrev z =?= B).
Proof.
  intros K Bb. assert (Pb : forall z, (abbrev z =?= B) = true <-> label [z] B) by (intros z; rewrite keq_iff; symmetry; apply label_abbrev).
  unfold owns_sum, own_of, named_bytes. split.
  - intros (own & H0 & keep & b' & H1 & H2 & ->). rewrite (counted_names (ac_im q) (ac_l q) kp keep (fun z => abbrev z =?= B) (fun z => label [z] B) K Pb H1).
    apply zsumf_ext. intros o _. rewrite (filter_ext own (own_named X Y)) by (apply own_is_named; exact H0). apply zsumf_ext. intros i _. apply bytes_ext. intros x. eapply ProofMerge2.same_bool; [apply H2|apply Bb].
  - intros ->. exists (own_named X Y). split; [apply own_named_is|].
    exists (fun o => kp o && (abbrev (pr_name o) =?= B)), b. split; [intros o; now rewrite andb_true_iff, Pb, K|]. split; [exact Bb|reflexivity].
Qed.
Lemma named_total X Y c k n : (match c with ColSect _ _ => False | _ => True end) -> named_bytes X Y c k n <-> own_bytes (own_named X Y) c k n.
Proof.
  intros Hc. unfold named_bytes. split.
  - intros (own & H0 & H). assert (E : forall i, own i = own_named X Y i) by (apply own_is_named; exact H0).
    destruct c as [|T|T N]; [| |contradiction]; cbn [own_bytes] in *.
    + destruct H as (keep & H1 & ->). exists keep. split; [exact H1|]. apply zsumf_ext. intros o _. now rewrite (filter_ext own (own_named X Y)) by exact E.
    + destruct H as (keep & b & H1 & H2 & ->). exists keep, b. split; [exact H1|]. split; [exact H2|]. apply zsumf_ext. intros o _. now rewrite (filter_ext own (own_named X Y)) by exact E.
  - intros H. exists (own_named X Y). split; [apply own_named_is|]. destruct c; [exact H|exact H|contradiction].
Qed.
(** the symbol with this archive, object file and name *)
Definition sym_at (z : str * str * str) : item := Item (snd z) 0 0 (fst (fst z)) (snd (fst z)) [].
Definition sym_key (i : item) : str * str * str := (it_archive i, it_object i, it_name i).
Lemma of_symbol_key z i : of_symbol (sym_at z) i = (sym_key i =?= z).
Proof.
  destruct z as [[x o] y]. unfold of_symbol, of_object, sym_at, sym_key. cbn [it_archive it_object it_name fst snd]. apply eq_true_iff_eq. rewrite !andb_true_iff, !keq_iff.
  split; [intros ((-> & ->) & ->); apply keq_refl|intros E; apply keq_true in E; injection E as -> -> ->; auto].
Qed.
Lemma parts_symbols kp b l P X Y (L : list (str * str * str)) : NoDup L -> (forall z, In z L -> basename (fst (fst z)) = X /\ snd z = Y) ->
  (forall z, basename (fst (fst z)) = X -> snd z = Y -> ~ In z L -> owns_sum kp b l (of_symbol (sym_at z)) P = 0) ->
  owns_sum kp b l (own_named X Y) P = zsumf (fun z => owns_sum kp b l (of_symbol (sym_at z)) P) L.
Proof.
  intros D HL Hz. unfold owns_sum.
  assert (E : zsumf (own_of b (own_named X Y)) (filter (fun o => kp o && P (pr_name o)) l) = zsumf (fun o => zsumf (fun z => own_of b (of_symbol (sym_at z)) o) L) (filter (fun o => kp o && P (pr_name o)) l)).
  { apply zsumf_ext. intros o Io. unfold own_of.
    pose proof (zsum_keys sym_key (fun i => bytes_with (b o) (it_addr i) (it_size i)) (fun z => (basename (fst (fst z)) =?= X) && (snd z =?= Y)) L (pr_items o) D) as H.
    assert (Eq : filter (own_named X Y) (pr_items o) = filter (fun i => (basename (fst (fst (sym_key i))) =?= X) && (snd (sym_key i) =?= Y)) (pr_items o)) by reflexivity. rewrite Eq, H; clear H Eq.
    - apply zsumf_ext. intros z _. reflexivity.
    - intros z I. destruct (HL z I) as (E1 & E2). now rewrite E1, E2, !keq_refl.
    - intros i Ii Pi N. apply andb_true_iff in Pi. destruct Pi as (P1 & P2). apply keq_true in P1, P2. specialize (Hz (sym_key i) P1 P2 N). unfold owns_sum in Hz.
      pose proof (zsumf_all_zero (own_of b (of_symbol (sym_at (sym_key i)))) _ o (fun x _ => own_of_nonneg b _ x) Hz Io) as Z1. unfold own_of in Z1.
      apply (zsumf_all_zero (fun i0 => bytes_with (b o) (it_addr i0) (it_size i0)) (filter (of_symbol (sym_at (sym_key i))) (pr_items o))); [intros; apply bytes_nonneg|exact Z1|].
      apply filter_In. split; [exact Ii|]. rewrite of_symbol_key. apply keq_refl. }
  rewrite E. apply zsumf_swap.
Qed.
Record sfigures (T : str) (q : account) (ns : (str -> bool) -> Z) (os : (item -> bool) -> (str -> bool) -> Z) : Prop := {
  sg_all : figures T q ns os;
  sg_named : forall x y B n, named_bytes x y (ColSect T B) q n <-> n = os (own_named x y) (fun z => abbrev z =?= B);
  sg_symbols : forall P X Y L, NoDup L -> (forall z, In z L -> basename (fst (fst z)) = X /\ snd z = Y) ->
    (forall z, basename (fst (fst z)) = X -> snd z = Y -> ~ In z L -> os (of_symbol (sym_at z)) P = 0) ->
    os (own_named X Y) P = zsumf (fun z => os (of_symbol (sym_at z)) P) L }.
Lemma sfigures_of T q own n : own_bytes own (ColType T) q n -> exists ns os, sfigures T q ns os.
Proof.
  intros (kp & b & K & Bb & _). exists (names_sum kp b (ac_l q)), (owns_sum kp b (ac_l q)). split.
  - split.
    + intros; now apply account_name.
    + intros; now apply account_label.
    + intros; now apply account_own.
    + intros; now apply account_base.
    + intros P L D HL Hz. apply (parts_names kp (ac_l q)); [intros; apply bytes_nonneg|exact D|exact HL|exact Hz].
    + intros own0 P L D HL Hz. apply (parts_names kp (ac_l q)); [intros; apply own_of_nonneg|exact D|exact HL|exact Hz].
    + intros P X L D HL Hz. now apply parts_archives.
    + intros P. apply Base.zsumf_nonneg. intros o _. apply bytes_nonneg.
  - intros x y B n0. now apply account_named.
  - intros P X Y L D HL Hz. now apply parts_symbols.
Qed.
