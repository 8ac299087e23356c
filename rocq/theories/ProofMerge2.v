From Coq Require Import Ascii String List ZArith Lia Bool Permutation Sorted.
From Verif Require Import Base MemMap SpecTree SpecOps Filter Pipeline SpecPipe SpecBuild SpecBytes SpecShape ProofOps ProofTrim ProofDiff ProofUnify ProofUnifyDiff ProofSummary ProofSummary2 ProofSummary3 Fixtures PyStr MapFile SpecMap
  ElfRead SpecElf Project SpecProject SpecEnd Chips SpecChips ProofChips ProofShape Deps Table SpecTable Formats Main SpecMain ProofMain Command SpecCommand SpecFail SpecReport SpecMerge
  ProofBytes ProofCommand1 ProofCommand2 ProofCommand3 ProofCommand4 ProofReport1 ProofReport2 ProofReport3 ProofReport5 ProofMerge1.
Import ListNotations.
Open Scope list_scope.
Open Scope Z_scope.

(** ** what the map that is shown has with --unify *)
Record ufinal (a : args) (k : account) (r : option account) (M : memmap) (fu : str -> Z * Z) (gn : str -> str -> Z * Z) (go : str -> str -> str -> Z * Z) : Prop := {
  u_wf : wf_map M;
  u_used : forall T t, dget T (m_types M) = Some t -> (t_used t, t_used_diff t) = fu T;
  u_used_is : forall T v, measured k r (used_bytes T) v <-> v = fu T;
  u_listed : forall T, dget T (m_types M) <> None <-> present k r (lists_type a T);
  u_name : forall T B e, look M T [B] = Some e -> (e_size e, e_diff e) = gn T B;
  u_name_is : forall T B v, measured k r (label_bytes T B) v <-> v = gn T B;
  u_section : forall T B, look M T [B] <> None <-> present k r (lists_label T B);
  u_archive : forall T B x, (esize (look M T [B; x]), ediff (look M T [B; x])) = go x T B;
  u_sect_is : forall x T B v, measured k r (base_bytes x (ColSect T B)) v <-> v = go x T B;
  u_type_is : forall x T Bs, NoDup Bs -> (forall B, present k r (lists_label T B) -> In B Bs) -> forall v, measured k r (base_bytes x (ColType T)) v <-> v = psum (go x T) Bs;
  u_all_is : forall x Ts (Bs : str -> list str), NoDup Ts -> (forall T, present k r (lists_type a T) -> In T Ts) ->
    (forall T, In T Ts -> NoDup (Bs T) /\ forall B, present k r (lists_label T B) -> In B (Bs T)) ->
    forall v, measured k r (base_bytes x ColTotal) v <-> v = psum (fun T => psum (go x T) (Bs T)) Ts;
  u_places : forall x, (exists T B, look M T [B; x] <> None) <-> exists i, present k r (places i) /\ base_name i x;
  u_label : forall T B e, look M T [B] = Some e -> e_abbrev e = B;
  u_base : forall T B x e, look M T [B; x] = Some e -> e_abbrev e = x;
  u_total : forall T t, dget T (m_types M) = Some t -> total_bytes a T k (t_size t) /\
    (t_size t <> 0 \/ a_use_flash_size a = true -> measured k r (total_bytes a T) (t_size t, t_size_diff t));
  u_image : measured k r (fun q => image_bytes (ac_im q) (ac_l q)) (m_image_size M, m_image_size_diff M) }.

Lemma label_abbrev N B : label [N] B <-> abbrev N = B.
Proof.
  cbn [label]. unfold abbrev. split.
  - intros (b & H & ->). f_equal. eapply after_last_unique; [apply after_dot|exact H].
  - intros <-. exists (after_last_dot N). split; [apply after_dot|reflexivity].
Qed.
Lemma base_basename i x : base_name i x <-> basename (it_archive i) = x.
Proof.
  unfold base_name. split; [intros H; eapply after_last_unique; [apply basename_after|exact H]|intros <-; apply basename_after].
Qed.
Lemma keq_iff (x y : str) : (x =?= y) = true <-> x = y.
Proof. split; [apply keq_true|intros ->; apply keq_refl]. Qed.
Definition own_base (x : str) (i : item) : bool := basename (it_archive i) =?= x.

(** ** the numbers of an account *)
Definition sees (k : account) (r : option account) (q : account) : Prop := q = k \/ r = Some q.
Definition pair (r : option account) (x y : Z) : Z * Z := (x, match r with None => 0 | Some _ => x - y end).
Lemma measured_pair k r (f : account -> Z -> Prop) x y : (forall n, f k n <-> n = x) -> (forall k', r = Some k' -> forall n, f k' n <-> n = y) -> forall v, measured k r f v <-> v = pair r x y.
Proof.
  intros H H' [n dv]. unfold measured, pair. cbn [fst snd]. rewrite H. destruct r as [k'|].
  - split.
    + intros (-> & n' & E & ->). apply (H' k' eq_refl) in E. now subst.
    + intros E. injection E as -> ->. split; [reflexivity|]. exists y. split; [apply (H' k' eq_refl); reflexivity|reflexivity].
  - split; [intros (-> & ->); reflexivity|intros E; now injection E as -> ->].
Qed.
Lemma measured_some k r (f : account -> Z -> Prop) v : measured k r f v -> forall q, sees k r q -> exists n, f q n.
Proof.
  unfold measured. intros (H1 & H2) q [->|E]; [eauto|]. subst r. destruct H2 as (n & H & _). eauto.
Qed.
Lemma pair_zero r x y : pair r x y = (0, 0) -> x = 0 /\ (r <> None -> y = 0).
Proof. unfold pair. intros E. injection E as E1 E2. split; [exact E1|]. destruct r; [intros _; lia|congruence]. Qed.
Lemma pair_sum {A} r (x y : A -> Z) L : pair r (zsumf x L) (zsumf y L) = psum (fun e => pair r (x e) (y e)) L.
Proof.
  unfold pair, psum. cbn [fst snd]. f_equal. destruct r as [k'|]; [|symmetry; now apply zsumf_zero]. symmetry. apply zsumf_minus.
Qed.
Lemma pair_ext r x y x' y' : x = x' -> (r <> None -> y = y') -> pair r x y = pair r x' y'.
Proof. intros -> H. unfold pair. destruct r; [|reflexivity]. now rewrite H. Qed.
Lemma psum_ext {A} (f g : A -> Z * Z) l : (forall x, In x l -> f x = g x) -> psum f l = psum g l.
Proof. intros H. unfold psum. f_equal; apply zsumf_ext; intros x I; now rewrite (H x I). Qed.

Section Figures.
Variables (kp : printed -> bool) (b : printed -> Z -> bool) (l : list printed).
Definition names_sum (P : str -> bool) : Z := zsumf (fun o => bytes_with (b o) (pr_addr o) (pr_size o)) (filter (fun o => kp o && P (pr_name o)) l).
Definition own_of (own : item -> bool) (o : printed) : Z := zsumf (fun i => bytes_with (b o) (it_addr i) (it_size i)) (filter own (pr_items o)).
Definition owns_sum (own : item -> bool) (P : str -> bool) : Z := zsumf (own_of own) (filter (fun o => kp o && P (pr_name o)) l).
Lemma filter_two {A} (f g : A -> bool) q : filter (fun x => f x && g x) q = filter g (filter f q).
Proof. induction q as [|x q IH]; [reflexivity|]. cbn [filter]. destruct (f x); cbn [andb filter]; [destruct (g x); now rewrite IH|exact IH]. Qed.
Lemma own_of_nonneg own o : 0 <= own_of own o.
Proof. apply Base.zsumf_nonneg. intros i _. apply bytes_nonneg. Qed.

(** sums over sections by name *)
Lemma parts_names (h : printed -> Z) P L : (forall o, 0 <= h o) -> NoDup L -> (forall x, In x L -> P x = true) ->
  (forall x, P x = true -> ~ In x L -> zsumf h (filter (fun o => kp o && (pr_name o =?= x)) l) = 0) ->
  zsumf h (filter (fun o => kp o && P (pr_name o)) l) = zsumf (fun x => zsumf h (filter (fun o => kp o && (pr_name o =?= x)) l)) L.
Proof.
  intros Hn D HL Hz. rewrite (filter_two kp (fun o => P (pr_name o))). rewrite (zsum_parts pr_name h P L); [|exact D|exact HL|].
  - apply zsumf_ext. intros x _. now rewrite (filter_two kp (fun o => pr_name o =?= x)).
  - intros o I Po N. apply (zsumf_all_zero h (filter (fun o' => kp o' && (pr_name o' =?= pr_name o)) l)); [intros; apply Hn|now apply Hz|].
    apply filter_In in I. destruct I as (I & Ko). apply filter_In. split; [exact I|]. now rewrite Ko, keq_refl.
Qed.
(** sums over archives by name *)
Lemma parts_archives P X L : NoDup L -> (forall x, In x L -> basename x = X) -> (forall x, basename x = X -> ~ In x L -> owns_sum (of_archive x) P = 0) ->
  owns_sum (own_base X) P = zsumf (fun x => owns_sum (of_archive x) P) L.
Proof.
  intros D HL Hz. unfold owns_sum.
  assert (E : zsumf (own_of (own_base X)) (filter (fun o => kp o && P (pr_name o)) l) = zsumf (fun o => zsumf (fun x => own_of (of_archive x) o) L) (filter (fun o => kp o && P (pr_name o)) l)).
  { apply zsumf_ext. intros o Io. unfold own_of. unfold own_base, of_archive.
    apply (zsum_parts it_archive (fun i => bytes_with (b o) (it_addr i) (it_size i)) (fun y => basename y =?= X) L); [exact D|intros x Ix; rewrite (HL x Ix); apply keq_refl|].
    intros i Ii Pi N. apply keq_true in Pi. specialize (Hz _ Pi N). unfold owns_sum in Hz.
    pose proof (zsumf_all_zero (own_of (of_archive (it_archive i))) _ o (fun x _ => own_of_nonneg _ x) Hz Io) as Z1. unfold own_of in Z1.
    apply (zsumf_all_zero (fun i0 => bytes_with (b o) (it_addr i0) (it_size i0)) (filter (of_archive (it_archive i)) (pr_items o))); [intros; apply bytes_nonneg|exact Z1|].
    apply filter_In. split; [exact Ii|]. unfold of_archive. apply keq_refl. }
  rewrite E. apply zsumf_swap.
Qed.
End Figures.

Lemma counted_names im l (kp : printed -> bool) (keep : printed -> bool) P (Q : str -> Prop) :
  (forall o, kp o = true <-> counted im o) -> (forall n, P n = true <-> Q n) -> (forall o, keep o = true <-> counted im o /\ Q (pr_name o)) ->
  filter keep l = filter (fun o => kp o && P (pr_name o)) l.
Proof.
  intros H1 H2 H3. apply filter_ext. intros o. apply eq_true_iff_eq. now rewrite andb_true_iff, H1, H2, H3.
Qed.
Lemma same_bool (x y : bool) (P : Prop) : (x = true <-> P) -> (y = true <-> P) -> x = y.
Proof. intros H1 H2. apply eq_true_iff_eq. now rewrite H1, H2. Qed.

(** the bytes of an account as sums *)
Section Account.
Variables (q : account) (T : str) (kp : printed -> bool) (b : printed -> Z -> bool).
Hypothesis K : forall o, kp o = true <-> counted (ac_im q) o.
Hypothesis Bb : forall o a, b o a = true <-> byte_goes (ac_types q) (pr_name o) a T.

Lemma account_name N n : name_bytes T N q n <-> n = names_sum kp b (ac_l q) (fun y => y =?= N).
Proof.
  unfold names_sum. split.
  - intros (keep & b' & H1 & H2 & ->). rewrite (counted_names (ac_im q) (ac_l q) kp keep (fun y => y =?= N) (fun y => y = N) K (fun y => keq_iff y N) H1).
    apply zsumf_ext. intros o Io. apply filter_In in Io. destruct Io as (_ & Io). apply andb_true_iff in Io. destruct Io as (_ & Io). apply keq_true in Io. apply bytes_ext. intros x. eapply same_bool; [apply H2|]. rewrite <- Io. apply Bb.
  - intros ->. exists (fun o => kp o && (pr_name o =?= N)).
    assert (X : exists b', forall a, b' a = true <-> byte_goes (ac_types q) N a T) by (exists (b (Printed N 0 0 [])); intros a; apply (Bb (Printed N 0 0 []))).
    destruct X as (b' & H2). exists b'. split; [intros o; now rewrite andb_true_iff, keq_iff, K|]. split; [exact H2|].
    apply zsumf_ext. intros o Io. apply filter_In in Io. destruct Io as (_ & Io). apply andb_true_iff in Io. destruct Io as (_ & Io). apply keq_true in Io. apply bytes_ext. intros x. eapply same_bool; [|apply H2]. rewrite <- Io. apply Bb.
Qed.
Lemma account_label B n : label_bytes T B q n <-> n = names_sum kp b (ac_l q) (fun y => abbrev y =?= B).
Proof.
  assert (Pb : forall y, (abbrev y =?= B) = true <-> label [y] B) by (intros y; rewrite keq_iff; symmetry; apply label_abbrev).
  unfold names_sum. split.
  - intros (keep & b' & H1 & H2 & ->). rewrite (counted_names (ac_im q) (ac_l q) kp keep (fun y => abbrev y =?= B) (fun y => label [y] B) K Pb H1).
    apply zsumf_ext. intros o _. apply bytes_ext. intros x. eapply same_bool; [apply H2|apply Bb].
  - intros ->. exists (fun o => kp o && (abbrev (pr_name o) =?= B)), b. split; [intros o; now rewrite andb_true_iff, Pb, K|]. split; [exact Bb|reflexivity].
Qed.
Lemma account_own own N n : own_bytes own (ColSect T N) q n <-> n = owns_sum kp b (ac_l q) own (fun y => y =?= N).
Proof.
  unfold owns_sum, own_of. cbn [own_bytes]. split.
  - intros (keep & b' & H1 & H2 & ->). rewrite (counted_names (ac_im q) (ac_l q) kp keep (fun y => y =?= N) (fun y => y = N) K (fun y => keq_iff y N) H1).
    apply zsumf_ext. intros o Io. apply filter_In in Io. destruct Io as (_ & Io). apply andb_true_iff in Io. destruct Io as (_ & Io). apply keq_true in Io. apply zsumf_ext. intros i _. apply bytes_ext. intros x. eapply same_bool; [apply H2|]. rewrite <- Io. apply Bb.
  - intros ->. exists (fun o => kp o && (pr_name o =?= N)), (b (Printed N 0 0 [])). split; [intros o; now rewrite andb_true_iff, keq_iff, K|]. split; [intros a; apply (Bb (Printed N 0 0 []))|].
    apply zsumf_ext. intros o Io. apply filter_In in Io. destruct Io as (_ & Io). apply andb_true_iff in Io. destruct Io as (_ & Io). apply keq_true in Io. apply zsumf_ext. intros i _. apply bytes_ext. intros x. eapply same_bool; [apply Bb|]. rewrite Io. apply (Bb (Printed N 0 0 [])).
Qed.
Lemma own_is_base own X : (forall i, own i = true <-> base_name i X) -> forall i, own i = own_base X i.
Proof. intros H i. eapply same_bool; [apply H|]. unfold own_base. rewrite keq_iff. symmetry. apply base_basename. Qed.
Lemma account_base X B n : base_bytes X (ColSect T B) q n <-> n = owns_sum kp b (ac_l q) (own_base X) (fun y => abbrev y =?= B).
Proof.
  assert (Pb : forall y, (abbrev y =?= B) = true <-> label [y] B) by (intros y; rewrite keq_iff; symmetry; apply label_abbrev).
  unfold owns_sum, own_of, base_bytes. split.
  - intros (own & H0 & keep & b' & H1 & H2 & ->). rewrite (counted_names (ac_im q) (ac_l q) kp keep (fun y => abbrev y =?= B) (fun y => label [y] B) K Pb H1).
    apply zsumf_ext. intros o _. rewrite (filter_ext own (own_base X)) by (apply own_is_base; exact H0). apply zsumf_ext. intros i _. apply bytes_ext. intros x. eapply same_bool; [apply H2|apply Bb].
  - intros ->. exists (own_base X). split; [intros i; unfold own_base; rewrite keq_iff; symmetry; apply base_basename|].
    exists (fun o => kp o && (abbrev (pr_name o) =?= B)), b. split; [intros o; now rewrite andb_true_iff, Pb, K|]. split; [exact Bb|reflexivity].
Qed.
End Account.
Lemma base_total X c k n : (match c with ColSect _ _ => False | _ => True end) -> base_bytes X c k n <-> own_bytes (own_base X) c k n.
Proof.
  intros Hc. unfold base_bytes. split.
  - intros (own & H0 & H). assert (E : forall i, own i = own_base X i) by (apply own_is_base; exact H0).
    destruct c as [|T|T N]; [| |contradiction]; cbn [own_bytes] in *.
    + destruct H as (keep & H1 & ->). exists keep. split; [exact H1|]. apply zsumf_ext. intros o _. now rewrite (filter_ext own (own_base X)) by exact E.
    + destruct H as (keep & b & H1 & H2 & ->). exists keep, b. split; [exact H1|]. split; [exact H2|]. apply zsumf_ext. intros o _. now rewrite (filter_ext own (own_base X)) by exact E.
  - intros H. exists (own_base X). split; [intros i; unfold own_base; rewrite keq_iff; symmetry; apply base_basename|]. destruct c; [exact H|exact H|contradiction].
Qed.

(** what is counted of an account in a memory type, by names of sections and of archives *)
Record figures (T : str) (q : account) (ns : (str -> bool) -> Z) (os : (item -> bool) -> (str -> bool) -> Z) : Prop := {
  fg_name : forall N n, name_bytes T N q n <-> n = ns (fun y => y =?= N);
  fg_label : forall B n, label_bytes T B q n <-> n = ns (fun y => abbrev y =?= B);
  fg_own : forall own N n, own_bytes own (ColSect T N) q n <-> n = os own (fun y => y =?= N);
  fg_base : forall X B n, base_bytes X (ColSect T B) q n <-> n = os (own_base X) (fun y => abbrev y =?= B);
  fg_names : forall P L, NoDup L -> (forall x, In x L -> P x = true) -> (forall x, P x = true -> ~ In x L -> ns (fun y => y =?= x) = 0) -> ns P = zsumf (fun x => ns (fun y => y =?= x)) L;
  fg_owns : forall own P L, NoDup L -> (forall x, In x L -> P x = true) -> (forall x, P x = true -> ~ In x L -> os own (fun y => y =?= x) = 0) -> os own P = zsumf (fun x => os own (fun y => y =?= x)) L;
  fg_archives : forall P X L, NoDup L -> (forall x, In x L -> basename x = X) -> (forall x, basename x = X -> ~ In x L -> os (of_archive x) P = 0) -> os (own_base X) P = zsumf (fun x => os (of_archive x) P) L;
  fg_nonneg : forall P, 0 <= ns P }.
Lemma figures_of T q n : used_bytes T q n -> exists ns os, figures T q ns os.
Proof.
  intros (kp & b & K & Bb & _). exists (names_sum kp b (ac_l q)), (owns_sum kp b (ac_l q)). split.
  - intros; now apply account_name.
  - intros; now apply account_label.
  - intros; now apply account_own.
  - intros; now apply account_base.
  - intros P L D HL Hz. apply (parts_names kp (ac_l q)); [intros; apply bytes_nonneg|exact D|exact HL|exact Hz].
  - intros own P L D HL Hz. apply (parts_names kp (ac_l q)); [intros; apply own_of_nonneg|exact D|exact HL|exact Hz].
  - intros P X L D HL Hz. now apply parts_archives.
  - intros P. apply Base.zsumf_nonneg. intros o _. apply bytes_nonneg.
Qed.
