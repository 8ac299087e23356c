From Coq Require Import Ascii String List ZArith Lia Bool Permutation Sorted.
From Verif Require Import Base MemMap SpecTree SpecOps Filter Pipeline SpecPipe SpecBuild SpecBytes SpecShape ProofOps ProofTrim ProofDiff ProofUnify ProofUnifyDiff ProofSummary ProofSummary2 ProofSummary3 Fixtures PyStr MapFile SpecMap
  ElfRead SpecElf Project SpecProject SpecEnd Chips SpecChips ProofChips ProofShape Deps Table SpecTable Formats Main SpecMain ProofMain ProofMain4 Command SpecCommand SpecFail SpecReport SpecMerge SpecMergeFiles
  ProofBytes ProofCommand1 ProofCommand2 ProofCommand3 ProofCommand4 ProofReport1 ProofReport2 ProofReport3 ProofReport5 ProofMerge1 ProofMerge2 ProofMerge3.
Import ListNotations.
Open Scope list_scope.
Open Scope Z_scope.

(** ** sums by keys *)
Lemma zsum_keys {A K} `{HE : Eqb K} (key : A -> K) (f : A -> Z) (P : K -> bool) L l : NoDup L -> (forall x, In x L -> P x = true) ->
  (forall a, In a l -> P (key a) = true -> ~ In (key a) L -> f a = 0) ->
  zsumf f (filter (fun a => P (key a)) l) = zsumf (fun x => zsumf f (filter (fun a => key a =?= x) l)) L.
Proof.
  intros D HL. induction l as [|a l IH]; intros Hz.
  - cbn [filter]. symmetry. now apply zsumf_zero.
  - assert (E : zsumf (fun x => zsumf f (filter (fun a0 => key a0 =?= x) (a :: l))) L = zsumf (fun x => if key a =?= x then f a else 0) L + zsumf (fun x => zsumf f (filter (fun a0 => key a0 =?= x) l)) L).
    { rewrite <- zsumf_plus. apply zsumf_ext. intros x _. cbn [filter]. destruct (key a =?= x); [rewrite zsumf_cons; reflexivity|lia]. }
    rewrite E, <- IH by (intros; apply Hz; [now right|assumption..]). clear E. cbn [filter].
    assert (Q : zsumf (fun x => if key a =?= x then f a else 0) L = if P (key a) then f a else 0).
    { assert (Dc : In (key a) L \/ ~ In (key a) L) by (clear - HE; induction L as [|y L [I|N]]; [right; intros []|left; now right|]; destruct (keqP y (key a)) as [E|E]; [left; now left|right; intros [X|X]; auto]).
      destruct Dc as [I|N].
      - rewrite (HL _ I). clear - HE D I. induction D as [|y L N D IH]; [destruct I|]. rewrite zsumf_cons. destruct (keqP (key a) y) as [E|E].
        + subst y. rewrite zsumf_zero; [lia|]. intros y Iy. destruct (keqP (key a) y) as [Ey|]; [exfalso; apply N; rewrite Ey; exact Iy|reflexivity].
        + destruct I as [I|I]; [congruence|]. rewrite IH by exact I. lia.
      - rewrite zsumf_zero; [|intros y Iy; destruct (keqP (key a) y) as [Ey|]; [exfalso; apply N; rewrite Ey; exact Iy|reflexivity]]. destruct (P (key a)) eqn:Pa; [|reflexivity]. symmetry. apply Hz; [now left|exact Pa|exact N]. }
    rewrite Q. destruct (P (key a)); rewrite ?zsumf_cons; lia.
Qed.

(** ** entries by abbreviated path *)
Definition apick (Q : list str -> bool) (l : list (list str * SpecTree.entry)) : list SpecTree.entry := map snd (filter (fun pe => Q (fst pe)) l).
Lemma apick_ext Q Q' l : (forall p, Q p = Q' p) -> apick Q l = apick Q' l.
Proof. intros H. unfold apick. f_equal. apply filter_ext. intros pe. apply H. Qed.
Lemma apick_none l : apick (fun _ => false) l = [].
Proof. unfold apick. induction l as [|x l IH]; [reflexivity|exact IH]. Qed.
Lemma apick_app Q l l' : apick Q (l ++ l') = apick Q l ++ apick Q l'.
Proof. unfold apick. now rewrite filter_app, map_app. Qed.
Lemma apick_flat_map {A} Q (g : A -> list (list str * SpecTree.entry)) l : apick Q (flat_map g l) = flat_map (fun a => apick Q (g a)) l.
Proof. induction l as [|a l IH]; [reflexivity|]. cbn [flat_map]. now rewrite apick_app, IH. Qed.
Lemma apick_prefix Q x l : apick Q (map (fun pe => (x :: fst pe, snd pe)) l) = apick (fun p => Q (x :: p)) l.
Proof. unfold apick. induction l as [|pe l IH]; [reflexivity|]. cbn [map filter fst]. destruct (Q (x :: fst pe)); cbn [map snd]; now rewrite IH. Qed.
Lemma apick_node {C} Q (g : C -> list (list str * SpecTree.entry)) (n : node C) :
  apick Q (aents_node g n) = (if Q [n_abbrev n] then [entry_of_node n] else []) ++ flat_map (fun kc => apick (fun p => Q (n_abbrev n :: p)) (g (snd kc))) (n_sub n).
Proof.
  unfold aents_node. change (([n_abbrev n], entry_of_node n) :: ?l) with ([([n_abbrev n], entry_of_node n)] ++ l). rewrite apick_app, apick_prefix, apick_flat_map. f_equal.
  unfold apick. cbn [filter fst]. destruct (Q [n_abbrev n]); reflexivity.
Qed.
Lemma flat_map_none {A B} (g : A -> list B) l : (forall x, g x = []) -> flat_map g l = [].
Proof. intros H. induction l as [|x l IH]; [reflexivity|]. cbn [flat_map]. now rewrite H, IH. Qed.
(** entries of object files with a base name in sections chosen by label *)
Definition q3 (PB : str -> bool) (Y : str) (p : list str) : bool := match p with [B; _; y] => PB B && (y =?= Y) | _ => false end.
Lemma apick_files PB Y t : apick (q3 PB Y) (aents_type t) =
  flat_map (fun ks => flat_map (fun kx => flat_map (fun ko => if PB (n_abbrev (snd ks)) && (n_abbrev (snd ko) =?= Y) then [entry_of_node (snd ko)] else []) (n_sub (snd kx))) (n_sub (snd ks))) (t_sections t).
Proof.
  unfold aents_type. rewrite apick_flat_map. apply flat_map_ext. intros [N s]. cbn [snd]. unfold aents_sect. rewrite apick_node. cbn [q3 app]. apply flat_map_ext. intros [x ar]. cbn [snd]. unfold aents_arch. rewrite apick_node. cbn [q3 app].
  apply flat_map_ext. intros [o ob]. cbn [snd]. unfold aents_obj. rewrite apick_node. cbn [q3]. rewrite flat_map_none; [now rewrite app_nil_r|]. intros [y sy]. unfold aents_sym, apick. cbn [filter fst]. reflexivity.
Qed.

(** ** what is counted of an account, by names of object files *)
Definition own_file (y : str) (i : item) : bool := basename (it_object i) =?= y.
Lemma file_basename i y : file_name i y <-> basename (it_object i) = y.
Proof. unfold file_name. split; [intros H; eapply after_last_unique; [apply basename_after|exact H]|intros <-; apply basename_after]. Qed.
Lemma own_is_file own y : (forall i, own i = true <-> file_name i y) -> forall i, own i = own_file y i.
Proof. intros H i. eapply ProofMerge2.same_bool; [apply H|]. unfold own_file. rewrite keq_iff. symmetry. apply file_basename. Qed.
Lemma own_file_is y i : own_file y i = true <-> file_name i y.
Proof. unfold own_file. rewrite keq_iff. symmetry. apply file_basename. Qed.
Lemma account_file q T kp b y B n : (forall o, kp o = true <-> counted (ac_im q) o) -> (forall o a, b o a = true <-> byte_goes (ac_types q) (pr_name o) a T) ->
  file_bytes y (ColSect T B) q n <-> n = owns_sum kp b (ac_l q) (own_file y) (fun z => abbrev z =?= B).
Proof.
  intros K Bb. assert (Pb : forall z, (abbrev z =?= B) = true <-> label [z] B) by (intros z; rewrite keq_iff; symmetry; apply label_abbrev).
  unfold owns_sum, own_of, file_bytes. split.
  - intros (own & H0 & keep & b' & H1 & H2 & ->). rewrite (counted_names (ac_im q) (ac_l q) kp keep (fun z => abbrev z =?= B) (fun z => label [z] B) K Pb H1).
    apply zsumf_ext. intros o _. rewrite (filter_ext own (own_file y)) by (apply own_is_file; exact H0). apply zsumf_ext. intros i _. apply bytes_ext. intros x. eapply ProofMerge2.same_bool; [apply H2|apply Bb].
  - intros ->. exists (own_file y). split; [apply own_file_is|].
    exists (fun o => kp o && (abbrev (pr_name o) =?= B)), b. split; [intros o; now rewrite andb_true_iff, Pb, K|]. split; [exact Bb|reflexivity].
Qed.
Lemma file_total y c k n : (match c with ColSect _ _ => False | _ => True end) -> file_bytes y c k n <-> own_bytes (own_file y) c k n.
Proof.
  intros Hc. unfold file_bytes. split.
  - intros (own & H0 & H). assert (E : forall i, own i = own_file y i) by (apply own_is_file; exact H0).
    destruct c as [|T|T N]; [| |contradiction]; cbn [own_bytes] in *.
    + destruct H as (keep & H1 & ->). exists keep. split; [exact H1|]. apply zsumf_ext. intros o _. now rewrite (filter_ext own (own_file y)) by exact E.
    + destruct H as (keep & b & H1 & H2 & ->). exists keep, b. split; [exact H1|]. split; [exact H2|]. apply zsumf_ext. intros o _. now rewrite (filter_ext own (own_file y)) by exact E.
  - intros H. exists (own_file y). split; [apply own_file_is|]. destruct c; [exact H|exact H|contradiction].
Qed.
Lemma parts_objects kp b l P Y (L : list (str * str)) : NoDup L -> (forall xo, In xo L -> basename (snd xo) = Y) -> (forall x o, basename o = Y -> ~ In (x, o) L -> owns_sum kp b l (of_object x o) P = 0) ->
  owns_sum kp b l (own_file Y) P = zsumf (fun xo => owns_sum kp b l (of_object (fst xo) (snd xo)) P) L.
Proof.
  intros D HL Hz. unfold owns_sum.
  assert (E : zsumf (own_of b (own_file Y)) (filter (fun o => kp o && P (pr_name o)) l) = zsumf (fun o => zsumf (fun xo => own_of b (of_object (fst xo) (snd xo)) o) L) (filter (fun o => kp o && P (pr_name o)) l)).
  { apply zsumf_ext. intros o Io. unfold own_of.
    pose proof (zsum_keys (fun i => (it_archive i, it_object i)) (fun i => bytes_with (b o) (it_addr i) (it_size i)) (fun xo => basename (snd xo) =?= Y) L (pr_items o) D) as H. cbn [snd] in H.
    assert (Eq : filter (own_file Y) (pr_items o) = filter (fun i => basename (it_object i) =?= Y) (pr_items o)) by reflexivity. rewrite Eq, H; clear H Eq.
    - apply zsumf_ext. intros [x ob] _. f_equal.
    - intros xo I. rewrite (HL xo I). apply keq_refl.
    - intros i Ii Pi N. apply keq_true in Pi. specialize (Hz _ _ Pi N). unfold owns_sum in Hz.
      pose proof (zsumf_all_zero (own_of b (of_object (it_archive i) (it_object i))) _ o (fun x _ => own_of_nonneg b _ x) Hz Io) as Z1. unfold own_of in Z1.
      apply (zsumf_all_zero (fun i0 => bytes_with (b o) (it_addr i0) (it_size i0)) (filter (of_object (it_archive i) (it_object i)) (pr_items o))); [intros; apply bytes_nonneg|exact Z1|].
      apply filter_In. split; [exact Ii|]. unfold of_object. now rewrite !keq_refl. }
  rewrite E. apply zsumf_swap.
Qed.
Record ffigures (T : str) (q : account) (ns : (str -> bool) -> Z) (os : (item -> bool) -> (str -> bool) -> Z) : Prop := {
  ff_all : figures T q ns os;
  ff_file : forall y B n, file_bytes y (ColSect T B) q n <-> n = os (own_file y) (fun z => abbrev z =?= B);
  ff_objects : forall P Y L, NoDup L -> (forall xo, In xo L -> basename (snd xo) = Y) -> (forall x o, basename o = Y -> ~ In (x, o) L -> os (of_object x o) P = 0) ->
    os (own_file Y) P = zsumf (fun xo => os (of_object (fst xo) (snd xo)) P) L }.
Lemma ffigures_of T q n : used_bytes T q n -> exists ns os, ffigures T q ns os.
Proof.
  intros (kp & b & K & Bb & _). exists (names_sum kp b (ac_l q)), (owns_sum kp b (ac_l q)). split.
  - split.
    + intros; now apply account_name.
    + intros; now apply account_label.
    + intros; now apply account_own.
    + intros; now apply account_base.
    + intros P L D HL Hz. apply (parts_names kp (ac_l q)); [intros; apply bytes_nonneg|exact D|exact HL|exact Hz].
    + intros own P L D HL Hz. apply (parts_names kp (ac_l q)); [intros; apply own_of_nonneg|exact D|exact HL|exact Hz].
    + intros P X L D HL Hz. now apply parts_archives.
    + intros P. apply Base.zsumf_nonneg. intros o _. apply bytes_nonneg.
  - intros y B n0. now apply account_file.
  - intros P Y L D HL Hz. now apply parts_objects.
Qed.
