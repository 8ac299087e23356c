From Coq Require Import Ascii String List ZArith Lia Bool Permutation Sorted.
From Verif Require Import Base MemMap SpecTree SpecOps Filter Pipeline SpecPipe SpecBuild SpecBytes SpecShape ProofOps ProofTrim ProofDiff ProofUnify ProofUnifyDiff ProofSummary ProofSummary2 ProofSummary3 Fixtures PyStr MapFile SpecMap
  ElfRead SpecElf Project SpecProject SpecEnd Chips SpecChips ProofChips ProofShape Deps Table SpecTable Formats Main SpecMain ProofMain Command SpecCommand SpecFail SpecReport SpecMerge
  ProofCommand1 ProofCommand2 ProofCommand3 ProofCommand4 ProofReport1 ProofReport2 ProofReport3.
Import ListNotations.
Open Scope list_scope.
Open Scope Z_scope.

(** ** sums by keys *)
Lemma zsum_parts {A} (key : A -> str) (f : A -> Z) (P : str -> bool) L l : NoDup L -> (forall x, In x L -> P x = true) ->
  (forall a, In a l -> P (key a) = true -> ~ In (key a) L -> f a = 0) ->
  zsumf f (filter (fun a => P (key a)) l) = zsumf (fun x => zsumf f (filter (fun a => key a =?= x) l)) L.
Proof.
  intros D HL. induction l as [|a l IH]; intros H.
  - cbn [filter]. symmetry. now apply zsumf_zero.
  - assert (E : zsumf (fun x => zsumf f (filter (fun a0 => key a0 =?= x) (a :: l))) L = zsumf (fun x => if key a =?= x then f a else 0) L + zsumf (fun x => zsumf f (filter (fun a0 => key a0 =?= x) l)) L).
    { rewrite <- zsumf_plus. apply zsumf_ext. intros x _. cbn [filter]. destruct (key a =?= x); [rewrite zsumf_cons; reflexivity|lia]. }
    rewrite E, <- IH by (intros; apply H; [now right|assumption..]). clear E. cbn [filter].
    assert (Q : zsumf (fun x => if key a =?= x then f a else 0) L = if P (key a) then f a else 0).
    { destruct (In_dec (list_eq_dec ascii_dec) (key a) L) as [I|N].
      - rewrite (HL _ I). clear - D I. induction D as [|y L N D IH]; [destruct I|]. rewrite zsumf_cons. destruct (keqP (key a) y) as [E|E].
        + subst y. rewrite zsumf_zero; [lia|]. intros y Iy. destruct (keqP (key a) y) as [Ey|]; [exfalso; apply N; rewrite Ey; exact Iy|reflexivity].
        + destruct I as [I|I]; [congruence|]. rewrite IH by exact I. lia.
      - rewrite zsumf_zero; [|intros y Iy; destruct (keqP (key a) y) as [Ey|]; [exfalso; apply N; rewrite Ey; exact Iy|reflexivity]]. destruct (P (key a)) eqn:Pa; [|reflexivity]. symmetry. apply H; [now left|exact Pa|exact N]. }
    rewrite Q. destruct (P (key a)); rewrite ?zsumf_cons; lia.
Qed.
Lemma zsumf_all_zero {A} (f : A -> Z) l x : (forall x, In x l -> 0 <= f x) -> zsumf f l = 0 -> In x l -> f x = 0.
Proof.
  intros H Z0 I. destruct (Z.eq_dec (f x) 0) as [E|E]; [exact E|]. pose proof (H x I). pose proof (zsumf_pos f l x H I ltac:(lia)). lia.
Qed.

(** ** what --unify finds *)
Lemma unify_size m T p : esize (look (unify m) T p) = zsumf e_size (with_apath m T p) /\ ediff (look (unify m) T p) = zsumf e_diff (with_apath m T p).
Proof.
  pose proof (unify_look m T p) as H. destruct (look (unify m) T p) as [e|]; cbn [esize ediff].
  - destruct H as (_ & H1 & H2 & _). now split.
  - rewrite H. now split.
Qed.
Lemma unify_found m T p : look (unify m) T p <> None <-> with_apath m T p <> [].
Proof.
  pose proof (unify_look m T p) as H. destruct (look (unify m) T p) as [e|].
  - destruct H as (H & _). split; [auto|discriminate].
  - rewrite H. tauto.
Qed.
Definition with_label (B : str) (d : dict str sect) := filter (fun kv => n_abbrev (snd kv) =?= B) d.
Definition with_base (X : str) (d : dict str arch) := filter (fun kv => n_abbrev (snd kv) =?= X) d.
Lemma sel_nil_node {C} (aents : C -> list (list str * SpecTree.entry)) (n : node C) : sel [] (aents_node aents n) = [].
Proof. rewrite sel_aents_node. reflexivity. Qed.
Lemma with_apath1 m T t B : dget T (m_types m) = Some t -> with_apath m T [B] = map (fun kv => entry_of_node (snd kv)) (with_label B (t_sections t)).
Proof.
  intros E. unfold with_apath. rewrite E. change (sel [B] (flat_map (fun kc => aents_sect (snd kc)) (t_sections t)) = map (fun kv => entry_of_node (snd kv)) (with_label B (t_sections t))).
  rewrite sel_flat_map. unfold with_label. induction (t_sections t) as [|[n s] q IH]; [reflexivity|]. cbn [flat_map filter snd]. rewrite IH. unfold aents_sect at 1. rewrite sel_aents_node.
  assert (Z0 : (if B =?= n_abbrev s then sel [] (daents aents_arch (n_sub s)) else []) = []).
  { destruct (B =?= n_abbrev s); [|reflexivity]. unfold daents. rewrite sel_flat_map. clear. induction (n_sub s) as [|kv q IH]; [reflexivity|]. cbn [flat_map]. rewrite IH. unfold aents_arch. now rewrite sel_nil_node. }
  rewrite Z0, app_nil_r. rewrite (keq_sym (n_abbrev s)). destruct (keqP [B] [n_abbrev s]) as [E1|E1], (keqP B (n_abbrev s)) as [E2|E2]; try congruence; reflexivity.
Qed.
Lemma with_apath2 m T t B X : dget T (m_types m) = Some t -> with_apath m T [B; X] = flat_map (fun kv => map (fun kx => entry_of_node (snd kx)) (with_base X (n_sub (snd kv)))) (with_label B (t_sections t)).
Proof.
  intros E. unfold with_apath. rewrite E. change (sel [B; X] (flat_map (fun kc => aents_sect (snd kc)) (t_sections t)) = flat_map (fun kv => map (fun kx => entry_of_node (snd kx)) (with_base X (n_sub (snd kv)))) (with_label B (t_sections t))).
  rewrite sel_flat_map. unfold with_label. induction (t_sections t) as [|[n s] q IH]; [reflexivity|]. cbn [flat_map filter snd]. rewrite IH. unfold aents_sect at 1. rewrite sel_aents_node.
  assert (Z0 : ([B; X] =?= [n_abbrev s]) = false) by (apply keq_neq; discriminate). rewrite Z0. cbn [app]. rewrite (keq_sym (n_abbrev s)). destruct (B =?= n_abbrev s); [|reflexivity]. cbn [flat_map snd]. f_equal.
  unfold daents. rewrite sel_flat_map. unfold with_base. clear. induction (n_sub s) as [|[x ar] q IH]; [reflexivity|]. cbn [flat_map filter snd]. rewrite IH. unfold aents_arch at 1. rewrite sel_aents_node.
  assert (Z0 : (if X =?= n_abbrev ar then sel [] (daents aents_obj (n_sub ar)) else []) = []).
  { destruct (X =?= n_abbrev ar); [|reflexivity]. unfold daents. rewrite sel_flat_map. clear. induction (n_sub ar) as [|kv q IH]; [reflexivity|]. cbn [flat_map]. rewrite IH. unfold aents_obj. now rewrite sel_nil_node. }
  rewrite Z0, app_nil_r. rewrite (keq_sym (n_abbrev ar)). destruct (keqP [X] [n_abbrev ar]) as [E1|E1], (keqP X (n_abbrev ar)) as [E2|E2]; try congruence; reflexivity.
Qed.
