From Coq Require Import Ascii String List ZArith Lia Bool Permutation SpecFloat.
From Verif Require Import Base MemMap SpecTree SpecOps SpecTable SpecPipe SpecShape Filter Pipeline PyStr MapFile Deps Table Formats Main SpecMain
  ProofDiff ProofDiff2 ProofUnify ProofOps ProofTable ProofFormats ProofShape ProofMain ProofMain2.
Import ListNotations.
Open Scope list_scope.
Open Scope Z_scope.

(** ** Trees without differences *)

Definition zsym (y : sym) : Prop := y_diff y = 0.
Definition zsub {C} (z : C -> Prop) (d : dict str C) : Prop := Forall (fun kv => z (snd kv)) d.
Definition znode {C} (z : C -> Prop) (n : node C) : Prop := n_diff n = 0 /\ zsub z (n_sub n).
Definition zobj : obj -> Prop := znode zsym.
Definition zarch : arch -> Prop := znode zobj.
Definition zsect : sect -> Prop := znode zarch.
Definition ztype (T : mtype) : Prop := t_used_diff T = 0 /\ (t_size_diff T = 0 \/ t_size T = 0) /\ zsub zsect (t_sections T).
Definition zmap (m : memmap) : Prop := m_image_size_diff m = 0 /\ zsub ztype (m_types m).

Lemma zsub_filter {C} (z : C -> Prop) p (d : dict str C) : zsub z d -> zsub z (filter p d).
Proof. unfold zsub. intros F. apply Forall_forall. intros x I. apply filter_In in I. rewrite Forall_forall in F. apply F, I. Qed.
Lemma zsub_dmap {C D} (z : C -> Prop) (z' : D -> Prop) f (d : dict str C) : (forall c, z c -> z' (f c)) -> zsub z d -> zsub z' (dmap f d).
Proof. unfold zsub, dmap. intros H F. apply Forall_map. eapply Forall_impl; [|exact F]. intros [k c]. cbn [fst snd]. apply H. Qed.
Lemma zsub_sort {C} (z : C -> Prop) key r (d : dict str C) : zsub z d -> zsub z (sort_dict_by_key key r d).
Proof.
  unfold zsub. intros F. apply Forall_forall. intros x I. rewrite Forall_forall in F. apply F.
  eapply Permutation_in; [|exact I]. apply Permutation_sym, py_sorted_perm.
Qed.
Lemma zsub_nil {C} (z : C -> Prop) : zsub z []. Proof. constructor. Qed.

Local Arguments dmap : simpl never.

Lemma ztrim_obj a o : zobj o -> zobj (trim_obj a o).
Proof. intros [D F]. split; [exact D|]. cbn. destruct (trim_depth_of a); try apply zsub_filter, F. apply zsub_nil. Qed.
Lemma ztrim_arch a x : zarch x -> zarch (trim_arch a x).
Proof.
  intros [D F]. split; [exact D|]. cbn [trim_arch n_sub]. pose proof (ztrim_obj a).
  destruct (trim_depth_of a); try apply zsub_nil; (eapply zsub_dmap; [eassumption|apply zsub_filter, F]).
Qed.
Lemma ztrim_sect a x : zsect x -> zsect (trim_sect a x).
Proof. intros [D F]. split; [exact D|]. cbn [trim_sect n_sub]. eapply zsub_dmap; [apply ztrim_arch|apply zsub_filter, F]. Qed.
Lemma ztrim m a : zmap m -> zmap (trim m a).
Proof.
  intros [D F]. split; [exact D|]. cbn [trim with_types m_types]. eapply zsub_dmap; [|apply zsub_filter, F].
  intros T (H1 & H2 & H3). split; [exact H1|]. split; [exact H2|]. cbn [trim_type t_sections]. eapply zsub_dmap; [apply ztrim_sect|apply zsub_filter, H3].
Qed.
Lemma zsort_obj a o : zobj o -> zobj (sort_obj a o).
Proof. intros [D F]. split; [exact D|]. apply zsub_sort, F. Qed.
Lemma zsort_arch a x : zarch x -> zarch (sort_arch a x).
Proof. intros [D F]. split; [exact D|]. cbn [sort_arch n_sub]. eapply zsub_dmap; [apply zsort_obj|apply zsub_sort, F]. Qed.
Lemma zsort_sect a x : zsect x -> zsect (sort_sect a x).
Proof. intros [D F]. split; [exact D|]. cbn [sort_sect n_sub]. eapply zsub_dmap; [apply zsort_arch|apply zsub_sort, F]. Qed.
Lemma zsort m a : zmap m -> zmap (sort m a).
Proof.
  intros [D F]. split; [exact D|]. cbn [sort with_types m_types]. eapply zsub_dmap; [|apply zsub_sort, F].
  intros T (H1 & H2 & H3). split; [exact H1|]. split; [exact H2|]. cbn [sort_type t_sections]. eapply zsub_dmap; [apply zsort_sect|apply zsub_sort, H3].
Qed.

(** from entries to the tree and back *)
Lemma ents_zsym y : (forall p e, In (p, e) (ents_sym y) -> e_diff e = 0) -> zsym y.
Proof. intros H. apply (H [] (entry_of_sym y)). left. reflexivity. Qed.
Lemma ents_zsub {C} (f : C -> list (list str * entry)) (z : C -> Prop) d :
  (forall c, (forall p e, In (p, e) (f c) -> e_diff e = 0) -> z c) ->
  (forall p e, In (p, e) (ents_dict f d) -> e_diff e = 0) -> zsub z d.
Proof.
  intros Z H. apply Forall_forall. intros [k c] I. apply Z. intros p e Ie. apply (H (k :: p)). unfold ents_dict. apply in_flat_map.
  exists (k, c). split; [exact I|]. apply List.in_map_iff. exists (p, e). auto.
Qed.
Lemma ents_znode {C} (f : C -> list (list str * entry)) (z : C -> Prop) n :
  (forall c, (forall p e, In (p, e) (f c) -> e_diff e = 0) -> z c) ->
  (forall p e, In (p, e) (ents_node f n) -> e_diff e = 0) -> znode z n.
Proof.
  intros Z H. split; [apply (H [] (entry_of_node n)); left; reflexivity|]. eapply ents_zsub; [exact Z|]. intros p e I. apply (H p). right. exact I.
Qed.
Lemma ents_zsects d : (forall p e, In (p, e) (ents_dict ents_sect d) -> e_diff e = 0) -> zsub zsect d.
Proof.
  apply ents_zsub. intros s. apply ents_znode. intros x. apply ents_znode. intros o. apply ents_znode. apply ents_zsym.
Qed.

(** ** Entries and lookup *)

Lemma ents_look_dict {C} (wfC : C -> Prop) (f : C -> list (list str * entry)) (lk : list str -> C -> option entry) d p e :
  wf_sub wfC d -> (forall c q e, wfC c -> In (q, e) (f c) -> lk q c = Some e) -> In (p, e) (ents_dict f d) -> look_dict lk p d = Some e.
Proof.
  intros [W F] H I. apply in_ents_dict in I. destruct I as (k & c & q & I1 & I2 & ->). cbn [look_dict].
  rewrite Forall_forall in F. pose proof (F _ I1) as Wc. apply In_dget in I1; [|exact W]. rewrite I1. apply H; assumption.
Qed.
Lemma ents_look_node {C} (wfC : C -> Prop) (f : C -> list (list str * entry)) (lk : list str -> C -> option entry) n p e :
  wf_node wfC n -> (forall c q e, wfC c -> In (q, e) (f c) -> lk q c = Some e) -> In (p, e) (ents_node f n) -> look_node lk p n = Some e.
Proof.
  intros W H [I|I]; [injection I as <- <-; reflexivity|]. pose proof (ents_look_dict wfC f lk (n_sub n) p e W H I) as L.
  destruct p; [discriminate L|exact L].
Qed.
Lemma ents_look m t T p e : wf_map m -> dget t (m_types m) = Some T -> In (p, e) (ents_type T) -> look m t p = Some e.
Proof.
  intros W E I. unfold look. rewrite E. refine (ents_look_dict wf_sect ents_sect look_sect _ p e (wf_map_type _ _ _ W E) _ I).
  intros s q e' Ws. refine (ents_look_node wf_arch _ _ _ _ _ Ws _). intros x q' e'' Wx. refine (ents_look_node wf_obj _ _ _ _ _ Wx _).
  intros o q2 e2 Wo. refine (ents_look_node wf_sym _ _ _ _ _ Wo _). intros y q3 e3 _ [I3|[]]. injection I3 as <- <-. reflexivity.
Qed.

(** ** The map handed to the format *)

Definition skipped (a : args) (t : str) : bool := negb (a_use_flash_size a) && is_flash t.

Lemma wf_remove_unused m : wf_map m -> wf_map (remove_unused m).
Proof.
  intros [W F]. split.
  - cbn [remove_unused with_types m_types]. unfold wf_dict. rewrite keys_dmap. apply NoDup_map_filter, W.
  - cbn [remove_unused with_types m_types]. unfold dmap. apply Forall_map. apply Forall_forall. intros [t T] I. apply filter_In in I.
    rewrite Forall_forall in F. destruct (F _ (proj1 I)) as [Ws Fs]. cbn [fst snd] in *. split; cbn [remove_unused_type t_sections].
    + apply NoDup_map_filter, Ws.
    + apply Forall_forall. intros x Ix. apply filter_In in Ix. rewrite Forall_forall in Fs. apply Fs, Ix.
Qed.
Lemma wf_ignore m : wf_map m -> wf_map (ignore_flash_size m).
Proof.
  intros [W F]. split.
  - cbn [ignore_flash_size with_types m_types]. unfold wf_dict, keys, dmapk in *. rewrite map_map. exact W.
  - cbn [ignore_flash_size with_types m_types]. unfold dmapk. apply Forall_map. eapply Forall_impl; [|exact F]. intros [t T]. cbn [fst snd].
    destruct (is_flash t); auto.
Qed.

Definition agreeing (a : args) (m : memmap) : Prop :=
  zero_diffs (skipped a) m /\ wf_map m /\ forall t T, In (t, T) (m_types m) -> skipped a t = true -> t_size T = 0.

Lemma same_agreeing a r : wf_map r ->
  agreeing a (diff (if a_use_flash_size a then r else ignore_flash_size r) r).
Proof.
  intros W. set (cur := if a_use_flash_size a then r else ignore_flash_size r).
  assert (Wc : wf_map cur) by (unfold cur; destruct (a_use_flash_size a); [exact W|apply wf_ignore, W]).
  pose proof (wf_diff cur r Wc W) as Wd.
  assert (L : forall t p, look cur t p = look r t p) by (intros; unfold cur; destruct (a_use_flash_size a); [reflexivity|apply ignore_flash_look]).
  assert (G : forall t, match dget t (m_types cur), dget t (m_types r) with
      | Some c, Some x => t_used c = t_used x /\ t_size c = (if skipped a t then 0 else t_size x) | None, None => True | _, _ => False end).
  { intros t. unfold cur, skipped. destruct (a_use_flash_size a); cbn [negb andb]; [destruct (dget t (m_types r)); auto|].
    rewrite ignore_flash_types. destruct (dget t (m_types r)); cbn [option_map]; [|exact I]. destruct (is_flash t); auto. }
  split; [|split; [exact Wd|]].
  - split; [cbn; unfold cur; destruct (a_use_flash_size a); cbn; lia|].
    split; [cbn; unfold cur; destruct (a_use_flash_size a); reflexivity|].
    split; [cbn; unfold cur; destruct (a_use_flash_size a); reflexivity|].
    intros t T I. apply In_dget in I; [|apply Wd]. pose proof (diff_type_sizes cur r t T) as D.
    specialize (D W I). unfold type_size_at, type_used_at in D. specialize (G t).
    split; [split|].
    + destruct (dget t (m_types cur)), (dget t (m_types r)); try contradiction; lia.
    + intros p e Ie. pose proof (ents_look _ _ _ _ _ Wd I Ie) as Le. pose proof (diff_exact cur r t p Wc W) as X. rewrite Le in X.
      destruct X as (_ & _ & X & _). unfold size_at in X. rewrite L in X. lia.
    + intros K. rewrite K in G. destruct (dget t (m_types cur)), (dget t (m_types r)); try contradiction; lia.
  - intros t T I K. apply In_dget in I; [|apply Wd]. pose proof (diff_type_sizes cur r t T W I) as D. unfold type_size_at, type_used_at in D.
    specialize (G t). rewrite K in G. destruct (dget t (m_types cur)), (dget t (m_types r)); try contradiction; lia.
Qed.

Lemma aents_zsym y pe : zsym y -> In pe (aents_sym y) -> e_diff (snd pe) = 0.
Proof. intros Z [<-|[]]. exact Z. Qed.
Lemma aents_zsub {C} (f : C -> list (list str * entry)) (z : C -> Prop) (d : dict str C) :
  (forall c pe, z c -> In pe (f c) -> e_diff (snd pe) = 0) -> forall pe, zsub z d -> In pe (flat_map (fun kc => f (snd kc)) d) -> e_diff (snd pe) = 0.
Proof. intros H pe F I. apply in_flat_map in I. destruct I as (kc & I1 & I2). unfold zsub in F. rewrite Forall_forall in F. eapply H; [apply F|]; eassumption. Qed.
Lemma aents_znode {C} (f : C -> list (list str * entry)) (z : C -> Prop) (n : node C) :
  (forall c pe, z c -> In pe (f c) -> e_diff (snd pe) = 0) -> forall pe, znode z n -> In pe (aents_node f n) -> e_diff (snd pe) = 0.
Proof.
  intros H pe [D F] [<-|I]; [exact D|]. apply List.in_map_iff in I. destruct I as (qe & <- & I). cbn [snd]. eapply aents_zsub; eassumption.
Qed.
Lemma aents_ztype T pe : zsub zsect (t_sections T) -> In pe (aents_type T) -> e_diff (snd pe) = 0.
Proof.
  intros F I. refine (aents_zsub aents_sect zsect _ _ pe F I). intros c q. apply aents_znode. intros c' q'. apply aents_znode. intros c2 q2. apply aents_znode. exact aents_zsym.
Qed.

Lemma unify_agreeing a m : agreeing a m -> agreeing a (unify m).
Proof.
  intros ((H1 & H2 & H3 & H4) & W & H5). pose proof (wf_unify m W) as Wu. split; [|split; [exact Wu|]].
  - split; [exact H1|]. split; [exact H2|]. split; [exact H3|]. intros t T I. pose proof I as I0. cbn [unify with_types m_types] in I0.
    unfold dmap in I0. apply List.in_map_iff in I0. destruct I0 as ([t0 T0] & E & I0). cbn [fst snd] in E. injection E as <- <-.
    destruct (H4 t0 T0 I0) as ((K1 & K2) & K3). split; [split; [exact K1|]|exact K3].
    intros p e Ie. apply In_dget in I; [|apply Wu]. pose proof (unify_look m t0 p) as L. rewrite (ents_look _ _ _ _ _ Wu I Ie) in L.
    assert (Z : forall x, In x (with_apath m t0 p) -> e_diff x = 0).
    { unfold with_apath. apply In_dget in I0; [|apply W]. rewrite I0. intros x Ix. apply List.in_map_iff in Ix. destruct Ix as (pe & <- & Ix).
      apply filter_In in Ix. eapply aents_ztype; [|apply Ix]. apply ents_zsects. exact K2. }
    destruct L as (_ & _ & -> & _). apply zsumf_zero. exact Z.
  - intros t T I. cbn [unify with_types m_types] in I. unfold dmap in I. apply List.in_map_iff in I. destruct I as ([t0 T0] & E & I0).
    cbn [fst snd] in E. injection E as <- <-. apply (H5 t0 T0 I0).
Qed.

Lemma agreeing_zmap a m : agreeing a m -> zmap m.
Proof.
  intros ((H1 & _ & _ & H4) & _ & H5). split; [exact H1|]. apply Forall_forall. intros [t T] I. cbn [snd].
  destruct (H4 t T I) as ((K1 & K2) & K3). split; [exact K1|]. split.
  - destruct (skipped a t) eqn:S; [right; exact (H5 t T I S)|left; apply K3; reflexivity].
  - apply ents_zsects. exact K2.
Qed.

(** ** Summaries *)

Definition zss (s : ssect) : Prop := ss_diff s = 0.
Definition zst (T : stype) : Prop := st_diff T = 0 /\ zsub zss (st_sections T).
Definition zse (e : sentry) : Prop := se_diff e = 0 /\ zsub zst (se_types e).

Lemma zsub_dset {C} (z : C -> Prop) k v (d : dict str C) : z v -> zsub z d -> zsub z (dset k v d).
Proof.
  intros Zv F. induction d as [|[k' v'] d IH]; cbn [dset]; [constructor; [exact Zv|constructor]|].
  inversion F as [|? ? F1 F2]; subst. destruct (k =?= k'); constructor; auto. apply IH, F2.
Qed.
Lemma zsub_dupd {C} (z : C -> Prop) k f (d : dict str C) : (forall v, z v -> z (f v)) -> zsub z d -> zsub z (dupd k f d).
Proof.
  intros H F. induction d as [|[k' v'] d IH]; cbn [dupd]; [exact F|]. inversion F as [|? ? F1 F2]; subst.
  destruct (k =?= k'); constructor; cbn [snd] in *; auto. apply IH, F2.
Qed.
Lemma zsub_In {C} (z : C -> Prop) (d : dict str C) : (forall k v, In (k, v) d -> z v) -> zsub z d.
Proof. intros H. apply Forall_forall. intros [k v] I. exact (H k v I). Qed.
Lemma In_zsub {C} (z : C -> Prop) (d : dict str C) k v : zsub z d -> In (k, v) d -> z v.
Proof. unfold zsub. rewrite Forall_forall. intros F I. exact (F _ I). Qed.

Lemma zse_entries d : zsub zse d -> zero_entries d.
Proof.
  intros F n e I. destruct (In_zsub _ _ _ _ F I) as [E1 E2]. split; [exact E1|]. intros t T It.
  destruct (In_zsub _ _ _ _ E2 It) as [T1 T2]. split; [exact T1|]. intros k s Is. exact (In_zsub _ _ _ _ T2 Is).
Qed.

Lemma fold_pres {A B} (P : A -> Prop) (f : A -> B -> A) l : (forall a b, In b l -> P a -> P (f a b)) -> forall a, P a -> P (fold_left f l a).
Proof.
  induction l as [|b l IH]; intros H a Pa; [exact Pa|]. cbn [fold_left]. apply IH; [|apply H; [left; reflexivity|exact Pa]].
  intros a' b' I. apply H. right. exact I.
Qed.

Lemma zmts m : zsub zst (get_summary_memory_types m).
Proof.
  unfold get_summary_memory_types. apply fold_pres; [|apply zsub_nil]. intros acc t _ F. apply zsub_dset; [|exact F].
  split; [reflexivity|]. cbn [st_sections]. apply fold_pres; [|apply zsub_nil]. intros acc' s _ F'. apply zsub_dset; [reflexivity|exact F'].
Qed.

Lemma zsummary_add mts acc n ab t s size : zsub zst mts -> zsub zse acc -> zsub zse (summary_add mts acc n ab t s size 0).
Proof.
  intros Zm F. unfold summary_add. apply zsub_dupd.
  - intros e [E1 E2]. split; [cbn [se_diff]; lia|]. cbn [se_types]. apply zsub_dupd; [|exact E2]. intros T [T1 T2]. split; [cbn [st_diff]; lia|].
    cbn [st_sections]. apply zsub_dupd; [|exact T2]. intros q _. reflexivity.
  - destruct (dmem n acc); [exact F|]. apply zsub_dset; [|exact F]. split; [reflexivity|exact Zm].
Qed.

Definition zpair {C} (z : C -> Prop) (o : option (str * C)) : Prop := match o with Some kv => z (snd kv) | None => True end.
Lemma zwalk m d w : zmap m -> In w (walk m d) -> zpair zsect (w_sect w) /\ zpair zarch (w_arch w) /\ zpair zobj (w_obj w) /\ zpair zsym (w_sym w).
Proof.
  intros [_ F] I. unfold walk in I. apply in_flat_map in I. destruct I as ([t T] & It & I). destruct (In_zsub _ _ _ _ F It) as (_ & _ & Fs).
  destruct d; try (destruct I as [<-|[]]; cbn; auto; fail);
  apply in_flat_map in I; destruct I as ([k s] & Is & I); cbn [snd] in Is, I; pose proof (In_zsub _ _ _ _ Fs Is) as Zs; destruct Zs as [Z1 Fx];
  try (destruct I as [<-|[]]; cbn; repeat split; auto; fail);
  apply in_flat_map in I; destruct I as ([k2 x] & Ix & I); cbn [snd] in Ix, I; pose proof (In_zsub _ _ _ _ Fx Ix) as Zx; destruct Zx as [Z2 Fo];
  try (destruct I as [<-|[]]; cbn; repeat split; auto; fail);
  apply in_flat_map in I; destruct I as ([k3 o] & Io & I); cbn [snd] in Io, I; pose proof (In_zsub _ _ _ _ Fo Io) as Zo; destruct Zo as [Z3 Fy];
  try (destruct I as [<-|[]]; cbn; repeat split; auto; fail).
  apply List.in_map_iff in I. destruct I as ([k4 y] & <- & Iy). cbn. pose proof (In_zsub _ _ _ _ Fy Iy). repeat split; auto.
Qed.

Lemma zrem a d : zsub zse d -> zsub zse (rem_summary_unchanged a d).
Proof. intros F. unfold rem_summary_unchanged. destruct (_ || _); [exact F|apply zsub_filter, F]. Qed.

Lemma zarchives m a : zmap m -> zsub zse (get_archives_summary m a).
Proof.
  intros Z. apply zrem. unfold archives_summary_raw. apply fold_pres; [|apply zsub_nil]. intros acc w I F.
  destruct (zwalk m _ w Z I) as (_ & Hx & _). destruct (w_sect w) as [s|]; [|exact F]. destruct (w_arch w) as [x|]; [|exact F].
  cbn in Hx. destruct Hx as [-> _]. apply zsummary_add; [apply zmts|exact F].
Qed.
Lemma zobjects m a : zmap m -> zsub zse (get_object_files_summary m a).
Proof.
  intros Z. apply zrem. unfold object_files_summary_raw. apply fold_pres; [|apply zsub_nil]. intros acc w I F.
  destruct (zwalk m _ w Z I) as (_ & _ & Hx & _). destruct (w_sect w) as [s|]; [|exact F]. destruct (w_arch w) as [x|]; [|exact F].
  destruct (w_obj w) as [o|]; [|exact F]. cbn in Hx. destruct Hx as [-> _]. apply zsummary_add; [apply zmts|exact F].
Qed.
Lemma zsymbols m a d : zmap m -> get_symbols_summary m a = Ok d -> zsub zse d.
Proof.
  intros Z. unfold get_symbols_summary. set (details := match a_archive_details a with Some n => n | None => [] end).
  destruct (symbols_walk m details) eqn:E; [discriminate|]. intros H. injection H as <-. apply zrem.
  unfold symbols_summary_raw. apply fold_pres; [|apply zsub_nil]. intros acc w' I F. apply filter_In in I. destruct I as [I _].
  destruct (zwalk m _ w' Z I) as (_ & _ & _ & Hx). destruct (w_sect w') as [s|]; [|exact F]. destruct (w_arch w') as [x|]; [|exact F].
  destruct (w_obj w') as [o|]; [|exact F]. destruct (w_sym w') as [y|]; [|exact F]. cbn in Hx. unfold zsym in Hx. rewrite Hx. apply zsummary_add; [apply zmts|exact F].
Qed.
Lemma zsorted d a : zsub zse d -> zsub zse (get_summary_sorted d a).
Proof.
  intros F. unfold get_summary_sorted. eapply zsub_dmap; [|apply zsub_sort, F]. intros e [E1 E2]. split; [exact E1|]. cbn [se_types].
  eapply zsub_dmap; [|apply zsub_sort, E2]. intros T [T1 T2]. split; [exact T1|]. apply zsub_sort, T2.
Qed.
Lemma zfiltered d a : zsub zse d -> zsub zse (get_summary_filtered d a).
Proof. intros F. unfold get_summary_filtered, summary_filtered. destruct (a_filter a); [|exact F]. apply zsub_filter, F. Qed.

(** ** Tables *)

Definition zcolumn (c : column) : Prop := exists z, cell_text true (z, 0) (cl_info c).
Lemma mk_zcolumn a z d : given (a_diff a) = true -> d = 0 -> zcolumn (mk_column a z d).
Proof. intros G ->. exists z. cbn [mk_column cl_info]. rewrite G. apply num_cell_text. Qed.

Lemma zentries_table pf a first d t : given (a_diff a) = true -> zsub zse d -> entries_table a first d = TOk t -> zero_table pf t.
Proof.
  intros G F. unfold entries_table, get_table_sorted. destruct (sort_column _ _) as [z|]; [|discriminate].
  destruct (forallb _ _); [|discriminate]. intros E. injection E as <-. unfold zero_table. cbn [tb_rows]. apply Forall_map. apply Forall_forall.
  intros r I. cbn [tl]. eapply Permutation_in in I; [|apply Permutation_sym, py_sorted_perm]. apply List.in_map_iff in I. destruct I as ([n e] & <- & I).
  destruct (In_zsub _ _ _ _ F I) as [E1 E2]. cbn [entry_row tr_columns snd]. apply Forall_map.
  assert (Q : Forall zcolumn (entry_columns a e)).
  { unfold entry_columns. constructor; [apply mk_zcolumn; assumption|]. apply Forall_forall. intros c Ic. apply in_flat_map in Ic.
    destruct Ic as ([k T] & It & Ic). destruct (In_zsub _ _ _ _ E2 It) as [T1 T2]. cbn [snd] in Ic. destruct Ic as [<-|Ic]; [apply mk_zcolumn; assumption|].
    apply List.in_map_iff in Ic. destruct Ic as ([k' q] & <- & Iq). apply mk_zcolumn; [exact G|]. exact (In_zsub _ _ _ _ T2 Iq). }
  eapply Forall_impl; [|exact Q]. intros c [z' C]. right. left. exists z'. exact C.
Qed.

Lemma zsummary_table pf m a t : given (a_diff a) = true -> zmap m -> get_summary_table pf m a = TOk t -> zero_table pf t.
Proof.
  intros G Z. unfold get_summary_table. apply (ztrim m a) in Z. destruct (sort_column _ _) as [z|]; [|discriminate].
  destruct (py_nth _ _) as [k|]; [|discriminate]. intros E. injection E as <-. unfold zero_table. cbn [tb_rows]. apply Forall_forall. intros r I.
  apply in_flat_map in I. destruct I as ([n T] & It & I). destruct Z as [_ Z].
  pose proof (In_zsub _ _ _ _ (zsub_sort _ _ _ _ Z) It) as (Z1 & Z2 & Z3). cbn [fst snd] in I.
  assert (C : forall z, zero_cell pf (num_cell true z 0)) by (intros; right; left; eexists; apply num_cell_text).
  destruct I as [<-|I].
  - unfold type_row. rewrite G. cbn [tl u_used u_used_diff u_pct u_pct_diff u_remain u_remain_diff u_total u_total_diff type_usage]. rewrite Z1.
    constructor; [apply C|]. destruct (Z.eqb_spec (t_size T) 0) as [E0|N0]; cbn [negb].
    + do 3 (constructor; [left; reflexivity|]). constructor.
    + destruct Z2 as [Z2|Z2]; [|contradiction]. rewrite Z2. rewrite !Z.sub_0_r. constructor; [right; right; eexists; reflexivity|].
      constructor; [apply C|]. constructor; [apply C|]. constructor.
  - apply List.in_map_iff in I. destruct I as ([k' s] & <- & Is). pose proof (In_zsub _ _ _ _ (zsub_sort _ _ _ _ Z3) Is) as [Zs _].
    unfold sect_row. rewrite G. cbn [tl u_used u_used_diff u_pct u_pct_diff sect_usage snd]. rewrite Zs. constructor; [apply C|].
    destruct (Z.eqb_spec (t_size T) 0) as [E0|N0]; cbn [negb].
    + do 3 (constructor; [left; reflexivity|]). constructor.
    + destruct Z2 as [Z2|Z2]; [|contradiction]. rewrite Z2, !Z.sub_0_r. constructor; [right; right; eexists; reflexivity|].
      do 2 (constructor; [left; reflexivity|]). constructor.
Qed.

(** ** Tree *)

Lemma zlabel a d name z q : given (a_diff a) = true -> q = 0 -> zero_line (d, tree_label a name z q).
Proof. intros G ->. right. unfold tree_label. rewrite G. exists name, z, (num_cell true z 0). split; [apply num_cell_text|]. left. reflexivity. Qed.
Lemma ztree_node {C} (z : C -> Prop) a d name (sub : str * C -> list (nat * str)) n : given (a_diff a) = true ->
  (forall kv, z (snd kv) -> Forall zero_line (sub kv)) -> znode z n -> Forall zero_line (tree_node a d name sub n).
Proof.
  intros G H [D F]. constructor; [apply zlabel; assumption|]. apply Forall_forall. intros l I. apply in_flat_map in I. destruct I as (kv & I1 & I2).
  unfold zsub in F. rewrite Forall_forall in F. specialize (H kv (F _ I1)). rewrite Forall_forall in H. apply H, I2.
Qed.
Lemma ztree m a : given (a_diff a) = true -> zmap m -> Forall zero_line (tree_lines m a).
Proof.
  intros G Z. unfold tree_lines. apply (ztrim m a), (zsort _ a) in Z. destruct Z as [_ Z]. constructor; [left; reflexivity|].
  apply Forall_forall. intros l I. apply in_flat_map in I. destruct I as ([n T] & It & I). pose proof (In_zsub _ _ _ _ Z It) as (Z1 & Z2 & Z3).
  destruct I as [<-|I].
  - right. cbn [fst snd]. rewrite G, Z1. exists n, (t_used T), (num_cell true (t_used T) 0). split; [apply num_cell_text|].
    destruct (Z.eqb_spec (t_size T) 0) as [E0|N0]; [left; rewrite app_nil_r; reflexivity|]. right. destruct Z2 as [Z2|Z2]; [|contradiction].
    rewrite Z2. exists (t_size T), (num_cell true (t_size T) 0). split; [apply num_cell_text|reflexivity].
  - apply in_flat_map in I. destruct I as ([k s] & Is & I). pose proof (In_zsub _ _ _ _ Z3 Is) as Zs.
    assert (F : Forall zero_line (tree_sect a (k, s))); [|rewrite Forall_forall in F; apply F, I].
    refine (ztree_node zarch a _ _ _ _ G _ Zs). intros kx Zx. refine (ztree_node zobj a _ _ _ _ G _ Zx). intros ko Zo.
    refine (ztree_node zsym a _ _ _ _ G _ Zo). intros ky Zy. constructor; [|constructor]. apply zlabel; assumption.
Qed.
