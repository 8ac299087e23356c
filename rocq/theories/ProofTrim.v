From Coq Require Import Ascii String List ZArith Lia Bool Sorted Permutation.
From Verif Require Import Base MemMap SpecTree SpecOps ProofDiff ProofOps.
Import ListNotations.
Open Scope list_scope.
Open Scope Z_scope.

(** ** subsequences *)

Lemma subseq_refl {A} (l : list A) : subseq l l.
Proof. induction l; constructor; assumption. Qed.

Lemma subseq_app {A} (a a' b b' : list A) : subseq a a' -> subseq b b' -> subseq (a ++ b) (a' ++ b').
Proof.
  intros Ha Hb. induction Ha; simpl.
  - induction l; simpl; [assumption|]. constructor. assumption.
  - constructor. assumption.
  - constructor. assumption.
Qed.

Lemma subseq_map {A B} (f : A -> B) l l' : subseq l l' -> subseq (map f l) (map f l').
Proof. induction 1; simpl; constructor; assumption. Qed.

Lemma subseq_filter_flat {A B} (p : A -> bool) (f g : A -> list B) l :
  (forall a, In a l -> subseq (f a) (g a)) -> subseq (flat_map f (filter p l)) (flat_map g l).
Proof.
  induction l as [|a l IH]; simpl; intros H; [constructor|].
  destruct (p a); simpl.
  - apply subseq_app; [apply H; auto|]. apply IH. auto.
  - change (subseq ([] ++ flat_map f (filter p l)) (g a ++ flat_map g l)).
    apply subseq_app; [constructor|]. apply IH. auto.
Qed.

(** ** trim *)

Lemma changed_counts a d : changed a d = true <-> counts a d.
Proof.
  unfold changed, counts. destruct (given (a_diff a)), (a_show_unchanged a); simpl;
    try (split; [intros _ [? ?]; discriminate|reflexivity]).
  rewrite negb_true_iff, Z.eqb_neq. tauto.
Qed.

Lemma look_dict_dmap_filter {C} (lookC : list str -> C -> option entry) (f : C -> C) (keep : C -> bool) k p d :
  wf_dict d ->
  look_dict lookC (k :: p) (dmap f (filter (fun kv => keep (snd kv)) d)) =
  match dget k d with Some c => if keep c then lookC p (f c) else None | None => None end.
Proof.
  intros W. unfold look_dict. rewrite dget_dmap.
  rewrite (dget_filter_key (fun _ v => keep v) k d W).
  destruct (dget k d) as [c|]; simpl; [|reflexivity]. destruct (keep c); reflexivity.
Qed.

Lemma look_dict_filter {C} (lookC : list str -> C -> option entry) (keep : C -> bool) k p d :
  wf_dict d ->
  look_dict lookC (k :: p) (filter (fun kv => keep (snd kv)) d) =
  match dget k d with Some c => if keep c then lookC p c else None | None => None end.
Proof.
  intros W. unfold look_dict.
  rewrite (dget_filter_key (fun _ v => keep v) k d W).
  destruct (dget k d) as [c|]; simpl; [|reflexivity]. destruct (keep c); reflexivity.
Qed.

(** what the property demands of the ancestors of a kept entry *)
Definition ancestors_ok (m : memmap) (a : args) (t : str) (p : list str) : Prop :=
  forall n x, (1 <= n <= length p)%nat -> look m t (firstn n p) = Some x ->
    counts a (e_diff x) /\ (n = 2%nat -> archive_wanted a x).

Definition ok1 (a : args) (x : option entry) : Prop :=
  match x with Some x => counts a (e_diff x) | None => True end.
Definition ok2 (a : args) (x : option entry) : Prop :=
  match x with Some x => counts a (e_diff x) /\ archive_wanted a x | None => True end.

Lemma ancestors_1 m a t s : ancestors_ok m a t [s] <-> ok1 a (look m t [s]).
Proof.
  unfold ancestors_ok, ok1. split.
  - intros H. destruct (look m t [s]) eqn:E; [|exact I]. apply (H 1%nat); [simpl; lia|exact E].
  - intros H n x L E. simpl in L. assert (n = 1%nat) by lia. subst. simpl in E. rewrite E in H.
    split; [assumption|discriminate].
Qed.

Lemma firstn_lt_app {A} n (p q : list A) : (n <= length p)%nat -> firstn n (p ++ q) = firstn n p.
Proof. intros L. rewrite firstn_app. replace (n - length p)%nat with 0%nat by lia. simpl. apply app_nil_r. Qed.

Lemma ancestors_snoc m a t p k : length p <> 1%nat ->
  ancestors_ok m a t (p ++ [k]) <-> ancestors_ok m a t p /\ ok1 a (look m t (p ++ [k])).
Proof.
  intros L1. unfold ancestors_ok, ok1. rewrite app_length. simpl. split.
  - intros H. split.
    + intros n x L E. apply H; [lia|]. rewrite firstn_lt_app by lia. exact E.
    + destruct (look m t (p ++ [k])) eqn:E; [|exact I].
      apply (H (length p + 1)%nat); [lia|]. rewrite firstn_all2; [exact E|]. rewrite app_length. simpl. lia.
  - intros [H1 H2] n x L E. destruct (Nat.eq_dec n (length p + 1)) as [->|N].
    + rewrite firstn_all2 in E by (rewrite app_length; simpl; lia). rewrite E in H2.
      split; [assumption|]. intros E2. exfalso. lia.
    + rewrite firstn_lt_app in E by lia. apply H1; [lia|assumption].
Qed.

Lemma ancestors_2 m a t s x : ancestors_ok m a t [s; x] <-> ok1 a (look m t [s]) /\ ok2 a (look m t [s; x]).
Proof.
  unfold ancestors_ok, ok1, ok2. split.
  - intros H. split.
    + destruct (look m t [s]) eqn:E; [|exact I]. apply (H 1%nat); [simpl; lia|exact E].
    + destruct (look m t [s; x]) eqn:E; [|exact I].
      destruct (H 2%nat e) as [H1 H2]; [simpl; lia|exact E|]. split; [assumption|apply H2; reflexivity].
  - intros [H1 H2] n e L E. simpl in L. assert (n = 1 \/ n = 2)%nat as [-> | ->] by lia; simpl in E.
    + rewrite E in H1. split; [assumption|discriminate].
    + rewrite E in H2. tauto.
Qed.
Lemma ancestors_3 m a t s x o : ancestors_ok m a t [s; x; o] <->
  (ok1 a (look m t [s]) /\ ok2 a (look m t [s; x])) /\ ok1 a (look m t [s; x; o]).
Proof. rewrite <- ancestors_2. apply (ancestors_snoc m a t [s; x] o). discriminate. Qed.
Lemma ancestors_4 m a t s x o y : ancestors_ok m a t [s; x; o; y] <->
  ((ok1 a (look m t [s]) /\ ok2 a (look m t [s; x])) /\ ok1 a (look m t [s; x; o])) /\ ok1 a (look m t [s; x; o; y]).
Proof. rewrite <- ancestors_3. apply (ancestors_snoc m a t [s; x; o] y). discriminate. Qed.

Lemma wf_sub_get {C} (wfC : C -> Prop) k c (d : dict str C) : wf_sub wfC d -> dget k d = Some c -> wfC c.
Proof. intros [_ F] E. apply dget_In in E. rewrite Forall_forall in F. apply (F _ E). Qed.

Lemma look_long m t p : (4 < length p)%nat -> look m t p = None.
Proof.
  intros L. unfold look. destruct (dget t (m_types m)) as [T|]; [|reflexivity].
  destruct p as [|s [|x [|o [|y [|z p]]]]]; simpl in L; try lia.
  unfold look_dict at 1. destruct (dget s (t_sections T)) as [S|]; [|reflexivity].
  unfold look_sect, look_node at 1, look_dict at 1. destruct (dget x (n_sub S)) as [X|]; [|reflexivity].
  unfold look_arch, look_node at 1, look_dict at 1. destruct (dget o (n_sub X)) as [O|]; [|reflexivity].
  unfold look_obj, look_node at 1, look_dict at 1. destruct (dget y (n_sub O)) as [Y|]; reflexivity.
Qed.

Definition keep_arch (a : args) (x : arch) : bool :=
  match trim_depth_of a with
  | TArchiveDetails =>
    (match a_archive_details a with Some n => n_abbrev x =?= n | None => false end) && changed a (n_diff x)
  | _ => changed a (n_diff x)
  end.

Lemma keep_arch_ok a x : keep_arch a x = true <-> ok2 a (Some (entry_of_node x)).
Proof.
  unfold keep_arch, trim_depth_of, ok2, archive_wanted. rewrite <- changed_counts. simpl.
  destruct (given (a_archive_details a)) eqn:G.
  - unfold given in G. destruct (a_archive_details a) as [[|c n]|]; try discriminate G.
    rewrite andb_true_iff, keq_eq. split; [intros [-> ?]; auto|]. intros [H1 H2].
    specialize (H2 eq_refl). injection H2 as ->. auto.
  - destruct (a_archives a), (a_files a); simpl; intuition congruence.
Qed.

Lemma trim_levels a : (match trim_depth_of a with TArchives => 2 | TObjects => 3 | _ => 4 end = shown_levels a)%nat.
Proof.
  unfold trim_depth_of, shown_levels. destruct (given _), (a_archives a), (a_files a); reflexivity.
Qed.

Ltac lhs H := match goal with |- ?l = _ <-> _ => match type of H with _ = ?r => replace l with r by (symmetry; exact H) end end.
Ltac both_none := split; [discriminate | intros (? & _); discriminate].

Lemma trim_look m a t p e :
  wf_map m ->
  look (trim m a) t p = Some e <->
  look m t p = Some e /\
  (exists T, dget t (m_types m) = Some T /\ counts a (t_used_diff T)) /\
  (length p <= shown_levels a)%nat /\
  ancestors_ok m a t p.
Proof.
  intros W. destruct (Nat.lt_ge_cases 4 (length p)) as [L|L].
  { rewrite !look_long by assumption. both_none. }
  assert (TT : dget t (m_types (trim m a)) =
    match dget t (m_types m) with Some T => if changed a (t_used_diff T) then Some (trim_type a T) else None | None => None end).
  { unfold trim. cbn [m_types with_types]. rewrite dget_dmap.
    rewrite (dget_filter_key (fun _ v => changed a (t_used_diff v)) t (m_types m)) by apply W.
    destruct (dget t (m_types m)) as [T|]; [|reflexivity]. destruct (changed a (t_used_diff T)); reflexivity. }
  unfold look at 1. rewrite TT.
  destruct (dget t (m_types m)) as [T|] eqn:ET.
  2: { unfold look at 1. rewrite ET. both_none. }
  assert (WT : wf_type T) by (eapply wf_map_type; eauto).
  destruct (changed a (t_used_diff T)) eqn:CT.
  2: { split; [discriminate|]. intros (_ & (T' & E & C) & _). injection E as <-.
       apply changed_counts in C. congruence. }
  assert (CT' : exists T0, Some T = Some T0 /\ counts a (t_used_diff T0)).
  { exists T. split; [reflexivity|]. apply changed_counts. assumption. }
  destruct p as [|s p]; [unfold look; rewrite ET; both_none|].
  change (t_sections (trim_type a T)) with
    (dmap (trim_sect a) (filter (fun kv => changed a (n_diff (snd kv))) (t_sections T))).
  pose proof (look_dict_dmap_filter look_sect (trim_sect a) (fun c => changed a (n_diff c)) s p (t_sections T) (proj1 WT)) as HS.
  cbv beta in HS. lhs HS. clear HS TT.
  assert (Ls : forall q, look m t (s :: q) = match dget s (t_sections T) with Some c => look_sect q c | None => None end)
    by (intros q; unfold look; rewrite ET; reflexivity).
  destruct (dget s (t_sections T)) as [S|] eqn:ES.
  2: { rewrite Ls. both_none. }
  assert (WS : wf_sect S) by (eapply wf_sub_get; eauto).
  assert (Ls0 : look m t [s] = Some (entry_of_node S)) by (rewrite Ls; reflexivity).
  destruct (changed a (n_diff S)) eqn:CS.
  2: { split; [discriminate|]. intros (_ & _ & _ & A). exfalso.
       destruct (A 1%nat (entry_of_node S)) as [C _]; [simpl; lia|simpl; exact Ls0|].
       apply changed_counts in C. simpl in C. congruence. }
  assert (OS : ok1 a (look m t [s])) by (rewrite Ls0; apply changed_counts; assumption).
  pose proof (trim_levels a) as TL.
  destruct p as [|x p].
  { rewrite ancestors_1, Ls0. simpl. split.
    - intros E. repeat split; auto. + rewrite <- TL. destruct (trim_depth_of a); lia. + simpl in OS. rewrite Ls0 in OS. exact OS.
    - intros (E & _). exact E. }
  change (look_sect (x :: p) (trim_sect a S)) with
    (look_dict look_arch (x :: p) (dmap (trim_arch a) (filter (fun kv => keep_arch a (snd kv)) (n_sub S)))).
  pose proof (look_dict_dmap_filter look_arch (trim_arch a) (keep_arch a) x p (n_sub S) (proj1 WS)) as HS.
  cbv beta in HS. lhs HS. clear HS.
  assert (Lx : forall q, look m t (s :: x :: q) = match dget x (n_sub S) with Some c => look_arch q c | None => None end)
    by (intros q; rewrite Ls; reflexivity).
  destruct (dget x (n_sub S)) as [X|] eqn:EX.
  2: { rewrite Lx. both_none. }
  assert (WX : wf_arch X) by (eapply wf_sub_get; eauto).
  assert (Lx0 : look m t [s; x] = Some (entry_of_node X)) by (rewrite Lx; reflexivity).
  destruct (keep_arch a X) eqn:CX.
  2: { split; [discriminate|]. intros (_ & _ & _ & A). exfalso.
       destruct (A 2%nat (entry_of_node X)) as [C1 C2]; [simpl; lia|simpl; exact Lx0|].
       assert (K : keep_arch a X = true) by (apply keep_arch_ok; split; [exact C1|apply C2; reflexivity]). congruence. }
  assert (OX : ok2 a (look m t [s; x])) by (rewrite Lx0; apply keep_arch_ok; assumption).
  destruct p as [|o p].
  { rewrite ancestors_2, Lx0. simpl. split.
    - intros E. repeat split; auto; rewrite ?Lx0 in OX; try apply OX. rewrite <- TL. destruct (trim_depth_of a); lia.
    - intros (E & _). exact E. }
  assert (Lo : forall q, look m t (s :: x :: o :: q) = match dget o (n_sub X) with Some c => look_obj q c | None => None end)
    by (intros q; rewrite Lx; reflexivity).
  destruct (trim_depth_of a) eqn:TD.
  2: { replace (look_arch (o :: p) (trim_arch a X)) with (@None entry) by (unfold trim_arch; rewrite TD; reflexivity).
       split; [discriminate|]. intros (_ & _ & H & _). rewrite <- TL in H. simpl in H. lia. }
  all: replace (look_arch (o :: p) (trim_arch a X)) with
    (look_dict look_obj (o :: p) (dmap (trim_obj a) (filter (fun kv => changed a (n_diff (snd kv))) (n_sub X))))
    by (unfold trim_arch; rewrite TD; reflexivity).
  all: pose proof (look_dict_dmap_filter look_obj (trim_obj a) (fun c => changed a (n_diff c)) o p (n_sub X) (proj1 WX)) as HS.
  all: cbv beta in HS; lhs HS; clear HS.
  all: destruct (dget o (n_sub X)) as [O|] eqn:EO; [|rewrite Lo; both_none].
  all: assert (WO : wf_obj O) by (eapply wf_sub_get; eauto).
  all: assert (Lo0 : look m t [s; x; o] = Some (entry_of_node O)) by (rewrite Lo; reflexivity).
  all: destruct (changed a (n_diff O)) eqn:CO;
    [|split; [discriminate|]; intros (_ & _ & _ & A); exfalso;
      destruct (A 3%nat (entry_of_node O)) as [C _]; [simpl; lia|simpl; exact Lo0|];
      apply changed_counts in C; simpl in C; congruence].
  all: assert (OO : ok1 a (look m t [s; x; o])) by (rewrite Lo0; apply changed_counts; assumption).
  all: destruct p as [|y p];
    [rewrite ancestors_3, Lo0; simpl; split;
      [intros E; repeat split; auto; try lia; rewrite ?Lx0 in OX; try (apply OX); rewrite ?Lo0 in OO; try (exact OO);
       change (look_sect (o :: p) S) with (look_sect (o :: p) S)
      |intros (E & _); exact E]|].
  all: assert (Ly : forall q, look m t (s :: x :: o :: y :: q) = match dget y (n_sub O) with Some c => look_sym q c | None => None end)
    by (intros q; rewrite Lo; reflexivity).
  all: destruct p as [|z p]; [|simpl in L; lia].
  2: { replace (look_obj [y] (trim_obj a O)) with (@None entry) by (unfold trim_obj; rewrite TD; reflexivity).
       split; [discriminate|]. intros (_ & _ & H & _). rewrite <- TL in H. simpl in H. lia. }
  all: replace (look_obj [y] (trim_obj a O)) with
    (look_dict look_sym [y] (filter (fun kv => changed a (y_diff (snd kv))) (n_sub O)))
    by (unfold trim_obj; rewrite TD; reflexivity).
  all: pose proof (look_dict_filter look_sym (fun c => changed a (y_diff c)) y [] (n_sub O) (proj1 WO)) as HS.
  all: cbv beta in HS; lhs HS; clear HS.
  all: rewrite ancestors_4, Ly.
  all: destruct (dget y (n_sub O)) as [Y|] eqn:EY; [|both_none].
  all: destruct (changed a (y_diff Y)) eqn:CY;
    [split; [intros E; repeat split; auto; try (simpl; lia); try exact OX; try (rewrite Lo0 in OO; exact OO);
             simpl in E |- *; apply changed_counts; exact CY
            |intros (E & _); exact E]
    |split; [discriminate|]; intros (_ & _ & _ & (_ & C)); simpl in C; apply changed_counts in C; simpl in C; congruence].
Qed.

(** order: the entries left are a subsequence of the entries *)
Lemma subseq_dict {C} (ents : C -> list (list str * entry)) (f : C -> C) (keep : str * C -> bool) d :
  (forall c, subseq (ents (f c)) (ents c)) ->
  subseq (ents_dict ents (dmap f (filter keep d))) (ents_dict ents d).
Proof.
  intros H. unfold ents_dict, dmap. rewrite flat_map_map. cbn [fst snd].
  apply (subseq_filter_flat keep
    (fun kc => map (fun pe => (fst kc :: fst pe, snd pe)) (ents (f (snd kc))))).
  intros kc _. apply subseq_map, H.
Qed.

Lemma dmap_id {V} (d : dict str V) : dmap (fun v => v) d = d.
Proof. unfold dmap. induction d as [|[k v] d IH]; simpl; [reflexivity|]. f_equal. assumption. Qed.

Lemma trim_order m a : subseq (all_ents (trim m a)) (all_ents m).
Proof.
  unfold all_ents, trim. cbn [m_types with_types]. unfold dmap. rewrite flat_map_map. cbn [fst snd].
  apply (subseq_filter_flat (fun kv => changed a (t_used_diff (snd kv)))
    (fun tT => map (fun pe => (fst tT, pe)) (ents_type (trim_type a (snd tT))))).
  intros [t T] _. apply subseq_map. apply (subseq_dict ents_sect (trim_sect a)).
  intros s. unfold ents_sect, ents_node. cbn [n_sub trim_sect]. apply subseq_take.
  apply (subseq_dict ents_arch (trim_arch a)).
  intros x. unfold ents_arch, ents_node. cbn [n_sub trim_arch]. apply subseq_take.
  destruct (trim_depth_of a) eqn:TD; try (constructor; fail);
  apply (subseq_dict ents_obj (trim_obj a));
  (intros o; unfold ents_obj, ents_node; cbn [n_sub trim_obj]; rewrite TD; apply subseq_take; try (constructor; fail);
   rewrite <- (dmap_id (filter _ (n_sub o))); apply (subseq_dict ents_sym (fun y => y)); intros y; apply subseq_refl).
Qed.

(** ** sort *)

Lemma sorted_from_sort {V} (key : V -> Z) r (f : V -> V) (R : V -> V -> Prop) d :
  (forall v, R v (f v)) ->
  sorted_from key r R d (dmap f (sort_dict_by_key key r d)).
Proof.
  intros H. exists (sort_dict_by_key key r d). unfold sort_dict_by_key.
  split; [apply py_sorted_perm|]. split; [apply (py_sorted_sorted (fun kv : str * V => key (snd kv)))|].
  split; [intros k; apply (py_sorted_stable (fun kv : str * V => key (snd kv)))|].
  unfold dmap. induction (py_sorted _ r d) as [|[k v] l IH]; simpl; constructor; [split; [reflexivity|apply H]|assumption].
Qed.

Lemma sorted_from_sort_id {V} (key : V -> Z) r d :
  sorted_from key r (@eq V) d (sort_dict_by_key key r d).
Proof.
  rewrite <- (dmap_id (sort_dict_by_key key r d)). apply (sorted_from_sort key r (fun v => v)). reflexivity.
Qed.

Lemma sort_obj_ok a o : sorted_obj a o (sort_obj a o).
Proof. repeat split; try reflexivity. apply (sorted_from_sort_id (sym_key a)). Qed.
Lemma sort_arch_ok a o : sorted_arch a o (sort_arch a o).
Proof. repeat split; try reflexivity. apply (sorted_from_sort (node_key a)). apply sort_obj_ok. Qed.
Lemma sort_sect_ok a o : sorted_sect a o (sort_sect a o).
Proof. repeat split; try reflexivity. apply (sorted_from_sort (node_key a)). apply sort_arch_ok. Qed.
Lemma sort_type_ok a o : sorted_type a o (sort_type a o).
Proof. repeat split; try reflexivity. apply (sorted_from_sort (node_key a)). apply sort_sect_ok. Qed.
Lemma sort_ok m a : sorted_map a m (sort m a).
Proof. split; [reflexivity|]. apply (sorted_from_sort (type_key a)). apply sort_type_ok. Qed.

Lemma dget_sort {V W} (key : V -> Z) r (f : V -> W) k (d : dict str V) :
  wf_dict d -> dget k (dmap f (sort_dict_by_key key r d)) = option_map f (dget k d).
Proof.
  intros W0. rewrite dget_dmap. unfold sort_dict_by_key.
  rewrite <- (dget_perm d); [reflexivity|assumption|apply py_sorted_perm].
Qed.

Lemma look_sort_node {C} (lookC : list str -> C -> option entry) (key : C -> Z) r (f : C -> C) (wfC : C -> Prop) p n :
  (forall c p, wfC c -> lookC p (f c) = lookC p c) -> wf_node wfC n ->
  look_node lookC p (Node (n_abbrev n) (n_size n) (n_diff n) (dmap f (sort_dict_by_key key r (n_sub n)))) = look_node lookC p n.
Proof.
  intros H W. destruct p as [|k p]; [reflexivity|]. simpl. rewrite dget_sort by apply W.
  destruct (dget k (n_sub n)) as [c|] eqn:E; simpl; [|reflexivity]. apply H. eapply wf_sub_get; eauto.
Qed.

Lemma sort_look m a t p : wf_map m -> look (sort m a) t p = look m t p.
Proof.
  intros W. unfold look, sort. cbn [m_types with_types]. rewrite dget_sort by apply W.
  destruct (dget t (m_types m)) as [T|] eqn:E; [|reflexivity]. simpl.
  assert (WT : wf_type T) by (eapply wf_map_type; eauto).
  destruct p as [|s p]; [reflexivity|]. cbn [look_dict sort_type t_sections].
  rewrite dget_sort by apply WT. destruct (dget s (t_sections T)) as [S|] eqn:ES; [|reflexivity]. simpl.
  apply (look_sort_node look_arch (node_key a) (a_sort_reverse a) (sort_arch a) wf_arch); [|eapply wf_sub_get; eauto].
  intros X q WX. apply (look_sort_node look_obj (node_key a) (a_sort_reverse a) (sort_obj a) wf_obj); [|assumption].
  intros O q' WO.
  pose proof (look_sort_node look_sym (sym_key a) (a_sort_reverse a) (fun y => y) wf_sym q' O) as H.
  rewrite dmap_id in H. apply H; [reflexivity|assumption].
Qed.

Lemma summary_sort_ok entries a :
  sorted_from (fun e => the_size (a_sort_diff a) (se_size e) (se_diff e)) (a_sort_reverse a) (sorted_sentry a)
    entries (get_summary_sorted entries a).
Proof.
  apply (sorted_from_sort (fun e => if a_sort_diff a then se_diff e else se_size e)).
  intros e. repeat split.
  apply (sorted_from_sort (fun e => if a_sort_diff a then st_diff e else st_size e)).
  intros t. repeat split.
  apply (sorted_from_sort_id (fun e => if a_sort_diff a then ss_diff e else ss_size e)).
Qed.
