(** * Proofs about tables: rows, columns and order *)
From Coq Require Import Ascii String List ZArith Bool Lia Sorting.Permutation Sorting.Sorted.
From Verif Require Import Base MemMap SpecTree SpecOps Filter PyStr SpecMap ProofPyStr Table SpecTable ProofOps ProofFilter ProofSummary ProofSummary2 ProofTable.
Import ListNotations.
Open Scope list_scope.
Open Scope Z_scope.

(** ** the shape of entries *)

Definition same_shape (m : memmap) (e : sentry) : Prop :=
  keys (se_types e) = keys (m_types m) /\
  forall t T U, dget t (se_types e) = Some T -> dget t (m_types m) = Some U ->
    keys (st_sections T) = keys (t_sections U) /\
    forall s q S, dget s (st_sections T) = Some q -> dget s (t_sections U) = Some S -> ss_abbrev q = n_abbrev S.

Lemma collect_shape m l n e : wf_map m -> dget n (collect (get_summary_memory_types m) l) = Some e -> same_shape m e.
Proof.
  intros W E. destruct (collect_ok (get_summary_memory_types m) l) as [_ H]. specialize (H n). rewrite E in H.
  destruct H as (_ & _ & _ & K & F). rewrite summary_mts in K, F by exact W. split; [now rewrite K, keys_dmap|].
  intros t T U ET EU. specialize (F t). rewrite dget_dmap, EU, ET in F. cbn [option_map] in F. destruct F as (KS & _ & _ & G). cbn [st_sections] in KS, G.
  split; [now rewrite KS, keys_dmap|]. intros s q S0 Eq ES. specialize (G s). rewrite dget_dmap, ES, Eq in G. cbn [option_map] in G.
  destruct G as (G & _). exact G.
Qed.

Lemma get_rem a d n e : wf_dict d -> dget n (rem_summary_unchanged a d) = Some e -> dget n d = Some e.
Proof.
  intros W. rewrite rem_unchanged_get by exact W. destruct (dget n d) as [x|]; [|discriminate]. now destruct (changed a (se_diff x)).
Qed.

Definition all_shaped (m : memmap) (d : dict str sentry) : Prop := wf_dict d /\ Forall (fun kv => same_shape m (snd kv)) d.

Lemma shaped_intro m d : wf_dict d -> (forall n e, dget n d = Some e -> same_shape m e) -> all_shaped m d.
Proof. intros W H. split; [exact W|]. apply Forall_forall. intros [n e] I. apply (H n). now apply In_dget. Qed.

Lemma shaped_filtered m d a : all_shaped m d -> all_shaped m (get_summary_filtered d a).
Proof.
  intros [W F]. unfold get_summary_filtered, summary_filtered. destruct (a_filter a); [|now split]. split; [now apply wf_filter|].
  rewrite Forall_forall in *. intros x I. apply filter_In in I as [I _]. auto.
Qed.

Lemma shaped_archives m a : wf_map m -> all_shaped m (get_archives_summary m a).
Proof.
  intro W. unfold get_archives_summary. apply shaped_intro.
  - apply wf_rem_unchanged. rewrite archives_collect. apply wf_collect.
  - intros n e E. apply get_rem in E; [|rewrite archives_collect; apply wf_collect]. rewrite archives_collect in E. eapply collect_shape; eauto.
Qed.

Lemma shaped_objects m a : wf_map m -> all_shaped m (get_object_files_summary m a).
Proof.
  intro W. unfold get_object_files_summary. apply shaped_intro.
  - apply wf_rem_unchanged. rewrite objects_collect. apply wf_collect.
  - intros n e E. apply get_rem in E; [|rewrite objects_collect; apply wf_collect]. rewrite objects_collect in E. eapply collect_shape; eauto.
Qed.

Lemma shaped_symbols m a s : wf_map m -> get_symbols_summary m a = Ok s -> all_shaped m s.
Proof.
  intro W. unfold get_symbols_summary. set (d := match a_archive_details a with Some n => n | None => [] end).
  destruct (symbols_walk m d) as [|w r]; [discriminate|]. intro H. injection H as <-. apply shaped_intro.
  - apply wf_rem_unchanged. rewrite symbols_collect. apply wf_collect.
  - intros n e E. apply get_rem in E; [|rewrite symbols_collect; apply wf_collect]. rewrite symbols_collect in E. eapply collect_shape; eauto.
Qed.

(** ** columns *)

Lemma keys_forall2 {V W} (d : dict str V) (d' : dict str W) : wf_dict d' -> keys d = keys d' ->
  Forall2 (fun x y => fst x = fst y /\ dget (fst y) d = Some (snd x) /\ dget (fst y) d' = Some (snd y)) d d'.
Proof.
  intros W0 E. assert (W1 : wf_dict d) by (unfold wf_dict; rewrite E; exact W0).
  assert (G : forall p q, (forall x, In x p -> In x d) -> (forall y, In y q -> In y d') -> map fst p = map fst q ->
    Forall2 (fun x y => fst x = fst y /\ dget (fst y) d = Some (snd x) /\ dget (fst y) d' = Some (snd y)) p q).
  { induction p as [|[k v] p IH]; intros [|[k' w] q] IP IQ EK; try discriminate; [constructor|]. cbn in EK. injection EK as -> EK.
    constructor.
    - cbn [fst snd]. split; [reflexivity|]. split; apply In_dget; auto; [apply IP|apply IQ]; now left.
    - apply IH; auto; intros; [apply IP|apply IQ]; now right. }
  apply G; auto.
Qed.

Lemma Forall2_map_eq {A B C} (f : A -> C) (g : B -> C) l l' : Forall2 (fun x y => f x = g y) l l' -> map f l = map g l'.
Proof. induction 1; cbn; congruence. Qed.
Lemma Forall2_flat_map_eq {A B C} (f : A -> list C) (g : B -> list C) l l' : Forall2 (fun x y => f x = g y) l l' -> flat_map f l = flat_map g l'.
Proof. induction 1; cbn; congruence. Qed.
Lemma Forall2_mono {A B} (P Q : A -> B -> Prop) l l' : (forall x y, P x y -> Q x y) -> Forall2 P l l' -> Forall2 Q l l'.
Proof. intros H. induction 1; constructor; auto. Qed.
Lemma flat_map_map' {A B C} (g : B -> C) (f : A -> list B) l : map g (flat_map f l) = flat_map (fun x => map g (f x)) l.
Proof. induction l; cbn; auto. now rewrite map_app, IHl. Qed.

Lemma columns_ok m a e : wf_map m -> same_shape m e ->
  entry_columns a e = map (fun c => mk_column a (fst (col_value e c)) (snd (col_value e c))) (cols m).
Proof.
  intros [WT WS] [K H]. unfold entry_columns, cols. cbn [map col_value fst snd]. f_equal. rewrite flat_map_map'.
  apply Forall2_flat_map_eq. eapply Forall2_mono; [|apply (keys_forall2 _ _ WT K)].
  intros [t T] [t' U] (E & ET & EU). cbn [fst snd] in *. subst t'. cbn [map col_value]. rewrite ET. cbn [fst snd]. f_equal.
  rewrite map_map. apply Forall2_map_eq. destruct (H t T U ET EU) as [KS _].
  assert (WU : wf_dict (t_sections U)).
  { rewrite Forall_forall in WS. apply dget_In in EU. specialize (WS _ EU). apply WS. }
  eapply Forall2_mono; [|apply (keys_forall2 _ _ WU KS)]. intros [s q] [s' S0] (E & ES & ES'). cbn [fst snd] in *. subst s'.
  cbn [col_value]. rewrite ET, ES. reflexivity.
Qed.

Lemma headers_ok m a first kv d : wf_map m -> same_shape m (snd kv) ->
  summary_headers a first (kv :: d) = first :: map (col_title m a) (cols m).
Proof.
  intros [WT WS] [K H]. unfold summary_headers, cols. cbn [map col_title]. f_equal. f_equal. rewrite flat_map_map'.
  apply Forall2_flat_map_eq. eapply Forall2_mono; [|apply (keys_forall2 _ _ WT K)].
  intros [t T] [t' U] (E & ET & EU). cbn [fst snd] in *. subst t'. cbn [map col_title]. f_equal.
  rewrite map_map. apply Forall2_map_eq. destruct (H t T U ET EU) as [KS AB].
  assert (WU : wf_dict (t_sections U)).
  { rewrite Forall_forall in WS. apply dget_In in EU. specialize (WS _ EU). apply WS. }
  eapply Forall2_mono; [|apply (keys_forall2 _ _ WU KS)]. intros [s q] [s' S0] (E & ES & ES'). cbn [fst snd] in *. subst s'.
  cbn [col_title]. unfold shown. destruct (a_abbrev a); [|reflexivity]. rewrite (AB s q S0 ES ES'). unfold look. rewrite EU. cbn. rewrite ES'. reflexivity.
Qed.

(** ** sorting *)

Lemma insert_map {A B} (f : A -> B) (key : B -> Z) r x l :
  insert_sorted key r (f x) (map f l) = map f (insert_sorted (fun y => key (f y)) r x l).
Proof.
  induction l as [|y l IH]; [reflexivity|]. cbn [map insert_sorted]. unfold before in *.
  destruct r; [destruct (key (f y) <=? key (f x))|destruct (key (f x) <=? key (f y))]; cbn [map]; congruence.
Qed.
Lemma py_sorted_map {A B} (f : A -> B) (key : B -> Z) r l : py_sorted key r (map f l) = map f (py_sorted (fun y => key (f y)) r l).
Proof. induction l as [|x l IH]; [reflexivity|]. cbn [map py_sorted]. now rewrite IH, insert_map. Qed.

Lemma header_index_spec headers name : forall i,
  match header_index headers name i with
  | Some z => exists j, z = i + Z.of_nat j /\ nth_error headers j = Some name /\ forall k, (k < j)%nat -> nth_error headers k <> Some name
  | None => ~ In name headers
  end.
Proof.
  induction headers as [|h headers IH]; intro i; cbn [header_index]; [auto|]. destruct (keqP h name) as [->|N].
  - exists 0%nat. split; [lia|]. split; [reflexivity|]. intros k L. lia.
  - specialize (IH (i + 1)). destruct (header_index headers name (i + 1)) as [z|].
    + destruct IH as (j & -> & A & B). exists (S j). split; [lia|]. split; [exact A|]. intros [|k] L; cbn; [congruence|]. apply B. lia.
    + intros [E|I]; contradiction.
Qed.

Lemma py_nth_spec {A} (l : list A) i : match py_nth l i with
  | Some x => exists j, nth_error l j = Some x /\ (0 <= i /\ Z.of_nat j = i \/ i < 0 /\ Z.of_nat j = Z.of_nat (length l) + i)
  | None => ~ (- Z.of_nat (length l) <= i < Z.of_nat (length l))
  end.
Proof.
  unfold py_nth. destruct (Z.leb_spec 0 i) as [P|P].
  - destruct (nth_error l (Z.to_nat i)) eqn:E.
    + exists (Z.to_nat i). split; [exact E|]. left. lia.
    + apply nth_error_None in E. lia.
  - destruct (Z.leb_spec 0 (Z.of_nat (length l) + i)) as [Q|Q].
    + destruct (nth_error l (Z.to_nat (Z.of_nat (length l) + i))) eqn:E.
      * exists (Z.to_nat (Z.of_nat (length l) + i)). split; [exact E|]. right. lia.
      * apply nth_error_None in E. lia.
    + lia.
Qed.

(** column number [z] (not 0) of a table with [titles] selects one of the [n] columns after the first *)
Lemma column_choice {A} (first : str) (titles : list str) (l : list A) arg : length titles = length l ->
  match sort_column (first :: titles) arg with
  | TOk z => match py_nth l (key_index z) with
             | Some x => exists i, names_column (first :: titles) arg (S i) /\ nth_error l i = Some x
             | None => (forall i, ~ names_column (first :: titles) arg i) /\ py_int10 arg = Some z /\ z <> 0 /\ ~ (- Z.of_nat (length l) <= z <= Z.of_nat (length l))
             end
  | TDie (NoColumn n) => n = arg /\ py_int10 arg = None /\ ~ In arg (first :: titles)
  | TDie DescriptionColumn => py_int10 arg = Some 0 \/ (py_int10 arg = None /\ arg = first)
  | TDie (OutOfRange _ _ _ _ _) => False
  end.
Proof.
  intro L. unfold sort_column. destruct (py_int10 arg) as [z|] eqn:P.
  - destruct (Z.eqb_spec z 0) as [->|NZ]; [now left|].
    pose proof (py_nth_spec l (key_index z)) as S. destruct (py_nth l (key_index z)) as [x|].
    + destruct S as (j & E & S). exists j. split; [|exact E]. left. exists z. split; [exact P|].
      assert (J : (j < length l)%nat) by (apply nth_error_Some; congruence). unfold key_index in S. cbn [length].
      destruct (Z.ltb_spec 0 z); destruct S as [[S1 S2]|[S1 S2]]; split; try lia.
    + split; [|split; [reflexivity|split; [exact NZ|]]].
      * intros i [(z' & E & H & B)|(E & _)]; [|congruence]. rewrite P in E. injection E as <-. apply S. unfold key_index. cbn [length] in *.
        destruct (Z.ltb_spec 0 z); lia.
      * intro B. apply S. unfold key_index. destruct (Z.ltb_spec 0 z); lia.
  - pose proof (header_index_spec (first :: titles) arg 0) as H. destruct (header_index (first :: titles) arg 0) as [z|].
    + destruct H as (j & -> & E & B). cbn [Z.add]. destruct (Z.eqb_spec (Z.of_nat j) 0) as [Z0|NZ].
      * right. destruct j; [|lia]. cbn in E. injection E as ->. auto.
      * destruct j as [|j]; [lia|]. cbn [nth_error] in E. pose proof (py_nth_spec l (key_index (Z.of_nat (S j)))) as S0.
        assert (J : (j < length l)%nat) by (rewrite <- L; apply nth_error_Some; congruence).
        unfold key_index in *. destruct (Z.ltb_spec 0 (Z.of_nat (S j))); [|lia].
        destruct (py_nth l (Z.of_nat (S j) - 1)) as [x|].
        -- destruct S0 as (i & EI & [[_ I]|[? _]]); [|lia]. assert (i = j) by lia. subst i. exists j. split; [|exact EI].
           right. split; [exact P|]. split; [lia|]. split; [exact E|exact B].
        -- exfalso. apply S0. lia.
    + auto.
Qed.

(** ** tables of entries *)

Lemma sorted_weaken {A} (R R' : A -> A -> Prop) l : (forall x y, R x y -> R' x y) -> StronglySorted R l -> StronglySorted R' l.
Proof. intros H. induction 1 as [|x l S IH F]; constructor; auto. rewrite Forall_forall in *. auto. Qed.

Definition row_of (m : memmap) (a : args) (kv : str * sentry) : list str :=
  (if a_abbrev a then se_abbrev (snd kv) else fst kv) ::
  map (fun c => num_cell (given (a_diff a)) (fst (col_value (snd kv) c)) (snd (col_value (snd kv) c))) (cols m).

Lemma entries_table_ok m a first kv0 d0 : wf_map m -> let d := kv0 :: d0 in all_shaped m d ->
  let titles := map (col_title m a) (cols m) in
  let n := Z.of_nat (length (cols m)) in
  match entries_table a first d with
  | TOk tb =>
      tb_headers tb = first :: titles /\
      exists i c rows, names_column (first :: titles) (a_sort a) (S i) /\ nth_error (cols m) i = Some c /\
        tb_rows tb = map (row_of m a) rows /\ Permutation d rows /\
        StronglySorted (fun x y => in_order (a_sort_reverse a) (pick (a_sort_diff a) (col_value (snd x) c)) (pick (a_sort_diff a) (col_value (snd y) c))) rows
  | TDie (NoColumn s) => s = a_sort a /\ py_int10 (a_sort a) = None /\ ~ In (a_sort a) (first :: titles)
  | TDie DescriptionColumn => py_int10 (a_sort a) = Some 0 \/ (py_int10 (a_sort a) = None /\ a_sort a = first)
  | TDie (OutOfRange z lo hi nlo nhi) =>
      py_int10 (a_sort a) = Some z /\ ~ (- n <= z <= n) /\ lo = 1 /\ hi = n - 1 /\ nlo = - n /\ nhi = -1
  end.
Proof.
  intros W d [WD SH] titles n. unfold entries_table.
  assert (HD : summary_headers a first d = first :: titles).
  { unfold d, titles. apply headers_ok; [exact W|]. now inversion SH. }
  rewrite HD. unfold get_table_sorted.
  set (colsf := fun (e : sentry) => map (fun c => mk_column a (fst (col_value e c)) (snd (col_value e c))) (cols m)).
  assert (CO : forall kv, In kv d -> entry_row a kv = TRow (if a_abbrev a then se_abbrev (snd kv) else fst kv) (colsf (snd kv))).
  { intros kv I. unfold entry_row, shown. f_equal. apply columns_ok; [exact W|]. rewrite Forall_forall in SH. auto. }
  assert (RK : forall z kv, In kv d -> row_key a z (entry_row a kv) = option_map (fun c => pick (a_sort_diff a) (col_value (snd kv) c)) (py_nth (cols m) (key_index z))).
  { intros z kv I. unfold row_key. rewrite (CO kv I). cbn [tr_columns]. unfold colsf, py_nth. rewrite map_length, !nth_error_map.
    destruct (0 <=? key_index z); [|destruct (0 <=? _); [|reflexivity]].
    - destruct (nth_error (cols m) (Z.to_nat (key_index z))) as [c|]; cbn; [|reflexivity]. unfold pick. now destruct (a_sort_diff a).
    - destruct (nth_error (cols m) (Z.to_nat (Z.of_nat (length (cols m)) + key_index z))) as [c|]; cbn; [|reflexivity]. unfold pick. now destruct (a_sort_diff a). }
  pose proof (column_choice first titles (cols m) (a_sort a)) as CC. specialize (CC ltac:(unfold titles; apply map_length)).
  destruct (sort_column (first :: titles) (a_sort a)) as [z|e]; [|destruct e; [exact CC|exact CC|contradiction]].
  destruct (py_nth (cols m) (key_index z)) as [c|] eqn:PN.
  - destruct CC as (i & NC & NE).
    assert (FB : forallb (fun r => match row_key a z r with Some _ => true | None => false end) (map (entry_row a) d) = true).
    { apply forallb_forall. intros r I. apply in_map_iff in I as (kv & <- & I). now rewrite (RK z kv I), PN. }
    rewrite FB. cbn [tb_headers tb_rows]. split; [reflexivity|].
    rewrite py_sorted_map, map_map.
    set (K := fun y => match row_key a z (entry_row a y) with Some k => k | None => 0 end).
    exists i, c, (py_sorted K (a_sort_reverse a) d). split; [exact NC|]. split; [exact NE|].
    assert (IN : forall x, In x (py_sorted K (a_sort_reverse a) d) -> In x d).
    { intros x I. apply py_sorted_In in I. exact I. }
    split; [|split].
    + apply map_ext_in. intros kv I. rewrite (CO kv (IN kv I)). cbn [tr_name tr_columns]. unfold row_of, colsf. rewrite map_map. reflexivity.
    + apply py_sorted_perm.
    + pose proof (py_sorted_sorted K (a_sort_reverse a) d) as S.
      assert (KV : forall x, In x d -> K x = pick (a_sort_diff a) (col_value (snd x) c)).
      { intros x I. unfold K. now rewrite (RK z x I), PN. }
      revert S IN. generalize (py_sorted K (a_sort_reverse a) d). intros l S. induction S as [|x l S IH F]; intro IN; constructor.
      * apply IH. intros; apply IN. now right.
      * rewrite Forall_forall in *. intros y I. specialize (F y I). unfold ordered in F. unfold in_order.
        rewrite <- (KV x), <- (KV y) by (apply IN; cbn; auto). exact F.
  - destruct CC as (_ & P & NZ & NB).
    assert (FB : forallb (fun r => match row_key a z r with Some _ => true | None => false end) (map (entry_row a) d) = false).
    { unfold d. cbn [map forallb]. rewrite (RK z kv0) by (now left). rewrite PN. reflexivity. }
    rewrite FB. rewrite map_map.
    assert (LC : length (last (map (fun x => tr_columns (entry_row a x)) d) []) = length (cols m)).
    { assert (G : forall l : dict str sentry, l <> [] -> (forall kv, In kv l -> In kv d) -> length (last (map (fun x => tr_columns (entry_row a x)) l) []) = length (cols m)).
      { induction l as [|x l IH]; intros NE IN; [contradiction|]. destruct l as [|y l].
        - cbn [map last]. rewrite (CO x) by (apply IN; now left). cbn [tr_columns]. unfold colsf. apply map_length.
        - cbn [map last]. cbn [map last] in IH. apply IH; [discriminate|]. intros; apply IN. now right. }
      apply G; [discriminate|auto]. }
    rewrite LC. fold n. refine (conj P (conj NB _)). auto.
Qed.
