(** * Proofs about the CSV, JSON and tree reports and the dependency table *)
From Coq Require Import Ascii String List ZArith Bool Lia Sorting.Permutation Sorting.Sorted.
From Verif Require Import Base PyStr SpecMap ProofPyStr MemMap SpecTree SpecOps Filter Deps Table Formats SpecTable ProofDiff ProofDiff2 ProofOps ProofTable ProofTable2 ProofTable3.
Import ListNotations.
Open Scope list_scope.
Open Scope Z_scope.

(** ** CSV *)

Lemma csv_quoted s : forall acc row rest, ~ In """"%char s ->
  csv_read (InQuotes acc) row (s ++ """"%char :: rest) = csv_read (QuoteInQuotes (acc ++ s)) row rest.
Proof.
  induction s as [|c s IH]; intros acc row rest N.
  - cbn [app csv_read]. now rewrite app_nil_r.
  - cbn [app csv_read]. destruct (Ascii.eqb_spec c """"%char) as [->|NE]; [exfalso; apply N; now left|].
    rewrite IH by (intro I; apply N; now right). now rewrite <- app_assoc.
Qed.

Lemma csv_line cells : forall row rest, cells <> [] -> Forall (fun c => ~ In """"%char c) cells ->
  csv_read FieldStart row (join_commas (map quoted cells) ++ newline :: rest) = (row ++ cells) :: csv_read FieldStart [] rest.
Proof.
  induction cells as [|c cells IH]; intros row rest NE F; [contradiction|]. inversion_clear F as [|? ? N F'].
  assert (Q : forall tail, csv_read FieldStart row (quoted c ++ tail) = csv_read (QuoteInQuotes c) row tail).
  { intro tail. unfold quoted. rewrite <- app_comm_cons, <- app_assoc. cbn [app]. cbn [csv_read]. rewrite Ascii.eqb_refl. now rewrite csv_quoted. }
  destruct cells as [|c' cells].
  - cbn [map join_commas]. rewrite Q. reflexivity.
  - change (join_commas (map quoted (c :: c' :: cells))) with (quoted c ++ ","%char :: join_commas (map quoted (c' :: cells))).
    rewrite <- app_assoc, Q. rewrite <- app_comm_cons. cbn [csv_read Ascii.eqb]. change (Ascii.eqb ","%char """"%char) with false. change (Ascii.eqb ","%char ","%char) with true.
    cbn iota. rewrite IH; [|discriminate|exact F']. now rewrite <- app_assoc.
Qed.

Lemma lstrip_In c s : In c (lstrip s) -> In c s.
Proof. induction s as [|d s IH]; [auto|]. cbn [lstrip]. destruct (is_space d); auto. intro I. right. auto. Qed.
Lemma strip_In c s : In c (strip s) -> In c s.
Proof. unfold strip. intro I. apply in_rev in I. now apply lstrip_In, in_rev, lstrip_In in I. Qed.

Lemma csv_reads t : plain_table t -> csv_records (csv_text t) = tb_headers t :: map (map strip) (tb_rows t).
Proof.
  intros (NE & FH & FR). unfold csv_records, csv_text, csv_lines. cbn [flat_map]. rewrite <- app_assoc. cbn [app]. rewrite csv_line by auto. cbn [app]. f_equal.
  induction (tb_rows t) as [|r rows IH]; [reflexivity|]. inversion_clear FR as [|? ? [NR F] FR']. cbn [map flat_map]. rewrite <- app_assoc. cbn [app].
  rewrite <- map_map with (g := quoted). rewrite csv_line.
  - cbn [app]. f_equal. auto.
  - now destruct r.
  - apply Forall_map. eapply Forall_impl; [|exact F]. intros c N I. apply N. now apply strip_In in I.
Qed.

(** ** JSON *)

Lemma json_parts_distinct a l : NoDup (map (fun s : str * sect => shown a (fst s) (n_abbrev (snd s))) l) ->
  fold_left (fun d s => dset (shown a (fst s) (n_abbrev (snd s))) (n_size (snd s)) d) l ([] : dict str Z) =
  map (fun s => (shown a (fst s) (n_abbrev (snd s)), n_size (snd s))) l.
Proof.
  assert (G : forall l acc, NoDup (keys acc ++ map (fun s : str * sect => shown a (fst s) (n_abbrev (snd s))) l) ->
    fold_left (fun d s => dset (shown a (fst s) (n_abbrev (snd s))) (n_size (snd s)) d) l (acc : dict str Z) =
    acc ++ map (fun s => (shown a (fst s) (n_abbrev (snd s)), n_size (snd s))) l).
  { clear l. induction l as [|s l IH]; intros acc N; [now rewrite app_nil_r|]. cbn [fold_left map] in *.
    assert (NI : ~ In (shown a (fst s) (n_abbrev (snd s))) (keys acc)).
    { intro I. apply NoDup_remove_2 in N. apply N. apply in_or_app. now left. }
    rewrite dset_notin by exact NI. rewrite IH.
    - now rewrite <- app_assoc.
    - unfold keys in *. rewrite map_app, <- app_assoc. exact N. }
  intro N. now apply G.
Qed.

Lemma map_fst_dmap {V W} (f : V -> W) (d : dict str V) : map fst (dmap f d) = map fst d.
Proof. unfold dmap. rewrite map_map. reflexivity. Qed.

Lemma json_layout m a : exists types, Permutation (m_types m) types /\
  StronglySorted (fun x y => in_order (a_sort_reverse a) (tkey a (snd x)) (tkey a (snd y))) types /\
  js_total_size (json_summary m a) = m_image_size m /\
  Forall2 (fun kv j => j_name j = fst kv /\ j_total j = t_size (snd kv) /\ j_used j = t_used (snd kv) /\
     j_free j = (if t_size (snd kv) =? 0 then 0 else j_total j - j_used j) /\
     (NoDup (map (fun s : str * sect => if a_abbrev a then n_abbrev (snd s) else fst s) (t_sections (snd kv))) ->
      Permutation (map (fun s : str * sect => (if a_abbrev a then n_abbrev (snd s) else fst s, n_size (snd s))) (t_sections (snd kv))) (j_parts j) /\
      zsumf snd (j_parts j) = zsumf (fun s => n_size (snd s)) (t_sections (snd kv))))
    types (js_layout (json_summary m a)).
Proof.
  exists (sort_dict_by_key (type_key a) (a_sort_reverse a) (m_types m)).
  destruct (sorted_dict (type_key a) (tkey a) (a_sort_reverse a) (m_types m) ltac:(reflexivity)) as [P S].
  split; [exact P|]. split; [exact S|]. split; [reflexivity|]. cbn [json_summary js_layout]. unfold sort. cbn [m_types with_types].
  generalize (sort_dict_by_key (type_key a) (a_sort_reverse a) (m_types m)). clear. intro l. unfold dmap. rewrite map_map.
  induction l as [|[n t] l IH]; cbn [map]; constructor; auto. cbn [fst snd json_type j_name j_total j_used j_free j_parts sort_type t_size t_used t_sections].
  repeat (split; [reflexivity|]). intro N.
  set (secs := dmap (sort_sect a) (sort_dict_by_key (node_key a) (a_sort_reverse a) (t_sections t))).
  assert (PS : Permutation (map (fun s : str * sect => (if a_abbrev a then n_abbrev (snd s) else fst s, n_size (snd s))) (t_sections t))
                           (map (fun s : str * sect => (shown a (fst s) (n_abbrev (snd s)), n_size (snd s))) secs)).
  { unfold secs, dmap. rewrite map_map. cbn [fst snd sort_sect n_abbrev n_size]. unfold shown. apply Permutation_map, py_sorted_perm. }
  assert (NS : NoDup (map (fun s : str * sect => shown a (fst s) (n_abbrev (snd s))) secs)).
  { eapply Permutation_NoDup; [|exact N]. apply (Permutation_map fst) in PS. rewrite !map_map in PS. exact PS. }
  rewrite (json_parts_distinct a secs NS). split; [exact PS|].
  etransitivity; [symmetry; exact (zsumf_perm snd _ _ PS)|]. rewrite zsumf_map. reflexivity.
Qed.

(** ** tree *)

Definition below (a : args) (k : str) (n : nat) (pe : list str * entry) (l : nat * str) : Prop :=
  fst l = (n + length (fst pe))%nat /\
  exists cell, snd l = (if a_abbrev a && (n + length (fst pe) <? 5)%nat then e_abbrev (snd pe) else last (k :: fst pe) []) ++ " "%char :: cell /\
    cell_text (given (a_diff a)) (e_size (snd pe), e_diff (snd pe)) cell.

Lemma Forall2_app' {A B} (P : A -> B -> Prop) l1 l2 r1 r2 : Forall2 P l1 r1 -> Forall2 P l2 r2 -> Forall2 P (l1 ++ l2) (r1 ++ r2).
Proof. induction 1; cbn; auto. Qed.

Lemma below_step a k k' n pe l : below a k' (S n) pe l -> below a k n (k' :: fst pe, snd pe) l.
Proof.
  unfold below. cbn [fst snd length]. rewrite Nat.add_succ_r, Nat.add_succ_l. intros [E (cell & A & B)]. split; [exact E|]. exists cell. split; [|exact B].
  rewrite A. reflexivity.
Qed.

Lemma tree_node_ok {C} a n k (node0 : node C) (sub : str * C -> list (nat * str)) (ents : C -> list (list str * entry)) : (n < 5)%nat ->
  (forall kv, In kv (n_sub node0) -> Forall2 (below a (fst kv) (S n)) (ents (snd kv)) (sub kv)) ->
  Forall2 (below a k n) (ents_node ents node0) (tree_node a n (shown a k (n_abbrev node0)) sub node0).
Proof.
  intros L H. unfold ents_node, tree_node. constructor.
  - split; [cbn; lia|]. cbn [fst snd length entry_of_node e_abbrev e_size e_diff]. rewrite Nat.add_0_r.
    apply Nat.ltb_lt in L. rewrite L. exists (num_cell (given (a_diff a)) (n_size node0) (n_diff node0)). split; [|apply num_cell_text].
    unfold tree_label, shown. rewrite andb_true_r. now destruct (a_abbrev a).
  - unfold ents_dict. revert H. generalize (n_sub node0). intros l H. induction l as [|kv l IH]; cbn [flat_map]; [constructor|].
    apply Forall2_app'; [|apply IH; intros; apply H; now right]. specialize (H kv (or_introl eq_refl)).
    induction H; cbn [map]; constructor; auto. now apply below_step.
Qed.

Lemma tree_sect_ok a kv : Forall2 (below a (fst kv) 2) (ents_sect (snd kv)) (tree_sect a kv).
Proof.
  apply tree_node_ok; [lia|]. intros kv2 _. apply tree_node_ok; [lia|]. intros kv3 _. apply tree_node_ok; [lia|]. intros kv4 _.
  unfold ents_sym, tree_sym. constructor; [|constructor]. split; [reflexivity|]. cbn [fst snd length entry_of_sym e_abbrev e_size e_diff last].
  rewrite andb_false_r. eexists. split; [reflexivity|]. apply num_cell_text.
Qed.

Lemma tree_ok m a : exists lines, tree_lines m a = (0%nat, list_ascii_of_string "Memory Types") :: concat lines /\
  Forall2 (fun kv ls => exists l r, ls = l :: r /\ tree_type_line a kv l /\ Forall2 (tree_line a) (ents_type (snd kv)) r)
    (m_types (sort (trim m a) a)) lines.
Proof.
  exists (map (tree_type a) (m_types (sort (trim m a) a))). split; [unfold tree_lines; now rewrite flat_map_concat_map|].
  induction (m_types (sort (trim m a) a)) as [|kv l IH]; cbn [map]; constructor; auto. unfold tree_type. eexists. eexists. split; [reflexivity|]. split.
  - split; [reflexivity|]. eexists. eexists. split; [apply num_cell_text|]. split; [apply num_cell_text|]. cbn [snd]. reflexivity.
  - unfold ents_type, ents_dict. induction (t_sections (snd kv)) as [|s secs IHs]; cbn [flat_map]; [constructor|]. apply Forall2_app'; [|exact IHs].
    pose proof (tree_sect_ok a s) as H. induction H as [|pe ln ents lns B F IHF]; cbn [map]; constructor; auto.
Qed.

(** ** the dependency table *)

Lemma show_Z_nonempty z : exists c s, show_Z z = c :: s.
Proof. destruct (show_Z z) as [|c s] eqn:E; [|eauto]. pose proof (written_word _ _ (show_Z_written z)) as [N _]. now rewrite E in N. Qed.

Lemma lines_of_nonempty s : lines_of s <> [].
Proof. destruct s as [|c s]; cbn; [discriminate|]. destruct (lines_of s); [discriminate|]. now destruct (Ascii.eqb c newline). Qed.
Lemma lines_of_line s : ~ In newline s -> lines_of s = [s].
Proof.
  induction s as [|c s IH]; intro N; [reflexivity|]. cbn [lines_of]. rewrite IH by (intro; apply N; now right).
  destruct (Ascii.eqb_spec c newline) as [->|]; [exfalso; apply N; now left|reflexivity].
Qed.
Lemma lines_of_app s r : ~ In newline s -> lines_of (s ++ newline :: r) = s :: lines_of r.
Proof.
  induction s as [|c s IH]; intro N.
  - cbn [app lines_of]. rewrite Ascii.eqb_refl. destruct (lines_of r) eqn:E; [now apply lines_of_nonempty in E|reflexivity].
  - cbn [app lines_of]. rewrite IH by (intro; apply N; now right).
    destruct (Ascii.eqb_spec c newline) as [->|]; [exfalso; apply N; now left|reflexivity].
Qed.
Lemma join_lines_read l : l <> [] -> Forall (fun s => ~ In newline s) l -> lines_of (join_lines l) = l.
Proof.
  induction l as [|s l IH]; intros NE F; [contradiction|]. inversion_clear F as [|? ? N F']. destruct l as [|s' l]; [now apply lines_of_line|].
  cbn [join_lines]. rewrite lines_of_app by exact N. f_equal. apply IH; [discriminate|exact F'].
Qed.

Definition cells_of (a : args) (kv : str * dent) : list str :=
  [shown a (fst kv) (de_abbrev (snd kv)); show_Z (de_size (snd kv))] ++ (if a_dep_symbols a then [join_lines (de_symbols (snd kv))] else []).
Lemma cells_of_ok a kv : dep_cells a kv (cells_of a kv).
Proof.
  exists (show_Z (de_size (snd kv))), (join_lines (de_symbols (snd kv))). split; [reflexivity|]. split; [apply show_Z_written|]. apply join_lines_read.
Qed.

Lemma dep_rows_tail a n d l : forall i rows, let (pending, gs) := dep_groups rows in
  dep_groups (dep_rows a n d (S i) l ++ rows) = (map (cells_of a) l ++ pending, gs).
Proof.
  induction l as [|kv l IH]; intros i rows; cbn [dep_rows map app]; [now destruct (dep_groups rows)|].
  specialize (IH (S i) rows). destruct (dep_groups rows) as [pending gs]. unfold dep_row at 1. cbn [Nat.eqb app]. cbn [dep_groups]. cbn [app] in IH. rewrite IH. reflexivity.
Qed.

Lemma dep_table_groups a deps : exists gs,
  dep_groups (tb_rows (dependencies_table a deps)) = ([], gs) /\
  Forall2 (dep_group_is a) (filter (fun kv => match da_archives (snd kv) with [] => false | _ => true end) deps) gs.
Proof.
  cbn [dependencies_table tb_rows]. induction deps as [|[n d] deps (gs & E & F)]; [exists []; split; [reflexivity|constructor]|].
  cbn [flat_map filter fst snd]. destruct (da_archives d) as [|kv l] eqn:EA; [exists gs; auto|].
  exists ((shown a n (da_abbrev d), show_Z (da_size d), map (cells_of a) (kv :: l)) :: gs). split.
  - cbn [dep_rows]. unfold dep_row. cbn [Nat.eqb app]. cbn [dep_groups].
    pose proof (dep_rows_tail a n d l 0 (flat_map (fun kv => dep_rows a (fst kv) (snd kv) 0 (da_archives (snd kv))) deps)) as T. rewrite E in T.
    rewrite T, app_nil_r. destruct (show_Z_nonempty (da_size d)) as (c & s & ->). reflexivity.
  - constructor; auto. eexists. eexists. split; [reflexivity|]. split; [apply show_Z_written|]. cbn [snd]. rewrite EA.
    clear. induction (kv :: l); cbn [map]; constructor; auto using cells_of_ok.
Qed.

(** ** remaining bytes in a comparison *)

Lemma remain_diff_ok cur ref t T : wf_map ref -> dget t (m_types (diff cur ref)) = Some T -> type_size_at ref t <> 0 -> type_size_at cur t <> 0 ->
  u_remain (type_usage T) = type_size_at cur t - type_used_at cur t /\
  u_remain_diff (type_usage T) = (type_size_at cur t - type_used_at cur t) - (type_size_at ref t - type_used_at ref t).
Proof.
  intros W E NR NC. pose proof (diff_type_exact cur ref t W) as H. rewrite E in H. destruct H as (_ & A & B & C & D).
  cbn [type_usage u_remain u_remain_diff]. rewrite A, B, C, D. destruct (Z.eqb_spec (type_size_at cur t) 0); lia.
Qed.
