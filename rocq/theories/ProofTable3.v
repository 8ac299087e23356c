(** * Proofs about the reports as tables *)
From Coq Require Import Ascii String List ZArith Bool Lia Sorting.Permutation Sorting.Sorted.
From Verif Require Import Base MemMap SpecTree SpecOps Filter PyStr SpecMap ProofPyStr Table SpecTable ProofOps ProofFilter ProofSummary ProofSummary2 ProofSummary3 ProofTable ProofTable2.
Import ListNotations.
Open Scope list_scope.
Open Scope Z_scope.

Lemma report_table m a first d t : wf_map m -> is_report m a first d t -> t = entries_table a first d /\ all_shaped m d.
Proof.
  intros W [(-> & -> & ->)|[(-> & -> & ->)|(-> & s & E & -> & T)]].
  - split; [reflexivity|]. apply shaped_filtered, shaped_archives, W.
  - split; [reflexivity|]. apply shaped_filtered, shaped_objects, W.
  - unfold get_symbols_table in T. rewrite E in T. injection T as <-. split; [reflexivity|]. eapply shaped_filtered, shaped_symbols; eauto.
Qed.

Lemma row_of_shows m a kv : row_shows m a kv (row_of m a kv).
Proof.
  eexists. split; [reflexivity|]. induction (cols m) as [|c l IH]; constructor; auto. destruct (col_value (snd kv) c). apply num_cell_text.
Qed.

Lemma rows_shown m a rows : Forall2 (row_shows m a) rows (map (row_of m a) rows).
Proof. induction rows; constructor; auto using row_of_shows. Qed.

(** headers, rows and their order *)
Lemma report_shows m a first d tb : wf_map m -> is_report m a first d (TOk tb) -> d <> [] ->
  tb_headers tb = titles m a first /\
  exists i c rows, names_column (titles m a first) (a_sort a) (S i) /\ nth_error (cols m) i = Some c /\
    Permutation d rows /\ Forall2 (row_shows m a) rows (tb_rows tb) /\
    StronglySorted (fun x y => in_order (a_sort_reverse a) (pick (a_sort_diff a) (col_value (snd x) c)) (pick (a_sort_diff a) (col_value (snd y) c))) rows.
Proof.
  intros W R NE. destruct (report_table _ _ _ _ _ W R) as [E S]. destruct d as [|kv0 d0]; [contradiction|].
  pose proof (entries_table_ok m a first kv0 d0 W S) as H. cbv zeta in H. rewrite <- E in H. destruct H as (HH & i & c & rows & NC & EC & ER & P & SS).
  split; [exact HH|]. exists i, c, rows. rewrite ER. auto using rows_shown.
Qed.

Lemma report_empty m a first tb : wf_map m -> is_report m a first [] (TOk tb) ->
  tb_headers tb = [first; list_ascii_of_string "Total Size"] /\ tb_rows tb = [].
Proof.
  intros W R. destruct (report_table _ _ _ _ _ W R) as [E _]. unfold entries_table, get_table_sorted in E. cbn in E.
  destruct (sort_column _ _); [|discriminate]. injection E as ->. auto.
Qed.

(** every row has the cells of all columns *)
Lemma report_width m a first d tb : wf_map m -> is_report m a first d (TOk tb) ->
  Forall (fun r => length r = length (tb_headers tb)) (tb_rows tb).
Proof.
  intros W R. destruct d as [|kv0 d0].
  - destruct (report_empty _ _ _ _ W R) as [_ ->]. constructor.
  - destruct (report_shows _ _ _ _ _ W R) as (-> & i & c & rows & _ & _ & _ & F & _); [discriminate|].
    unfold titles. cbn [length]. rewrite map_length. induction F as [|kv r rows rs (cells & -> & G) F IH]; constructor; auto.
    cbn [length]. f_equal. clear -G. induction G; cbn; auto.
Qed.

Lemma names_column_unique l arg i j : names_column l arg i -> names_column l arg j -> i = j.
Proof.
  intros [(z & E & H & B)|(E & B & H & F)] [(z' & E' & H' & B')|(E' & B' & H' & F')]; try congruence.
  - rewrite E in E'. injection E' as <-. lia.
  - destruct (lt_eq_lt_dec i j) as [[L|L]|L]; [exfalso; now apply (F' i)|exact L|exfalso; now apply (F j)].
Qed.

Lemma report_accepts m a first d t : wf_map m -> is_report m a first d t -> d <> [] ->
  (exists tb, t = TOk tb) <-> (exists i, names_column (titles m a first) (a_sort a) i).
Proof.
  intros W R NE. split.
  - intros (tb & ->). destruct (report_shows _ _ _ _ _ W R NE) as (_ & i & c & rows & N & _). eauto.
  - intros (i & N). destruct (report_table _ _ _ _ _ W R) as [-> S]. destruct d as [|kv0 d0]; [contradiction|].
    pose proof (entries_table_ok m a first kv0 d0 W S) as H. cbv zeta in H.
    destruct (entries_table a first (kv0 :: d0)) as [tb|e]; [eauto|]. exfalso.
    destruct e as [s| |z lo hi nlo nhi].
    + destruct H as (_ & E & NI). destruct N as [(z & E' & _)|(_ & _ & H & _)]; [congruence|]. apply NI. eapply nth_error_In, H.
    + destruct H as [E|[E E1]]; destruct N as [(z & E' & H & B)|(E' & B & H & F)]; try congruence.
      * rewrite E in E'. injection E' as <-. lia.
      * destruct i; [lia|]. apply (F 0%nat); [lia|]. now rewrite E1.
    + destruct H as (E & B & _). destruct N as [(z' & E' & H & B')|(E' & _)]; [|congruence]. rewrite E in E'. injection E' as <-.
      unfold titles in *. cbn [length] in *. rewrite map_length in *. lia.
Qed.

(** which error is given *)
Lemma report_refuses m a first d e : wf_map m -> is_report m a first d (TDie e) -> d <> [] ->
  match e with
  | NoColumn s => s = a_sort a /\ ~ In s (titles m a first) /\ py_int10 s = None
  | DescriptionColumn => py_int10 (a_sort a) = Some 0 \/ (a_sort a = first /\ py_int10 first = None)
  | OutOfRange z lo hi nlo nhi =>
      let n := Z.of_nat (length (cols m)) in
      py_int10 (a_sort a) = Some z /\ ~ (- n <= z <= n) /\ lo = 1 /\ hi = n - 1 /\ nlo = - n /\ nhi = -1
  end.
Proof.
  intros W R NE. destruct (report_table _ _ _ _ _ W R) as [E S]. destruct d as [|kv0 d0]; [contradiction|].
  pose proof (entries_table_ok m a first kv0 d0 W S) as H. cbv zeta in H. rewrite <- E in H. destruct e.
  - destruct H as (-> & A & B). auto.
  - destruct H as [A|[A B]]; [auto|]. right. rewrite <- B. auto.
  - exact H.
Qed.

(** ** numbers and names as arguments *)

Lemma int_digits_chars base s : forall acc us z, int_digits base s acc us = Some z -> Forall (fun c => c = "_"%char \/ exists d, digit_val c = Some d /\ d < base) s.
Proof.
  induction s as [|c s IH]; intros acc us z H; [constructor|]. cbn [int_digits] in H. destruct (keqP c "_"%char) as [->|N].
  - destruct us; [discriminate|]. constructor; eauto.
  - destruct (digit_val c) as [d|] eqn:E; [|discriminate]. destruct (Z.ltb_spec d base) as [L|L]; [|discriminate]. constructor; eauto.
Qed.

Lemma digit_val10 c d : digit_val c = Some d -> d < 10 -> number_char c = true.
Proof. destruct c as [[|] [|] [|] [|] [|] [|] [|] [|]]; vm_compute; intros E L; try discriminate; try reflexivity; injection E as <-; discriminate. Qed.
Lemma int10_chars s z : int_digits 10 s 0 true = Some z -> Forall (fun c => number_char c = true) s.
Proof.
  intro H. apply int_digits_chars in H. eapply Forall_impl; [|exact H]. intros c [->|(d & E & L)]; [reflexivity|]. eapply digit_val10; eauto.
Qed.
Lemma strip_chars s : Forall (fun c => number_char c = true) (strip s) -> Forall (fun c => number_char c = true) s.
Proof.
  assert (L : forall s, Forall (fun c => number_char c = true) (lstrip s) -> Forall (fun c => number_char c = true) s).
  { induction s0 as [|c s0 IH]; [auto|]. cbn [lstrip]. destruct (is_space c) eqn:E; auto. intro F. constructor; auto.
    unfold number_char. rewrite E. apply orb_true_r. }
  intro F. unfold strip in F. apply L. apply Forall_rev in F. rewrite rev_involutive in F. apply L in F. apply Forall_rev in F. now rewrite rev_involutive in F.
Qed.
Lemma py_int10_chars s z : py_int10 s = Some z -> Forall (fun c => number_char c = true) s.
Proof.
  intro H. apply strip_chars. unfold py_int10 in H. revert H. generalize (strip s). clear s. intros s H.
  destruct s as [|c r]; [constructor|].
  assert (G : int_digits 10 (c :: r) 0 true = Some z \/ (number_char c = true /\ exists z', int_digits 10 r 0 true = Some z')).
  { destruct c as [[|] [|] [|] [|] [|] [|] [|] [|]]; auto; right; split; try reflexivity; eauto; destruct (int_digits 10 r 0 true); eauto; discriminate. }
  destruct G as [G|(N & z' & G)]; [now apply int10_chars in G|]. constructor; auto. eapply int10_chars; eauto.
Qed.

Lemma named_by_number l z s : written s z -> 1 <= Z.abs z < Z.of_nat (length l) ->
  names_column l s (Z.to_nat (if 0 <? z then z else Z.of_nat (length l) + z)).
Proof.
  intros W B. left. exists z. split; [now apply written_int|]. destruct (Z.ltb_spec 0 z); lia.
Qed.
Lemma named_by_title l i s c : nth_error l (S i) = Some s -> In c s -> number_char c = false -> (forall j, (j < S i)%nat -> nth_error l j <> Some s) ->
  names_column l s (S i).
Proof.
  intros E I N F. right. split; [|split; [lia|auto]]. destruct (py_int10 s) as [z|] eqn:P; [|reflexivity].
  apply py_int10_chars in P. rewrite Forall_forall in P. apply P in I. congruence.
Qed.

(** ** values *)

Lemma zsumf_flat_map {A B} (f : B -> Z) (g : A -> list B) l : zsumf f (flat_map g l) = zsumf (fun x => zsumf f (g x)) l.
Proof. induction l; cbn [flat_map]; [reflexivity|]. rewrite zsumf_app, zsumf_cons. congruence. Qed.

Lemma zsumf_sections {V} (f : V -> Z) (g : str -> Z) (d : dict str V) ks : wf_dict d -> keys d = ks ->
  (forall s q, dget s d = Some q -> f q = g s) -> zsumf (fun kv => f (snd kv)) d = zsumf g ks.
Proof.
  intros W <- H. unfold keys. rewrite zsumf_map. apply zsumf_ext. intros [s q] I. cbn [fst snd]. apply H. now apply In_dget.
Qed.

Lemma row_value m val e c : wf_map m -> row_ok m val e -> In c (cols m) -> col_value e c = entry_value m val c.
Proof.
  intros [WT WS] (K & S1 & S2 & H) I. unfold cols in I.
  assert (WE : wf_dict (se_types e)) by (unfold wf_dict; rewrite K; exact WT).
  assert (TV : forall t T, dget t (se_types e) = Some T ->
    st_size T = zsumf esize (section_values m val t) /\ st_diff T = zsumf ediff (section_values m val t)).
  { intros t T E. destruct (H t T E) as (KS & A & B & V). unfold section_values.
    destruct (dget t (m_types m)) as [U|] eqn:EU; [|discriminate]. cbn [option_map] in KS. injection KS as KS.
    assert (WD : wf_dict (st_sections T)).
    { unfold wf_dict. rewrite KS. rewrite Forall_forall in WS. apply dget_In in EU. specialize (WS _ EU). apply WS. }
    rewrite A, B, !zsumf_map. split; apply (zsumf_sections _ _ _ _ WD KS); intros s q E2; now apply V. }
  destruct I as [<-|I].
  - cbn [col_value entry_value]. rewrite !zsumf_flat_map, S1, S2. f_equal; apply (zsumf_sections _ _ _ _ WE K); intros t T E; now apply TV.
  - apply in_flat_map in I as ([t U] & IU & [<-|I]).
    + cbn [col_value entry_value fst]. destruct (dget t (se_types e)) as [T|] eqn:E.
      * destruct (TV t T E) as [-> ->]. reflexivity.
      * exfalso. apply dget_None in E. apply E. rewrite K. now apply (in_map fst) in IU.
    + apply in_map_iff in I as ([s sec] & <- & IS). cbn [fst snd] in *. cbn [col_value entry_value].
      destruct (dget t (se_types e)) as [T|] eqn:E.
      * destruct (H t T E) as (KS & _ & _ & V). apply (In_dget _ _ _ WT) in IU. rewrite IU in KS. injection KS as KS.
        destruct (dget s (st_sections T)) as [q|] eqn:ES.
        -- destruct (V s q ES) as (-> & -> & _). reflexivity.
        -- exfalso. apply dget_None in ES. apply ES. rewrite KS. now apply (in_map fst) in IS.
      * exfalso. apply dget_None in E. apply E. rewrite K. now apply (in_map fst) in IU.
Qed.

Lemma filtered_In (d : dict str sentry) a n e : In (n, e) (get_summary_filtered d a) -> In (n, e) d.
Proof. unfold get_summary_filtered, summary_filtered. destruct (a_filter a); auto. intro I. now apply filter_In in I as [I _]. Qed.

Lemma archive_values m a x e c : wf_map m -> In (x, e) (get_summary_filtered (get_archives_summary m a) a) -> In c (cols m) ->
  col_value e c = entry_value m (fun t s => look m t [s; x]) c.
Proof.
  intros W I IC. apply filtered_In in I. apply In_dget in I; [|apply archives_report_wf]. pose proof (archives_report m a x W) as R. rewrite I in R.
  destruct R as [R _]. now apply row_value.
Qed.
Lemma object_values m a n e c : wf_map m -> inj_objects m -> a_unify a = false ->
  In (n, e) (get_summary_filtered (get_object_files_summary m a) a) -> In c (cols m) ->
  exists x o, n = colon [x; o] /\ col_value e c = entry_value m (fun t s => look m t [s; x; o]) c.
Proof.
  intros W J U I IC. apply filtered_In in I. apply In_dget in I; [|apply (shaped_objects m a W)]. pose proof (objects_report m a n W J U) as R. rewrite I in R.
  destruct R as (x & o & -> & _ & _ & R & _). exists x, o. split; auto. now apply row_value.
Qed.
Lemma symbol_values m a d rows n e c : wf_map m -> inj_symbols m -> a_unify a = false -> a_archive_details a = Some d -> get_symbols_summary m a = Ok rows ->
  In (n, e) (get_summary_filtered rows a) -> In c (cols m) ->
  exists x o y, n = colon [x; o; y] /\ col_value e c = entry_value m (fun t s => sym_val m d t s x o y) c.
Proof.
  intros W J U D ER I IC. apply filtered_In in I. apply In_dget in I; [|apply (shaped_symbols m a rows W ER)]. pose proof (symbols_report m a d rows n W J U D ER) as R. rewrite I in R.
  destruct R as (x & o & y & -> & _ & _ & R & _). exists x, o, y. split; auto. now apply row_value.
Qed.

(** ** the summary table *)

Lemma type_row_ok pf a kv : type_row_shows a kv (type_row pf a (fst kv) (snd kv)).
Proof.
  destruct kv as [n t]. unfold type_row_shows, type_row. cbn [fst snd type_value type_usage u_used u_used_diff u_pct u_pct_diff u_remain u_remain_diff u_total u_total_diff].
  destruct (t_size t =? 0); cbn [negb]; do 4 eexists; (split; [reflexivity|]); split; auto using num_cell_text.
Qed.
Lemma sect_row_ok pf a t kv : sect_row_shows a kv (sect_row pf a t kv).
Proof.
  destruct kv as [n s]. unfold sect_row_shows, sect_row, shown. cbn [fst snd sect_value sect_usage u_used u_used_diff].
  destruct (t_size t =? 0); cbn [negb]; do 2 eexists; (split; [reflexivity|]); auto using num_cell_text.
Qed.

Lemma usage_column arg : match sort_column usage_headers arg with
  | TOk z => match py_nth [ByUsed; ByPct; ByRemain; ByTotal] (key_index z) with
             | Some k => exists i, names_column usage_headers arg (S i) /\ nth_error [ByUsed; ByPct; ByRemain; ByTotal] i = Some k
             | None => (forall i, ~ names_column usage_headers arg i) /\ py_int10 arg = Some z /\ ~ (-4 <= z <= 4)
             end
  | TDie e => (forall i, ~ names_column usage_headers arg i) /\ (e = NoColumn arg \/ e = DescriptionColumn)
  end.
Proof.
  pose proof (column_choice (hd [] usage_headers) (tl usage_headers) [ByUsed; ByPct; ByRemain; ByTotal] arg eq_refl) as C.
  change (hd [] usage_headers :: tl usage_headers) with usage_headers in C. set (first := hd [] usage_headers) in C.
  destruct (sort_column usage_headers arg) as [z|e].
  - destruct (py_nth _ _); [exact C|]. destruct C as (A & B & _ & D). repeat split; auto.
  - destruct e as [s| |]; [| |contradiction].
    + destruct C as (-> & E & NI). split; [|auto]. intros i N. destruct N as [(z & E' & _)|(_ & _ & H & _)]; [congruence|]. apply NI. eapply nth_error_In, H.
    + split; [|auto]. intros i N. destruct C as [E|[E E1]]; destruct N as [(z & E' & H & B)|(E' & B & H & F)]; try congruence.
      * rewrite E in E'. injection E' as <-. lia.
      * destruct i; [lia|]. apply (F 0%nat); [lia|]. now rewrite E1.
Qed.

Lemma sorted_dict {V} (key : V -> Z) (val : V -> Z) r (d : dict str V) : (forall v, key v = val v) ->
  Permutation d (sort_dict_by_key key r d) /\ StronglySorted (fun x y => in_order r (val (snd x)) (val (snd y))) (sort_dict_by_key key r d).
Proof.
  intro E. split; [apply py_sorted_perm|]. eapply sorted_weaken; [|apply py_sorted_sorted]. intros x y H. unfold ordered in H. unfold in_order. now rewrite <- !E.
Qed.

Lemma summary_table_rows pf m a tb : get_summary_table pf m a = TOk tb ->
  tb_headers tb = usage_headers /\
  exists i groups, names_column usage_headers (a_sort a) i /\
    Permutation (m_types (trim m a)) (map fst groups) /\
    Forall (fun g => Permutation (t_sections (snd (fst g))) (snd g)) groups /\
    (exists rows, tb_rows tb = concat rows /\ Forall2 (shown_type a) groups rows /\
      Forall2 (fun g rs => rs = type_row pf a (fst (fst g)) (snd (fst g)) :: map (sect_row pf a (snd (fst g))) (snd g)) groups rows) /\
    (i <> 2%nat ->
      StronglySorted (fun x y => in_order (a_sort_reverse a) (pick (a_sort_diff a) (type_value i (snd x))) (pick (a_sort_diff a) (type_value i (snd y)))) (map fst groups) /\
      Forall (fun g => StronglySorted (fun x y => in_order (a_sort_reverse a) (pick (a_sort_diff a) (sect_value i (snd x))) (pick (a_sort_diff a) (sect_value i (snd y)))) (snd g)) groups).
Proof.
  unfold get_summary_table. pose proof (usage_column (a_sort a)) as U. destruct (sort_column usage_headers (a_sort a)) as [z|]; [|discriminate].
  destruct (py_nth _ (key_index z)) as [k|]; [|discriminate]. intro H. injection H as <-. cbn [tb_headers tb_rows]. split; [reflexivity|].
  destruct U as (i & N & E). exists (S i).
  set (tys := sort_dict_by_key (fun t => usage_key a k (type_usage t)) (a_sort_reverse a) (m_types (trim m a))).
  set (secs := fun t : str * mtype => sort_dict_by_key (fun s => usage_key a k (sect_usage (snd t) s)) (a_sort_reverse a) (t_sections (snd t))).
  exists (map (fun t => (t, secs t)) tys). rewrite map_map. cbn [fst]. rewrite map_id.
  split; [exact N|]. split; [apply py_sorted_perm|]. split; [|split; [|intro NP; split]].
  - apply Forall_map, Forall_forall. intros t _. cbn [fst snd]. apply py_sorted_perm.
  - exists (map (fun t => type_row pf a (fst t) (snd t) :: map (sect_row pf a (snd t)) (secs t)) tys). rewrite <- flat_map_concat_map. split; [reflexivity|]. split; [|induction tys as [|t tys IH]; cbn [map]; constructor; auto].
    induction tys as [|t tys IH]; cbn [map]; constructor; auto. exists (type_row pf a (fst t) (snd t)). eexists. split; [reflexivity|]. cbn [fst snd].
    split; [apply type_row_ok|]. induction (secs t); cbn [map]; constructor; auto using sect_row_ok.
  - refine (proj2 (sorted_dict (fun t => usage_key a k (type_usage t)) (fun v => pick (a_sort_diff a) (type_value (S i) v)) (a_sort_reverse a) _ _)).
    intro v. unfold pick. destruct i as [|[|[|[|i]]]]; try (destruct i; discriminate); injection E as <-; try contradiction; cbn; now destruct (a_sort_diff a).
  - apply Forall_map, Forall_forall. intros t _. cbn [fst snd].
    refine (proj2 (sorted_dict (fun s => usage_key a k (sect_usage (snd t) s)) (fun v => pick (a_sort_diff a) (sect_value (S i) v)) (a_sort_reverse a) _ _)).
    intro v. unfold pick. destruct i as [|[|[|[|i]]]]; try (destruct i; discriminate); injection E as <-; try contradiction; cbn; now destruct (a_sort_diff a).
Qed.

Lemma summary_table_shows pf m a tb : get_summary_table pf m a = TOk tb ->
  tb_headers tb = usage_headers /\
  exists i groups, names_column usage_headers (a_sort a) i /\
    Permutation (m_types (trim m a)) (map fst groups) /\
    Forall (fun g => Permutation (t_sections (snd (fst g))) (snd g)) groups /\
    (exists rows, tb_rows tb = concat rows /\ Forall2 (shown_type a) groups rows) /\
    (i <> 2%nat ->
      StronglySorted (fun x y => in_order (a_sort_reverse a) (pick (a_sort_diff a) (type_value i (snd x))) (pick (a_sort_diff a) (type_value i (snd y)))) (map fst groups) /\
      Forall (fun g => StronglySorted (fun x y => in_order (a_sort_reverse a) (pick (a_sort_diff a) (sect_value i (snd x))) (pick (a_sort_diff a) (sect_value i (snd y)))) (snd g)) groups).
Proof.
  intros E. destruct (summary_table_rows _ _ _ _ E) as (Hd & i & gs & Nc & Pt & Ps & (rows & Er & Fr & _) & So). split; [exact Hd|].
  exists i, gs. split; [exact Nc|]. split; [exact Pt|]. split; [exact Ps|]. split; [exists rows; now split|exact So].
Qed.

Lemma summary_table_accepts pf m a : (exists tb, get_summary_table pf m a = TOk tb) <-> exists i, names_column usage_headers (a_sort a) i.
Proof.
  unfold get_summary_table. pose proof (usage_column (a_sort a)) as U. destruct (sort_column usage_headers (a_sort a)) as [z|].
  - destruct (py_nth _ (key_index z)) as [k|].
    + destruct U as (i & N & _). split; eauto.
    + destruct U as (F & _). split; [intros (? & ?); discriminate|]. intros (i & N). now apply F in N.
  - destruct U as (F & _). split; [intros (? & ?); discriminate|]. intros (i & N). now apply F in N.
Qed.

Lemma summary_table_refuses pf m a z lo hi nlo nhi : get_summary_table pf m a = TDie (OutOfRange z lo hi nlo nhi) ->
  py_int10 (a_sort a) = Some z /\ ~ (-4 <= z <= 4) /\ lo = 1 /\ hi = 4 /\ nlo = -4 /\ nhi = -1.
Proof.
  unfold get_summary_table. pose proof (usage_column (a_sort a)) as U. destruct (sort_column usage_headers (a_sort a)) as [z'|e].
  - destruct (py_nth _ (key_index z')) as [k|]; [discriminate|]. intro H. injection H as <- <- <- <- <-. destruct U as (_ & A & B). exact (conj A (conj B (conj eq_refl (conj eq_refl (conj eq_refl eq_refl))))).
  - destruct U as (_ & [->| ->]); discriminate.
Qed.
