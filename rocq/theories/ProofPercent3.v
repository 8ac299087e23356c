(** * Percentages, continued: the summary table *)
From Coq Require Import Ascii String List ZArith QArith Qpower Qabs Lia Lqa Bool Sorting.Permutation Sorting.Sorted.
From Coq Require Import Floats.SpecFloat.
From Verif Require Import Base MemMap Table Text Percent SpecTable SpecPercent ProofTable ProofTable2 ProofTable3 ProofFloat1 ProofFloat2 ProofFloat3 ProofFloat4 ProofPercent1 ProofPercent2.
Import ListNotations.
Open Scope list_scope.
Open Scope Z_scope.

(** ** whole percents *)
Lemma trunc_near x q : float_is x q -> (Qabs (inject_Z (ftrunc x) - q) < 1)%Q /\ ((0 <= q)%Q -> (inject_Z (ftrunc x) <= q)%Q) /\ ((q <= 0)%Q -> (q <= inject_Z (ftrunc x))%Q).
Proof.
  intros V. destruct x as [s|s| |s m e]; try (destruct V; fail).
  - cbn [float_is ftrunc] in *. change (inject_Z 0) with 0%Q. rewrite V. repeat split; try lra.
  - destruct (float_is_finite s m e q V) as (A & S). cbn [ftrunc].
    assert (T : exists v, 0 <= v /\ (inject_Z v <= Qabs q)%Q /\ (Qabs q < inject_Z v + 1)%Q /\ (if 0 <=? e then Zpos m * 2 ^ e else Zpos m / 2 ^ (- e)) = v).
    { destruct (Z.leb_spec 0 e) as [L|L].
      - exists (Zpos m * 2 ^ e). assert (0 < 2 ^ e) by (apply Z.pow_pos_nonneg; lia). split; [nia|]. rewrite A, (p2_nat e L), inject_Z_mult. split; [apply Qle_refl|]. split; [lra|reflexivity].
      - exists (Zpos m / 2 ^ (- e)). assert (P : 0 < 2 ^ (- e)) by (apply Z.pow_pos_nonneg; lia). pose proof (Z.div_mod (Zpos m) (2 ^ (- e)) ltac:(lia)) as DM. pose proof (Z.mod_pos_bound (Zpos m) (2 ^ (- e)) P) as MB.
        set (v := Zpos m / 2 ^ (- e)) in *. split; [apply Z.div_pos; lia|]. rewrite A.
        assert (I : (p2 (- e) * p2 e == 1)%Q) by (rewrite <- p2_add; replace (- e + e) with 0 by lia; reflexivity).
        pose proof (p2_pos e) as PE. rewrite (p2_nat (- e)) in I by lia. set (w := 2 ^ (- e)) in *.
        assert (L1 : (inject_Z v * inject_Z w <= inject_Z (Zpos m))%Q) by (rewrite <- inject_Z_mult, <- Zle_Qle; lia).
        assert (L2 : (inject_Z (Zpos m) < (inject_Z v + 1) * inject_Z w)%Q) by (change 1%Q with (inject_Z 1); rewrite <- inject_Z_plus, <- inject_Z_mult, <- Zlt_Qlt; lia).
        assert (M1 : (inject_Z v * inject_Z w * p2 e <= inject_Z (Zpos m) * p2 e)%Q) by (apply Qmult_le_compat_r; lra).
        assert (M2 : (inject_Z (Zpos m) * p2 e < (inject_Z v + 1) * inject_Z w * p2 e)%Q) by (apply Qmult_lt_compat_r; assumption).
        setoid_replace (inject_Z v * inject_Z w * p2 e)%Q with (inject_Z v)%Q in M1 by (setoid_replace (inject_Z v * inject_Z w * p2 e)%Q with (inject_Z v * (inject_Z w * p2 e))%Q by ring; rewrite I; ring).
        setoid_replace ((inject_Z v + 1) * inject_Z w * p2 e)%Q with (inject_Z v + 1)%Q in M2 by (setoid_replace ((inject_Z v + 1) * inject_Z w * p2 e)%Q with ((inject_Z v + 1) * (inject_Z w * p2 e))%Q by ring; rewrite I; ring).
        split; [exact M1|]. split; [exact M2|reflexivity]. }
    destruct T as (v & V0 & V1 & V2 & ->). assert (VQ : (0 <= inject_Z v)%Q) by (change 0%Q with (inject_Z 0); now rewrite <- Zle_Qle).
    assert (AB : forall z, (-1 < z)%Q -> (z < 1)%Q -> (Qabs z < 1)%Q) by (intros z Z1 Z2; destruct (Qabs_cases z) as [(_ & E)|(_ & E)]; rewrite E; lra).
    pose proof (Qabs_nonneg q) as NN. destruct s; [rewrite inject_Z_opp|]; (split; [apply AB|split; intros]); rewrite S; try lra.
Qed.
Lemma trunc_order x y a b : float_is x a -> float_is y b -> ftrunc x <= ftrunc y -> (a < b + 2)%Q /\ ((0 <= a)%Q -> (0 <= b)%Q -> (a < b + 1)%Q).
Proof.
  intros X Y L. destruct (trunc_near x a X) as (A1 & A2 & A3). destruct (trunc_near y b Y) as (B1 & B2 & B3). rewrite Zle_Qle in L.
  assert (LT : forall z, (Qabs z < 1)%Q -> (-1 < z < 1)%Q) by (intros z Z1; destruct (Qabs_cases z) as [(N & E)|(N & E)]; rewrite E in Z1; lra).
  apply LT in A1, B1. split; [lra|]. intros PA PB. specialize (A2 PA). specialize (B2 PB). lra.
Qed.
Lemma order_slack_cases x y : (order_slack x y == 2)%Q \/ (order_slack x y == 1 /\ 0 <= x /\ 0 <= y)%Q.
Proof. unfold order_slack. destruct (Qlt_le_dec x 0); [now left|]. destruct (Qlt_le_dec y 0); [now left|]. right. repeat split; auto. Qed.

(** a float near a number *)
Definition close (x : spec_float) (p e : Q) : Prop := exists q, float_is x q /\ (Qabs (q - p) <= e)%Q.

Lemma close_le x y p q e f : close x p e -> close y q f -> ftrunc x <= ftrunc y -> (p < q + (order_slack p q + e + f))%Q.
Proof.
  intros (a & A & EA) (b & B & EB) H. destruct (trunc_order x y a b A B H) as (L & M). assert (E0 : (0 <= e)%Q) by (eapply Qle_trans; [apply Qabs_nonneg|exact EA]). assert (F0 : (0 <= f)%Q) by (eapply Qle_trans; [apply Qabs_nonneg|exact EB]). apply Qabs_le in EA, EB.
  destruct (order_slack_cases p q) as [S|(S & P & Q)]; rewrite S; [lra|].
  destruct (Qlt_le_dec a 0) as [NA|NA]; [lra|]. destruct (Qlt_le_dec b 0) as [NB|NB]; [|specialize (M NA NB); lra].
  destruct (trunc_near x a A) as (A1 & _ & _). destruct (trunc_near y b B) as (B1 & _ & _).
  assert (LT : forall z, (Qabs z < 1)%Q -> (-1 < z < 1)%Q) by (intros z Z1; destruct (Qabs_cases z) as [(N & E)|(N & E)]; rewrite E in Z1; lra).
  apply LT in A1, B1. assert (TB : (inject_Z (ftrunc y) < 1)%Q) by lra. change 1%Q with (inject_Z 1) in TB. rewrite <- Zlt_Qlt in TB.
  assert (TA : (inject_Z (ftrunc x) <= 0)%Q) by (change 0%Q with (inject_Z 0); rewrite <- Zle_Qle; lia). lra.
Qed.
Lemma slack_sym p q : (order_slack p q == order_slack q p)%Q.
Proof. unfold order_slack. destruct (Qlt_le_dec p 0), (Qlt_le_dec q 0); reflexivity. Qed.
Lemma close_order r x y p q e f : close x p e -> close y q f -> in_order r (ftrunc x) (ftrunc y) -> in_order_within (order_slack p q + e + f) r p q.
Proof.
  intros A B H. unfold in_order, in_order_within in *. destruct r.
  - pose proof (close_le y x q p f e B A H) as L. rewrite slack_sym in L. lra.
  - exact (close_le x y p q e f A B H).
Qed.

(** ** the numbers of a table *)
Lemma wee_tiny x y : (0 <= x -> 0 <= y -> wee (x + 1) <= tiny (x + y + 2))%Q.
Proof. unfold wee, tiny. intros. lra. Qed.
Lemma type_close t (d : bool) : moderate_type t -> close (if d then u_pct_diff (type_usage t) else u_pct (type_usage t)) (type_number d t) (type_slip t).
Proof.
  intros (A & B & C & D & _). unfold type_number, type_slip. destruct d.
  - destruct (percent_diff_near _ _ _ _ A B C D) as (q & V & E). exists q. split; [exact V|exact E].
  - destruct (percent_near _ _ A B) as (q & V & E). exists q. split; [exact V|]. eapply Qle_trans; [exact E|].
    apply wee_tiny; apply Qabs_nonneg.
Qed.
Lemma sect_close t kv (d : bool) : moderate_type t -> In kv (t_sections t) ->
  close (if d then u_pct_diff (sect_usage t (snd kv)) else u_pct (sect_usage t (snd kv))) (sect_number d t (snd kv)) (sect_slip t (snd kv)).
Proof.
  intros (_ & B & _ & D & F) I. rewrite Forall_forall in F. destruct (F kv I) as (A & C). unfold sect_number, sect_slip. destruct d.
  - destruct (percent_diff_near _ _ _ _ A B C D) as (q & V & E). exists q. split; [exact V|exact E].
  - destruct (percent_near _ _ A B) as (q & V & E). exists q. split; [exact V|]. eapply Qle_trans; [exact E|].
    apply wee_tiny; apply Qabs_nonneg.
Qed.
Lemma type_cell_ok a kv : moderate_type (snd kv) -> type_percent a (snd kv) (nth 2 (type_row (plain_pct python_floats) a (fst kv) (snd kv)) []).
Proof.
  intros (A & B & C & D & _). unfold type_percent, type_row. destruct (t_size (snd kv) =? 0); cbn [negb]; [reflexivity|]. cbn [app nth type_usage u_pct u_pct_diff]. now apply cell_ok.
Qed.
Lemma sect_cell_ok a t kv : moderate_type t -> In kv (t_sections t) -> sect_percent a t (snd kv) (nth 2 (sect_row (plain_pct python_floats) a t kv) []).
Proof.
  intros (_ & B & _ & D & F) I. rewrite Forall_forall in F. destruct (F kv I) as (A & C). unfold sect_percent, sect_row.
  destruct (t_size t =? 0); cbn [negb]; [reflexivity|]. cbn [app nth sect_usage u_pct u_pct_diff]. now apply cell_ok.
Qed.
Lemma sorted_within {A} (R : A -> A -> Prop) (P : A -> Prop) (R' : A -> A -> Prop) l : (forall x y, P x -> P y -> R x y -> R' x y) -> Forall P l -> StronglySorted R l -> StronglySorted R' l.
Proof.
  intros H F S. induction S as [|x l S IH G]; [constructor|]. inversion F as [|? ? Px Fl]; subst. constructor; [auto|].
  rewrite Forall_forall in *. intros y I. apply H; auto.
Qed.

Lemma percent_column m a tb : get_summary_table (plain_pct python_floats) m a = TOk tb -> Forall (fun kv => moderate_type (snd kv)) (m_types (trim m a)) ->
  exists i groups, names_column usage_headers (a_sort a) i /\
    Permutation (m_types (trim m a)) (map fst groups) /\
    Forall (fun g => Permutation (t_sections (snd (fst g))) (snd g)) groups /\
    (exists rows, tb_rows tb = concat rows /\ Forall2 (shown_type a) groups rows /\ Forall2 (percents a) groups rows) /\
    (i = 2%nat -> StronglySorted (types_by_percent a) (map fst groups) /\
                  Forall (fun g => StronglySorted (sects_by_percent a (snd (fst g))) (snd g)) groups).
Proof.
  set (pf := plain_pct python_floats). unfold get_summary_table. pose proof (usage_column (a_sort a)) as U. destruct (sort_column usage_headers (a_sort a)) as [z|]; [|discriminate].
  destruct (py_nth _ (key_index z)) as [k|]; [|discriminate]. intros H M. injection H as <-. cbn [tb_rows].
  destruct U as (i & N & E). exists (S i).
  set (tys := sort_dict_by_key (fun t => usage_key a k (type_usage t)) (a_sort_reverse a) (m_types (trim m a))).
  set (secs := fun t : str * mtype => sort_dict_by_key (fun s => usage_key a k (sect_usage (snd t) s)) (a_sort_reverse a) (t_sections (snd t))).
  exists (map (fun t => (t, secs t)) tys). rewrite map_map. cbn [fst]. rewrite map_id.
  assert (MT : Forall (fun kv => moderate_type (snd kv)) tys) by (eapply Permutation_Forall; [apply py_sorted_perm|exact M]).
  assert (PS : forall t, Permutation (t_sections (snd t)) (secs t)) by (intros t; apply py_sorted_perm).
  split; [exact N|]. split; [apply py_sorted_perm|]. split; [|split; [|intro NP; split]].
  - apply Forall_map, Forall_forall. intros t _. cbn [fst snd]. apply PS.
  - exists (map (fun t => type_row pf a (fst t) (snd t) :: map (sect_row pf a (snd t)) (secs t)) tys). rewrite <- flat_map_concat_map. split; [reflexivity|]. split.
    + clear MT. induction tys as [|t tys IH]; cbn [map]; constructor; auto. exists (type_row pf a (fst t) (snd t)). eexists. split; [reflexivity|]. cbn [fst snd].
      split; [apply type_row_ok|]. clear. induction (secs t); cbn [map]; constructor; auto using sect_row_ok.
    + induction MT as [|t l Mt MT IH]; cbn [map]; constructor; auto. exists (type_row pf a (fst t) (snd t)). eexists. split; [reflexivity|]. cbn [fst snd].
      split; [now apply type_cell_ok|]. assert (IN : forall kv, In kv (secs t) -> In kv (t_sections (snd t))) by (intros kv; apply Permutation_in, Permutation_sym, PS).
      induction (secs t) as [|kv q IHq]; cbn [map]; constructor; [apply sect_cell_ok; [exact Mt|apply IN; now left]|]. apply IHq. intros; apply IN; now right.
  - injection NP as ->. cbn [nth_error] in E. injection E as <-.
    eapply sorted_within; [|exact MT|exact (proj2 (sorted_dict (fun t => usage_key a ByPct (type_usage t)) (fun t => usage_key a ByPct (type_usage t)) (a_sort_reverse a) (m_types (trim m a)) (fun v => eq_refl)))].
    intros x y X Y. cbn [usage_key]. intros O. exact (close_order _ _ _ _ _ _ _ (type_close (snd x) (a_sort_diff a) X) (type_close (snd y) (a_sort_diff a) Y) O).
  - injection NP as ->. cbn [nth_error] in E. injection E as <-. apply Forall_map, Forall_forall. intros t It. rewrite Forall_forall in MT. specialize (MT t It). cbn [fst snd]. cbv zeta.
    eapply sorted_within with (P := fun kv => In kv (t_sections (snd t))); [|apply Forall_forall; intros kv; apply Permutation_in, Permutation_sym, PS|exact (proj2 (sorted_dict (fun s => usage_key a ByPct (sect_usage (snd t) s)) (fun s => usage_key a ByPct (sect_usage (snd t) s)) (a_sort_reverse a) (t_sections (snd t)) (fun v => eq_refl)))].
    intros x y X Y. cbn [usage_key]. intros O. exact (close_order _ _ _ _ _ _ _ (sect_close (snd t) x (a_sort_diff a) MT X) (sect_close (snd t) y (a_sort_diff a) MT Y) O).
Qed.
