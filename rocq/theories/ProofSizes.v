(** * The sizes of memory types in the summaries *)
From Coq Require Import Ascii String List ZArith Lia Bool Permutation Sorted.
From Verif Require Import Base MemMap SpecTree SpecOps Filter SpecFilter Pipeline SpecPipe SpecBuild SpecBytes SpecShape SpecSyms PyStr MapFile SpecMap ProofRegions ProofTypes ProofBuild ProofBytes ProofBytes2 ProofBytes3
  ElfRead SpecElf Project SpecProject SpecEnd ProofEnd Chips SpecChips ProofChips Deps Table SpecTable Formats Main SpecMain ProofMain5 Command SpecCommand SpecFail SpecReport ProofCommand1 ProofCommand2 ProofReport2 ProofReport4 ProofReport5
  SpecAdds ProofAdds SpecSteps ProofSteps SpecCompare SpecMerge ProofMerge2 ProofMerge4 SpecLayout ProofLayout SpecForm ProofForm SpecCompareUsage ProofCompareUsage ProofCompareUsage2 SpecSumForm ProofSumForm SpecSizes.
Import ListNotations.
Open Scope list_scope.
Open Scope Z_scope.

(** ** the parts of the regions, but for empty ones *)
Definition filled_part (p : sregion) : bool := 0 <? sr_length p.
Section Parts.
Variables (types : list chip_type) (r : region).
Hypothesis Ws : windows_separate types.
Definition good (p : sregion) : Prop := part_inside p /\ In (sr_type p) types /\ sr_name p = r_name r /\ sr_attrs p = r_attrs r /\
  0 <= sr_length p /\ (0 < sr_length p -> first_covering types (sr_origin p) (sr_type p) /\ part_whole r p).
Definition stops (b : Z) : Prop := b = r_origin r + r_length r \/ (r_origin r <= b < r_origin r + r_length r /\ ~ covered types b).
Lemma good_stop p : good p -> 0 < sr_length p -> ~ stops (sr_origin p).
Proof.
  intros (_ & It & _ & _ & _ & F) L. destruct (F L) as (Fc & lo & hi & _ & _ & E). intros [S|(_ & N)]; [lia|]. apply N. destruct Fc as (l1 & l2 & _ & C & _). exists (sr_type p). now split.
Qed.
Lemma good_same p p' : good p -> good p' -> 0 < sr_length p -> 0 < sr_length p' -> sr_origin p = sr_origin p' -> p = p'.
Proof.
  intros (_ & It & N & A & _ & F) (_ & It' & N' & A' & _ & F') L L' O. destruct (F L) as (Fc & lo & hi & W & B & E), (F' L') as (Fc' & lo' & hi' & W' & B' & E').
  rewrite <- O in Fc'. pose proof (first_covering_unique _ _ _ _ Fc Fc') as Et. rewrite <- Et in W'.
  assert (Eh : hi = hi'). { destruct (Ws _ _ _ _ _ _ It It W W') as [(_ & H)|H]; [exact H|lia]. }
  destruct p, p'. cbn in *. subst. f_equal. lia.
Qed.
Lemma tiles_empty a b ps : tiles a b ps -> Forall good ps -> stops a -> filter filled_part ps = [].
Proof.
  intros T. induction T as [|p b ps T IH]; intros G S; [reflexivity|]. inversion G as [|? ? Gp Gs]; subst. cbn [filter]. unfold filled_part at 1. destruct (Z.ltb_spec 0 (sr_length p)) as [L|L].
  - exfalso. exact (good_stop p Gp L S).
  - apply IH; [exact Gs|]. pose proof Gp as (_ & _ & _ & _ & Q & _). replace (sr_origin p + sr_length p) with (sr_origin p) by lia. exact S.
Qed.
Lemma tiles_first a b ps : tiles a b ps -> Forall good ps -> stops b -> (stops a /\ filter filled_part ps = []) \/
  exists p rest, sr_origin p = a /\ 0 < sr_length p /\ good p /\ filter filled_part ps = p :: filter filled_part rest /\ tiles (a + sr_length p) b rest /\ Forall good rest /\ (length rest < length ps)%nat.
Proof.
  intros T. induction T as [a|p b ps T IH]; intros G S; [now left|]. inversion G as [|? ? Gp Gs]; subst. cbn [filter]. destruct (filled_part p) eqn:L; [apply Z.ltb_lt in L|apply Z.ltb_ge in L].
  - right. exists p, ps. cbn [length]. repeat (split; [first [reflexivity|assumption]|]). lia.
  - assert (Z0 : sr_length p = 0) by (pose proof Gp as (_ & _ & _ & _ & Q & _); lia). rewrite Z0, Z.add_0_r in *. destruct (IH Gs S) as [H|(q & rest & H1 & H2 & H3 & H4 & H5 & H6 & H7)]; [now left|right].
    exists q, rest. cbn [length]. repeat (split; [first [reflexivity|assumption]|]). lia.
Qed.
Lemma tiles_same n : forall a b b' ps ps', (length ps < n)%nat -> tiles a b ps -> tiles a b' ps' -> Forall good ps -> Forall good ps' -> stops b -> stops b' -> filter filled_part ps = filter filled_part ps'.
Proof.
  induction n as [|n IH]; intros a b b' ps ps' Ln T T' G G' S S'; [lia|].
  destruct (tiles_first a b ps T G S) as [(H & ->)|(p & rest & P1 & P2 & P3 & -> & P5 & P6 & P7)]; [symmetry; exact (tiles_empty a b' ps' T' G' H)|].
  destruct (tiles_first a b' ps' T' G' S') as [(H & _)|(q & rest' & Q1 & Q2 & Q3 & -> & Q5 & Q6 & Q7)]; [exfalso; rewrite <- P1 in H; exact (good_stop p P3 P2 H)|].
  rewrite (good_same p q P3 Q3 P2 Q2) in * by congruence. f_equal. apply (IH (a + sr_length q) b b'); try assumption. lia.
Qed.
Lemma parts_same ps ps' : region_parts types r ps -> region_parts types r ps' -> filter filled_part ps = filter filled_part ps'.
Proof. intros (b & T & G & St) (b' & T' & G' & St'). exact (tiles_same (S (length ps)) _ b b' ps ps' (Nat.lt_succ_diag_r _) T T' G G' St St'). Qed.
End Parts.
Lemma groups_same types rs gs gs' : windows_separate types -> Forall2 (region_parts types) rs gs -> Forall2 (region_parts types) rs gs' -> filter filled_part (concat gs) = filter filled_part (concat gs').
Proof.
  intros Ws F. revert gs'. induction F as [|r ps rs gs P F IH]; intros gs' F'; inversion F' as [|? ps' ? ? P' F'']; subst; [reflexivity|]. cbn [concat]. rewrite !filter_app. f_equal; [exact (parts_same types r Ws ps ps' P P')|exact (IH _ F'')].
Qed.
Lemma groups_nonneg types rs gs : Forall2 (region_parts types) rs gs -> Forall (fun p => 0 <= sr_length p) (concat gs).
Proof.
  intros F. induction F as [|r ps rs gs (b & _ & G & _) F IH]; [constructor|]. cbn [concat]. apply Forall_app. split; [|exact IH]. eapply Forall_impl; [|exact G]. cbn. tauto.
Qed.
Lemma size_filled t l : Forall (fun p => 0 <= sr_length p) l -> type_size t l = type_size t (filter filled_part l).
Proof.
  induction l as [|p l IH] using rev_ind; intros F; [reflexivity|]. apply Forall_app in F. destruct F as (F & Fp). inversion Fp as [|? ? Lp _]; subst.
  rewrite filter_app, type_size_snoc, (IH F). cbn [filter]. destruct (filled_part p) eqn:L; [apply Z.ltb_lt in L|apply Z.ltb_ge in L].
  - rewrite type_size_snoc. f_equal. replace (existsb (fun b => mirrors b p) (filter filled_part l)) with (existsb (fun b => mirrors b p) l); [reflexivity|].
    clear - L. induction l as [|b l IH]; [reflexivity|]. cbn [existsb filter]. destruct (filled_part b) eqn:Lb; [apply Z.ltb_lt in Lb|apply Z.ltb_ge in Lb]; cbn [existsb]; rewrite IH; [reflexivity|].
    unfold mirrors at 1. destruct (Z.eqb_spec (sr_length b) (sr_length p)); [lia|]. now rewrite andb_false_r.
  - rewrite app_nil_r. replace (sr_length p) with 0 by lia. destruct (_ && _); lia.
Qed.
Lemma size_unique types rs gs gs' t : windows_separate types -> Forall2 (region_parts types) rs gs -> Forall2 (region_parts types) rs gs' -> type_size t (concat gs) = type_size t (concat gs').
Proof. intros Ws F F'. rewrite (size_filled t (concat gs)), (size_filled t (concat gs')) by (eapply groups_nonneg; eassumption). f_equal. exact (groups_same types rs gs gs' Ws F F'). Qed.

(** ** sizes of memory types *)
Lemma flash_dec T : flash_name T \/ ~ flash_name T.
Proof. rewrite <- flash_spec. destruct (is_flash T); [now left|right; discriminate]. Qed.
Lemma shown_unique a b parts parts' T n n' : a_use_flash_size a = a_use_flash_size b -> type_size T parts = type_size T parts' -> size_shown a parts T n -> size_shown b parts' T n' -> n = n'.
Proof.
  intros Ef Es (A1 & A2) (B1 & B2). rewrite <- Ef in B1, B2. rewrite <- Es in B2. destruct (a_use_flash_size a); [rewrite A2, B2 by (intros (X & _); discriminate X); reflexivity|].
  destruct (flash_dec T) as [F|F]; [rewrite A1, B1 by (now split); reflexivity|rewrite A2, B2 by tauto; reflexivity].
Qed.
Lemma name_dec types T : (exists c, In c types /\ ct_name c = T) \/ ~ exists c, In c types /\ ct_name c = T.
Proof.
  destruct (existsb (fun c => ct_name c =?= T) types) eqn:E.
  - left. apply existsb_exists in E. destruct E as (c & I & E). exists c. split; [exact I|now apply keq_iff].
  - right. intros (c & I & Ec). assert (X : existsb (fun c => ct_name c =?= T) types = true) by (apply existsb_exists; exists c; split; [exact I|now apply keq_iff]). congruence.
Qed.
Lemma type_dec a T q : lists_type a T q \/ ~ lists_type a T q.
Proof.
  unfold lists_type, listed_type. destruct (name_dec (ac_types q) T) as [N|N]; [|now right; intros (X & _)]. destruct (a_show_unused a) eqn:S; [left; split; [exact N|now left]|].
  destruct (used_value T q) as (n & U). destruct (Z.eq_dec n 0) as [E|E].
  - right. intros (_ & [X|(m & M & Nz)]); [discriminate|]. apply Nz. rewrite <- E. exact (used_unique T q m n M U).
  - left. split; [exact N|]. right. now exists n.
Qed.
Lemma total_unique a b T q n n' : windows_separate (ac_types q) -> a_use_flash_size a = a_use_flash_size b -> (lists_type a T q <-> lists_type b T q) ->
  total_bytes a T q n -> total_bytes b T q n' -> n = n'.
Proof.
  intros Ws Ef El (A1 & A2) (B1 & B2). destruct (type_dec a T q) as [L|L].
  - destruct (A1 L) as (gs & F & S), (B1 (proj1 El L)) as (gs' & F' & S'). exact (shown_unique a b _ _ T n n' Ef (size_unique _ _ gs gs' T Ws F F') S S').
  - rewrite (A2 L), (B2 (fun H => L (proj2 El H))). reflexivity.
Qed.
Lemma project_separate d a fn k : project_at d a fn k -> windows_separate (ac_types k).
Proof. intros (dir & name & text & crt & _ & B & _). destruct (bt_types _ _ _ _ _ _ _ _ _ B) as (t & _ & E). exact (proj1 (chips_ok _ _ E)). Qed.

(** ** runs *)
Definition totals_right (k : account) (r : option account) (a : args) (gs : list pgroup) : Prop :=
  Forall (fun g => total_bytes a (pg_type g) k (fst (pg_total g)) /\ (fst (pg_total g) <> 0 \/ a_use_flash_size a = true -> measured k r (total_bytes a (pg_type g)) (pg_total g))) gs.
Lemma sizes_shown d c k r o fs s render encode ord pf : summarised d c k r -> of_types (c_args c) -> a_format (c_args c) = FTable \/ a_format (c_args c) = FText \/ a_format (c_args c) = FCsv ->
  run_files d (get_memory_types chip_info) render encode ord pf c o (start fs) = (Done tt, s) ->
  exists gs, shows_usage (c_args c) s gs /\ groups_right (a_unify (c_args c)) k r (c_args c) gs /\ totals_right k r (c_args c) gs.
Proof.
  intros (P & Q & V) Ty Fo Rn. destruct (a_unify (c_args c)) eqn:U.
  - destruct (merged_usage d c k r o fs s render encode ord pf) as (tb & i & gs & rows & H1 & H2 & H3 & H4 & H5 & H6 & H7 & _); [now split|assumption..|]. exists gs. split; [|split].
    + exists tb, rows. rewrite U. do 5 (split; [assumption|]). eapply Forall_impl; [|exact H7]. intros g [_ _ _ D _]. exact D.
    + split; [exact H5|]. split; [exact H6|]. eapply Forall_impl; [|exact H7]. intros g [A1 _ _ A4 A5]. split; [exact A1|]. now split.
    + eapply Forall_impl; [|exact H7]. intros g [_ A2 A3 _ _]. now split.
  - destruct (usage_report d c k r o fs s render encode ord pf) as (tb & i & gs & rows & H1 & H2 & H3 & H4 & H5 & H6 & H7 & _); [now split|assumption..|]. exists gs. split; [|split].
    + exists tb, rows. rewrite U. do 5 (split; [assumption|]). eapply Forall_impl; [|exact H7]. intros g [_ _ _ D _]. exact D.
    + split; [exact H5|]. split; [exact H6|]. eapply Forall_impl; [|exact H7]. intros g [A1 _ _ A4 A5]. split; [exact A1|]. now split.
    + eapply Forall_impl; [|exact H7]. intros g [_ A2 A3 _ _]. now split.
Qed.
(** the size of a summary without reference *)
Lemma alone_size u k a gs T v : groups_right u k None a gs -> totals_right k None a gs -> given (a_diff a) = false -> size_in gs T v -> total_bytes a T k (fst v).
Proof.
  intros R Tr G [(g & I & <- & ->)|(N & ->)].
  - unfold totals_right in Tr. rewrite Forall_forall in Tr. exact (proj1 (Tr g I)).
  - rewrite (alone_types u k a gs R G) in N. split; [intros L; contradiction|reflexivity].
Qed.
Lemma sizes_compared_right u k r a b new old both : windows_separate (ac_types k) -> windows_separate (ac_types r) -> a_use_flash_size a = a_use_flash_size b -> (forall T q, lists_type a T q <-> lists_type b T q) ->
  given (a_diff a) = false -> groups_right u k None a new -> groups_right u r None a old -> totals_right k None a new -> totals_right r None a old -> totals_right k (Some r) b both -> compares_sizes b new old both.
Proof.
  intros Wk Wr Ef El Ga Gn Go Tn To Tb g v w Ig V W. pose proof (alone_size u k a new _ v Gn Tn Ga V) as A. pose proof (alone_size u r a old _ w Go To Ga W) as B.
  unfold totals_right in Tb. rewrite Forall_forall in Tb. destruct (Tb g Ig) as (T1 & T2).
  assert (E : fst (pg_total g) = fst v) by (symmetry; exact (total_unique a b _ k _ _ Wk Ef (El _ _) A T1)). split; [exact E|]. intros H. rewrite <- E in H. destruct (T2 H) as (_ & n & N & En).
  rewrite En, E. f_equal. symmetry. exact (total_unique a b _ r _ _ Wr Ef (El _ _) B N).
Qed.
Section Runs.
Variables (d : disk) (c : cmd) (render : console -> list piece -> str) (encode : str -> str) (ord : set_order) (pf : pct_format).
Hypothesis Ty : of_types (c_args c).
Hypothesis Fo : a_format (c_args c) = FTable \/ a_format (c_args c) = FText \/ a_format (c_args c) = FCsv.
Lemma sizes_compared x y k r o o' o2 fs fs' fs2 s s' s2 : summarised d (comparing c x y) k (Some r) ->
  run_files d (get_memory_types chip_info) render encode ord pf (reporting c x) o (start fs) = (Done tt, s) ->
  run_files d (get_memory_types chip_info) render encode ord pf (reporting c y) o' (start fs') = (Done tt, s') ->
  run_files d (get_memory_types chip_info) render encode ord pf (comparing c x y) o2 (start fs2) = (Done tt, s2) ->
  exists new old both, shows_usage (c_args (reporting c x)) s new /\ shows_usage (c_args (reporting c y)) s' old /\ shows_usage (c_args (comparing c x y)) s2 both /\
    compares_usage (c_args c) new old both /\ compares_sizes (c_args c) new old both.
Proof.
  intros Su R1 R2 R3. pose proof Su as (P & (fy & Ey & Q) & V). injection Ey as <-.
  destruct (sizes_shown d (reporting c x) k None o fs s render encode ord pf) as (new & N1 & N2 & N3); [split; [exact P|split; [reflexivity|exact V]]|exact Ty|exact Fo|exact R1|].
  destruct (sizes_shown d (reporting c y) r None o' fs' s' render encode ord pf) as (old & O1 & O2 & O3); [split; [exact Q|split; [reflexivity|exact V]]|exact Ty|exact Fo|exact R2|].
  destruct (sizes_shown d (comparing c x y) k (Some r) o2 fs2 s2 render encode ord pf) as (both & B1 & B2 & B3); [exact Su|exact Ty|exact Fo|exact R3|].
  exists new, old, both. do 3 (split; [assumption|]). split.
  - change (compares_usage (c_args (comparing c x y)) new old both).
    refine (usage_compares (a_unify (c_args c)) k r (c_args (reporting c x)) (c_args (comparing c x y)) new old both (fun T q => conj (fun H => H) (fun H => H)) eq_refl _ N2 O2 B2).
    exact (project_given _ _ _ _ Q).
  - change (compares_sizes (c_args (comparing c x y)) new old both).
    exact (sizes_compared_right (a_unify (c_args c)) k r (c_args (reporting c x)) (c_args (comparing c x y)) new old both (project_separate _ _ _ _ P) (project_separate _ _ _ _ Q) eq_refl
      (fun T q => conj (fun H => H) (fun H => H)) eq_refl N2 O2 N3 O3 B3).
Qed.
End Runs.
Lemma sizes_form d c c' k r o o' fs fs' s s' render encode ord pf :
  summarised d c k r -> other_form c c' -> a_use_flash_size (c_args c') = a_use_flash_size (c_args c) -> of_types (c_args c) ->
  a_format (c_args c) = FTable \/ a_format (c_args c) = FText \/ a_format (c_args c) = FCsv -> a_format (c_args c') = FJson2 ->
  run_files d (get_memory_types chip_info) render encode ord pf c o (start fs) = (Done tt, s) ->
  run_files d (get_memory_types chip_info) render encode ord pf c' o' (start fs') = (Done tt, s') ->
  exists gs js, shows_usage (c_args c) s gs /\ s_printed s' = [PJson js] /\ same_summary (c_args c') gs js /\ same_sizes gs js.
Proof.
  intros Su Of Ef Ty Fo Fj R R'. pose proof Su as (P & Q & D).
  destruct (sizes_shown d c k r o fs s render encode ord pf Su Ty Fo R) as (gs & S1 & G & Tr).
  pose proof Of as (E1 & E2 & E3 & E4 & E5 & E6 & E7 & E8 & E9 & E10).
  assert (P' : project_at d (c_args c') (c_input c') k) by (rewrite E1; exact (project_form d c c' _ _ Of P)).
  assert (Q' : reference d (c_args c') r). { destruct r as [q|]; cbn [reference] in *; [|now rewrite E6]. destruct Q as (fn & X & Y). exists fn. rewrite E6. split; [exact X|exact (project_form d c c' _ _ Of Y)]. }
  assert (D' : a_archive_dependencies (c_args c') = false) by congruence.
  destruct (layout_printed d c' k r o' fs' s' render encode ord pf) as (js & S2 & L); [|destruct Ty as (T1 & T2 & T3 & T4); repeat split; congruence|exact Fj|exact R'|].
  - destruct (a_unify (c_args c')) eqn:U; [right|left]; (split; [exact P'|]; split; [exact Q'|]; now split).
  - exists gs, js. split; [exact S1|]. split; [exact S2|]. split; [exact (summary_same k r (c_args c) (c_args c') gs js G L E7 E8 E6 E9)|].
    intros g j Ig Ij En. unfold totals_right in Tr. rewrite Forall_forall in Tr. pose proof (lr_type _ _ _ _ L) as F. rewrite Forall_forall in F. pose proof (jt_total _ _ _ _ (F j Ij)) as J. rewrite En in J.
    refine (total_unique (c_args c') (c_args c) (pg_type g) k _ _ (project_separate _ _ _ _ P) Ef _ J (proj1 (Tr g Ig))). unfold lists_type, listed_type. now rewrite E8.
Qed.
