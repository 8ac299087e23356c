(** * The summary and the reports on archives and object files *)
From Coq Require Import Ascii String List ZArith Lia Bool Permutation Sorted.
From Verif Require Import Base MemMap SpecTree SpecOps Filter SpecFilter Pipeline SpecPipe SpecBuild SpecBytes SpecShape SpecSyms PyStr MapFile SpecMap ProofBuild ProofBytes ProofBytes2 ProofBytes3
  ElfRead SpecElf Project SpecProject SpecEnd ProofEnd Chips SpecChips Deps Table SpecTable Formats Main SpecMain Command SpecCommand SpecFail SpecReport ProofCommand1 ProofCommand2 ProofReport2 ProofReport4 ProofReport5 ProofReport6
  SpecAdds ProofAdds SpecSteps ProofSteps SpecCompare SpecMerge ProofMerge2 ProofMerge4 SpecGroup ProofGroup SpecCompareUsage ProofCompareUsage ProofCompareUsage2 SpecMakeUp.
Import ListNotations.
Open Scope list_scope.
Open Scope Z_scope.

(** ** counting *)
Lemma bytes_same_in P Q a n : (forall x, a <= x < a + n -> P x = Q x) -> bytes_with P a n = bytes_with Q a n.
Proof.
  unfold bytes_with. intros H. assert (G : forall m a', (forall x, a' <= x < a' + Z.of_nat m -> P x = Q x) -> count P a' m = count Q a' m).
  { induction m as [|m IH]; intros a' X; cbn [count]; [reflexivity|]. rewrite (X a') by lia. rewrite IH by (intros x I; apply X; lia). reflexivity. }
  apply G. intros x I. apply H. lia.
Qed.
Lemma bytes_both P Q a n : bytes_with P a n = bytes_with (fun x => P x && Q x) a n + bytes_with (fun x => P x && negb (Q x)) a n.
Proof.
  unfold bytes_with. generalize (Z.to_nat n). intros m. revert a. induction m as [|m IH]; intros a; cbn [count]; [reflexivity|]. rewrite (IH (a + 1)). destruct (P a), (Q a); cbn [andb negb]; lia.
Qed.
Lemma bytes_window P a n a' n' : a <= a' -> a' + n' <= a + n -> (forall x, P x = true -> a' <= x < a' + n') -> bytes_with P a n = bytes_with P a' n'.
Proof.
  intros A B H. destruct (Z_le_gt_dec n' 0) as [N|N].
  - rewrite (bytes_none P a' n' N). destruct (Z_le_gt_dec n 0) as [M|M]; [now apply bytes_none|]. rewrite (bytes_const P false); [reflexivity|lia|]. intros x _. destruct (P x) eqn:E; [|reflexivity]. apply H in E. lia.
  - replace n with ((a' - a) + (n' + (a + n - a' - n'))) by lia. rewrite !ProofBytes.bytes_app by lia. replace (a + (a' - a)) with a' by lia.
    rewrite (bytes_const P false a), (bytes_const P false (a' + n')); [lia|lia| |lia|]; intros x I; destruct (P x) eqn:E; try reflexivity; apply H in E; lia.
Qed.
Definition in_itemb (i : item) (x : Z) : bool := (it_addr i <=? x) && (x <? it_addr i + it_size i).
Lemma in_itemb_ok i x : in_itemb i x = true <-> in_item i x.
Proof. unfold in_itemb, in_item. rewrite andb_true_iff, Z.leb_le, Z.ltb_lt. reflexivity. Qed.
Definition restb (b : Z -> bool) (l : list item) (x : Z) : bool := b x && negb (existsb (fun i => in_itemb i x) l).
Lemma restb_ok b l x : restb b l x = true <-> b x = true /\ forall i, In i l -> ~ in_item i x.
Proof.
  unfold restb. rewrite andb_true_iff, negb_true_iff. split.
  - intros (B & E). split; [exact B|]. intros i I X. apply in_itemb_ok in X. assert (C : existsb (fun i => in_itemb i x) l = true) by (apply existsb_exists; now exists i). congruence.
  - intros (B & H). split; [exact B|]. destruct (existsb (fun i => in_itemb i x) l) eqn:E; [|reflexivity]. apply existsb_exists in E. destruct E as (i & I & X). apply in_itemb_ok in X. now destruct (H i I).
Qed.
Lemma split_bytes b a n l : apart l -> Forall (fun i => a <= it_addr i /\ it_addr i + it_size i <= a + n) l ->
  bytes_with b a n = zsumf (fun i => bytes_with b (it_addr i) (it_size i)) l + bytes_with (restb b l) a n.
Proof.
  intros Ap. induction Ap as [|i l Hd Ap IH]; intros F.
  - rewrite zsumf_nil, Z.add_0_l. apply bytes_ext. intros x. unfold restb. cbn [existsb negb]. now rewrite andb_true_r.
  - inversion F as [|? ? (F1 & F2) F3]; subst. rewrite zsumf_cons, (IH F3). rewrite (bytes_both (restb b l) (in_itemb i)).
    rewrite (bytes_window (fun x => restb b l x && in_itemb i x) a n (it_addr i) (it_size i) F1 F2) by (intros x X; apply andb_true_iff in X; apply in_itemb_ok, X).
    rewrite (bytes_same_in (fun x => restb b l x && in_itemb i x) b).
    + rewrite (bytes_ext (fun x => restb b l x && negb (in_itemb i x)) (restb b (i :: l))); [lia|]. intros x. unfold restb. cbn [existsb]. destruct (b x), (in_itemb i x); cbn; [rewrite andb_false_r|rewrite andb_true_r| |]; reflexivity.
    + intros x X. assert (X' : in_itemb i x = true) by (apply in_itemb_ok, X). rewrite X', andb_true_r. unfold restb.
      assert (E : existsb (fun j => in_itemb j x) l = false); [|now rewrite E, andb_true_r]. destruct (existsb (fun j => in_itemb j x) l) eqn:E; [|reflexivity]. apply existsb_exists in E. destruct E as (j & J & Y). apply in_itemb_ok in Y.
      rewrite Forall_forall in Hd. exfalso. apply (Hd j J x). now split.
Qed.

(** ** the bytes of one project *)
Definition every (_ : item) : bool := true.
Lemma all_items (l : list item) : filter every l = l.
Proof. induction l as [|i l IH]; [reflexivity|]. cbn. now f_equal. Qed.
Lemma zsumf_both {A} (f g h : A -> Z) l : (forall x, In x l -> f x = g x + h x) -> zsumf f l = zsumf g l + zsumf h l.
Proof. induction l as [|x l IH]; intros H; [reflexivity|]. rewrite !zsumf_cons, (H x (or_introl eq_refl)), IH; [lia|]. intros y I. apply H. now right. Qed.
Lemma type_made k T n : sound k -> separate k -> used_bytes T k n -> exists m w, own_bytes every (ColType T) k m /\ between_bytes T k w /\ 0 <= w /\ n = m + w.
Proof.
  intros Sk Sp (keep & b & K & B & ->). do 2 eexists. split; [exists keep, b; split; [exact K|]; split; [exact B|reflexivity]|].
  split; [exists keep, (fun o => restb (b o) (pr_items o)); split; [exact K|]; split; [intros o x; unfold between; rewrite restb_ok, B; reflexivity|reflexivity]|]. split.
  - apply zsumf_nonneg. intros o _. apply bytes_nonneg.
  - apply zsumf_both. intros o I. apply filter_In in I. destruct I as (Io & Ko). apply K in Ko. rewrite all_items. apply split_bytes; [now apply Sp|]. now apply Sk.
Qed.
Lemma name_made k T N n : sound k -> separate k -> name_bytes T N k n -> exists m w, own_bytes every (ColSect T N) k m /\ between_in T N k w /\ 0 <= w /\ n = m + w.
Proof.
  intros Sk Sp (keep & b & K & B & E). destruct (goes_decided (ac_types k)) as (d & D).
  do 2 eexists. split; [exists keep, b; split; [exact K|]; split; [exact B|reflexivity]|].
  split; [exists keep, (fun o => restb (fun x => d (pr_name o) x T) (pr_items o)); split; [exact K|]; split; [intros o x; unfold between; rewrite restb_ok, D; reflexivity|reflexivity]|]. split.
  - apply zsumf_nonneg. intros o _. apply bytes_nonneg.
  - rewrite E. apply zsumf_both. intros o I. apply filter_In in I. destruct I as (Io & Ko). apply K in Ko. destruct Ko as (Ko & En). rewrite all_items, (split_bytes b _ _ (pr_items o)); [|now apply Sp|now apply Sk]. f_equal.
    apply bytes_ext. intros x. unfold restb. f_equal. apply ProofAdds.same_bool. now rewrite B, D, En.
Qed.

(** ** the rows of a report together *)
(** the input sections by the name of their row *)
Section Keyed.
Variables (k : account) (r : option account) (key : item -> str) (grp : item -> bool).
Lemma keyed_measured ns c v : measured k r (own_bytes grp c) v -> NoDup ns -> (forall i, present k r (places i) -> grp i = true -> In (key i) ns) ->
  exists f, (forall m, measured k r (own_bytes (within key grp m) c) (f m)) /\ v = (zsumf (fun m => fst (f m)) ns, zsumf (fun m => snd (f m)) ns).
Proof.
  intros (A & B) N P. destruct (grp_split key grp _ _ _ _ A N (fun i I => P i (or_introl I))) as (f & Hf & Ef). destruct v as (v1 & v2). cbn [fst snd] in *. destruct r as [k'|].
  - destruct B as (n' & A' & ->). destruct (grp_split key grp _ _ _ _ A' N (fun i I => P i (or_intror I))) as (g & Hg & Eg).
    exists (fun o => (f o, f o - g o)). cbn [fst snd]. split; [intros o; split; [apply Hf|exists (g o); split; [apply Hg|reflexivity]]|]. rewrite zsumf_minus. now subst.
  - exists (fun o => (f o, 0)). cbn [fst snd]. split; [intros o; split; [apply Hf|reflexivity]|]. rewrite (zsumf_zero (fun _ => 0)) by reflexivity. now subst.
Qed.
Lemma keyed_all o v : measured k r (own_bytes o ColTotal) v -> exists ns, NoDup ns /\ forall m, In m ns <-> exists i, present k r (places i) /\ grp i = true /\ key i = m.
Proof.
  intros (A & B). destruct (keys_of key grp k (ex_intro _ _ (ex_intro _ _ A))) as (ns & H).
  assert (exists ns', forall m, In m ns' <-> exists i, match r with None => False | Some k' => places i k' end /\ grp i = true /\ key i = m) as (ns' & H').
  { destruct r as [k'|]; [|exists []; intros m; split; [intros []|intros (i & [] & _)]]. destruct B as (n' & A' & _). exact (keys_of key grp k' (ex_intro _ _ (ex_intro _ _ A'))). }
  exists (nodup (list_eq_dec ascii_dec) (ns ++ ns')). split; [apply NoDup_nodup|]. intros m. rewrite nodup_In, in_app_iff, H, H'. unfold present. split.
  - intros [(i & P & Q)|(i & P & Q)]; exists i; tauto.
  - intros (i & [P|P] & Q); [left|right]; exists i; tauto.
Qed.
End Keyed.
Section Rows.
Variables (files : bool) (k : account) (r : option account) (a : args) (rows : dict str sentry).
Hypothesis Rr : entries_right files k r a rows.
Hypothesis Tf : tells_files files k r.
Hypothesis Sa : shows_all a.
Lemma own_key i j : present k r (places i) -> present k r (places j) -> row_own files i j = (row_key files j =?= row_key files i).
Proof.
  intros Pi Pj. apply ProofAdds.same_bool. destruct files; cbn [row_own row_key].
  - unfold of_object. rewrite andb_true_iff, !keq_iff. split; [intros (E1 & E2); congruence|]. intros E. exact (last_unique _ _ _ _ _ E (Tf eq_refl j Pj) (Tf eq_refl i Pi)).
  - unfold of_archive. rewrite !keq_iff. reflexivity.
Qed.
Lemma rows_listed c v : listed k r a c -> measured k r (own_bytes every c) v -> v = column_sum rows c.
Proof.
  intros Li Mv. destruct Rr as (Once & Keys & Rows).
  assert (Mw : exists w, measured k r (own_bytes every ColTotal) w).
  { destruct (own_value every ColTotal k) as (x & X). destruct r as [q|]; [destruct (own_value every ColTotal q) as (y & Y); exists (x, x - y); split; [exact X|now exists y]|exists (x, 0); now split]. }
  destruct Mw as (w & Mw). destruct (keyed_all k r (row_key files) every _ w Mw) as (ns & No & Os).
  destruct (keyed_measured k r (row_key files) every ns c v Mv No) as (f & Mf & ->). { intros i P E. apply Os. exists i. tauto. }
  destruct (keyed_measured k r (row_key files) every ns ColTotal w Mw No) as (g & Mg & _). { intros i P E. apply Os. exists i. tauto. }
  assert (Wi : forall i, present k r (places i) -> forall j, present k r (places j) -> within (row_key files) every (row_key files i) j = row_own files i j) by (intros i P j Pj; now rewrite (own_key i j P Pj)).
  assert (Row : forall n e, In (n, e) rows -> In n ns /\ col_value e c = f n).
  { intros n e I. destruct (Rows n e I) as (i & P & En & _ & Er). split; [apply Os; exists i; split; [exact P|]; split; [reflexivity|now symmetry]|].
    subst n. eapply measured_same; [|apply Mf]. apply (measured_own (row_own files i)); [intros j Pj; symmetry; now apply Wi|]. apply (proj1 (row_value _ _ _ _ _ c Er)), Li. }
  assert (Nk : forall n, In n ns -> ~ In n (map fst rows) -> False).
  { intros n I Ni. apply Ni. apply Os in I. destruct I as (i & P & _ & <-). apply Keys. exists i, (g (row_key files i)). split; [exact P|]. split; [reflexivity|]. split; [|now apply all_differs].
    apply (measured_own (within (row_key files) every (row_key files i))); [now apply Wi|apply Mg]. }
  unfold column_sum. f_equal; apply zsumf_rows; try assumption; try (intros n e I; destruct (Row n e I) as (J & E); cbn [snd]; rewrite E; now split); intros n I Ni; destruct (Nk n I Ni).
Qed.
Hypothesis (Sk : sound k) (Sr : match r with None => True | Some q => sound q end).
Lemma rows_together c v : c <> ColTotal -> measured k r (own_bytes every c) v -> v = column_sum rows c.
Proof.
  intros Nt Mv. destruct (Z.eq_dec (fst v) 0) as [E|E]; [destruct (Z.eq_dec (snd v) 0) as [F|F]|].
  - destruct Rr as (_ & _ & Rows). destruct rows as [|(n & e) l] eqn:Er; [destruct v; cbn in *; subst; reflexivity|]. destruct (Rows n e (or_introl eq_refl)) as (i & _ & _ & _ & Ei).
    destruct (listed_dec _ _ _ _ _ c Ei) as [L|L]; [rewrite <- Er in *; now apply rows_listed|]. destruct v as (p, q). cbn [fst snd] in *. subst p q. unfold column_sum.
    f_equal; symmetry; apply zsumf_zero; intros (m & e') J; destruct (Rows m e' J) as (j & _ & _ & _ & Ej); cbn [snd]; now rewrite (proj2 (row_value _ _ _ _ _ c Ej) L).
  - apply rows_listed; [|exact Mv]. destruct Mv as (M1 & M2). destruct r as [q|]; [|contradiction]. destruct M2 as (y & M2 & E2). assert (Y : y <> 0) by lia. destruct (own_nonzero _ _ _ _ a Sr M2 Y) as (L & _).
    destruct c as [|T|T N]; [contradiction|right; exact L|destruct L; split; right; assumption].
  - apply rows_listed; [|exact Mv]. destruct Mv as (M1 & M2). destruct (own_nonzero _ _ _ _ a Sk M1 E) as (L & _). destruct c as [|T|T N]; [contradiction|left; exact L|destruct L; split; left; assumption].
Qed.
End Rows.

(** ** the summary *)
Section Summary.
Variables (k : account) (r : option account) (a : args) (gs : list pgroup).
Hypothesis Rg : groups_right false k r a gs.
Hypothesis Sa : shows_all a.
Lemma used_measured T v : used_in gs T v -> measured k r (used_bytes T) v.
Proof.
  intros V. destruct (used_case false k r a gs Rg T v V) as [(_ & M)|(Ni & ->)]; [exact M|].
  assert (Z0 : forall q n, present k r (eq q) -> used_bytes T q n -> n = 0).
  { intros q n P U. destruct (Z.eq_dec n 0) as [E|E]; [exact E|]. exfalso. apply Ni. apply Rg. split.
    - pose proof (used_nonzero a T q n U E) as L. destruct P as [<-|P]; [now left|]. destruct r; [subst; now right|contradiction].
    - destruct (used_value T k) as (x & X). destruct r as [q'|]; [destruct (used_value T q') as (y & Y); exists (x, x - y); split; [split; [exact X|now exists y]|now apply all_differs]|exists (x, 0); split; [now split|now apply all_differs]]. }
  destruct (used_value T k) as (x & X). pose proof (Z0 k x (or_introl eq_refl) X) as ->. split; [exact X|]. destruct r as [q'|]; [|reflexivity]. destruct (used_value T q') as (y & Y). pose proof (Z0 q' y (or_intror eq_refl) Y) as ->. now exists 0.
Qed.
Lemma section_measured T N v : section_in gs T N v -> measured k r (name_bytes T N) v.
Proof.
  intros V. destruct (section_case false k r a gs Rg T N v V) as [(_ & M)|(Ni & ->)]; [exact M|].
  assert (Z0 : forall q n, present k r (eq q) -> name_bytes T N q n -> n = 0).
  { intros q n P U. destruct (Z.eq_dec n 0) as [E|E]; [exact E|]. exfalso. apply Ni. apply (section_has false k r a gs Rg). destruct (sect_nonzero a false T N q n U E) as (L & Lt). split; [|split].
    - apply Rg. split; [destruct P as [<-|P]; [now left|]; destruct r; [subst; now right|contradiction]|].
      destruct (used_value T k) as (x & X). destruct r as [q'|]; [destruct (used_value T q') as (y & Y); exists (x, x - y); split; [split; [exact X|now exists y]|now apply all_differs]|exists (x, 0); split; [now split|now apply all_differs]].
    - destruct P as [<-|P]; [now left|]. destruct r; [subst; now right|contradiction].
    - destruct (sect_value false T N k) as (x & X). destruct r as [q'|]; [destruct (sect_value false T N q') as (y & Y); exists (x, x - y); split; [split; [exact X|now exists y]|now apply all_differs]|exists (x, 0); split; [now split|now apply all_differs]]. }
  destruct (sect_value false T N k) as (x & X). pose proof (Z0 k x (or_introl eq_refl) X) as ->. split; [exact X|]. destruct r as [q'|]; [|reflexivity]. destruct (sect_value false T N q') as (y & Y). pose proof (Z0 q' y (or_intror eq_refl) Y) as ->. now exists 0.
Qed.
End Summary.
Lemma made_up k r (f g h : account -> Z -> Prop) v : (forall q n, present k r (eq q) -> f q n -> exists m w, g q m /\ h q w /\ 0 <= w /\ n = m + w) -> measured k r f v ->
  exists u w, measured k r g u /\ measured k r h w /\ 0 <= fst w /\ v = (fst u + fst w, snd u + snd w).
Proof.
  intros H (M1 & M2). destruct v as (p, q). cbn [fst snd] in *. destruct (H k p (or_introl eq_refl) M1) as (m & w & G & Hw & W0 & E). destruct r as [k'|].
  - destruct M2 as (y & M2 & ->). destruct (H k' y (or_intror eq_refl) M2) as (m' & w' & G' & Hw' & _ & E'). exists (m, m - m'), (w, w - w'). split; [split; [exact G|now exists m']|]. split; [split; [exact Hw|now exists w']|]. split; [exact W0|]. cbn [fst snd]. f_equal; lia.
  - exists (m, 0), (w, 0). split; [now split|]. split; [now split|]. split; [exact W0|]. cbn [fst snd]. f_equal; lia.
Qed.
Lemma whole_accounts files k r a b gs rows : groups_right false k r a gs -> entries_right files k r b rows -> tells_files files k r -> shows_all a -> shows_all b ->
  sound k -> match r with None => True | Some q => sound q end -> separate k -> match r with None => True | Some q => separate q end -> accounts_for k r gs rows.
Proof.
  intros Rg Rr Tf Sa Sb Sk Sr Pk Pr.
  assert (Both : forall q, present k r (eq q) -> sound q /\ separate q) by (intros q [<-|P]; [now split|]; destruct r; [subst; now split|contradiction]).
  split.
  - intros T v V. apply (used_measured k r a gs Rg Sa) in V. destruct (made_up k r (used_bytes T) (own_bytes every (ColType T)) (between_bytes T) v) with (2 := V) as (u & w & U & W & W0 & E).
    + intros q n P M. destruct (Both q P). now apply type_made.
    + exists w. split; [exact W|]. split; [exact W0|]. rewrite <- (rows_together files k r b rows Rr Tf Sb Sk Sr (ColType T) u); [exact E|discriminate|exact U].
  - intros T N v V. apply (section_measured k r a gs Rg Sa) in V. destruct (made_up k r (name_bytes T N) (own_bytes every (ColSect T N)) (between_in T N) v) with (2 := V) as (u & w & U & W & W0 & E).
    + intros q n P M. destruct (Both q P). now apply name_made.
    + exists w. split; [exact W|]. split; [exact W0|]. rewrite <- (rows_together files k r b rows Rr Tf Sb Sk Sr (ColSect T N) u); [exact E|discriminate|exact U].
Qed.
Lemma summarised_on files d c k r : reported d (json_report files c) k r -> summarised d c k r.
Proof.
  assert (W : forall dir, without_dwarf d dir (c_args (json_report files c)) -> without_dwarf d dir (c_args c)).
  { intros dir. unfold without_dwarf. change (a_use_dwarf (c_args (json_report files c))) with (a_use_dwarf (c_args c)). destruct (a_use_dwarf (c_args c)) as [[|]|]; [|tauto|tauto]. destruct files; intros (A & B); discriminate. }
  assert (Pa : forall fn k, project_at d (c_args (json_report files c)) fn k -> project_at d (c_args c) fn k).
  { intros fn k0 (dir & name & text & crt & E & B & D & F). exists dir, name, text, crt. split; [exact E|]. split; [exact B|]. split; [now apply W|exact F]. }
  intros (P & Q & U & V). split; [apply Pa, P|]. split; [|assumption]. destruct r as [k'|]; [|exact Q]. destruct Q as (fn & E & Q). exists fn. split; [exact E|apply Pa, Q].
Qed.
Lemma summary_accounts files d c render encode ord pf : of_types (c_args c) -> a_format (c_args c) = FTable \/ a_format (c_args c) = FText \/ a_format (c_args c) = FCsv ->
  forall k r o o' fs fs' s s', reported d (json_report files c) k r -> separate k -> match r with None => True | Some q => separate q end -> tells_files files k r -> shows_all (c_args c) ->
  run_files d (get_memory_types chip_info) render encode ord pf c o (start fs) = (Done tt, s) ->
  run_files d (get_memory_types chip_info) render encode ord pf (json_report files c) o' (start fs') = (Done tt, s') ->
  exists gs rows, shows_usage (c_args c) s gs /\ s_printed s' = [PEntries rows] /\ accounts_for k r gs rows.
Proof.
  intros Ty Fo k r o o' fs fs' s s' Rp Sk Sr Tf Sa R R'. pose proof Rp as (P & Q & U & D).
  destruct (usage_shown d c k r o fs s render encode ord pf) as (gs & S1 & G); [exact (summarised_on files d c k r Rp)|exact Ty|exact Fo|exact R|]. change (a_unify (c_args c) = false) in U. rewrite U in G.
  destruct (entries_json d (json_report files c) k r o' files fs' s' render encode ord pf) as (rows & S2 & Rr & _); [exact Rp|destruct files; repeat split|discriminate|exact Tf|reflexivity|exact R'|].
  exists gs, rows. split; [exact S1|]. split; [exact S2|]. apply (whole_accounts files k r (c_args c) (c_args (json_report files c)) gs rows); try assumption.
  - exact (project_sound _ _ _ _ P).
  - destruct r as [q|]; [|exact Logic.I]. destruct Q as (fn & _ & Q). exact (project_sound _ _ _ _ Q).
Qed.
(** ** without bytes between the input sections *)
Lemma packed_type k T n : packed k -> between_bytes T k n -> n = 0.
Proof.
  intros P (keep & b & K & B & ->). apply zsumf_zero. intros o I. apply filter_In in I. destruct I as (Io & Ko). apply K in Ko. destruct (Z.eq_dec (bytes_with (b o) (pr_addr o) (pr_size o)) 0) as [E|E]; [exact E|]. exfalso.
  pose proof (bytes_nonneg (b o) (pr_addr o) (pr_size o)). destruct (bytes_some (b o) (pr_addr o) (pr_size o)) as (x & X & Bx); [lia|]. apply B in Bx. destruct (P o x Io Ko X) as (i & Ii & Xi). now apply (proj2 Bx i Ii).
Qed.
Lemma packed_name k T N n : packed k -> between_in T N k n -> n = 0.
Proof.
  intros P (keep & b & K & B & ->). apply zsumf_zero. intros o I. apply filter_In in I. destruct I as (Io & Ko). apply K in Ko. destruct Ko as (Ko & _). destruct (Z.eq_dec (bytes_with (b o) (pr_addr o) (pr_size o)) 0) as [E|E]; [exact E|]. exfalso.
  pose proof (bytes_nonneg (b o) (pr_addr o) (pr_size o)). destruct (bytes_some (b o) (pr_addr o) (pr_size o)) as (x & X & Bx); [lia|]. apply B in Bx. destruct (P o x Io Ko X) as (i & Ii & Xi). now apply (proj2 Bx i Ii).
Qed.
Lemma packed_sums k r gs rows : packed k -> match r with None => True | Some q => packed q end -> accounts_for k r gs rows -> equals_sums gs rows.
Proof.
  intros Pk Pr (A & B).
  assert (G : forall (f : account -> Z -> Prop) w, (forall q n, packed q -> f q n -> n = 0) -> measured k r f w -> w = (0, 0)).
  { intros f (p, q) H (M1 & M2). cbn [fst snd] in *. rewrite (H k p Pk M1) in *. f_equal. destruct r as [k'|]; [|exact M2]. destruct M2 as (y & M2 & ->). now rewrite (H k' y Pr M2). }
  split; [intros T v V; destruct (A T v V) as (w & M & _ & ->); apply G in M; [|intros q n; apply packed_type]|intros T N v V; destruct (B T N v V) as (w & M & _ & ->); apply G in M; [|intros q n; apply packed_name]];
    subst w; cbn [fst snd]; rewrite !Z.add_0_r; reflexivity.
Qed.
Lemma summary_sums files d c render encode ord pf : of_types (c_args c) -> a_format (c_args c) = FTable \/ a_format (c_args c) = FText \/ a_format (c_args c) = FCsv ->
  forall k r o o' fs fs' s s', reported d (json_report files c) k r -> separate k -> match r with None => True | Some q => separate q end -> tells_files files k r -> shows_all (c_args c) ->
  packed k -> match r with None => True | Some q => packed q end ->
  run_files d (get_memory_types chip_info) render encode ord pf c o (start fs) = (Done tt, s) ->
  run_files d (get_memory_types chip_info) render encode ord pf (json_report files c) o' (start fs') = (Done tt, s') ->
  exists gs rows, shows_usage (c_args c) s gs /\ s_printed s' = [PEntries rows] /\ equals_sums gs rows.
Proof.
  intros Ty Fo k r o o' fs fs' s s' Rp Sk Sr Tf Sa Pk Pr R R'. destruct (summary_accounts files d c render encode ord pf Ty Fo k r o o' fs fs' s s' Rp Sk Sr Tf Sa R R') as (gs & rows & S1 & S2 & H).
  exists gs, rows. split; [exact S1|]. split; [exact S2|]. exact (packed_sums k r gs rows Pk Pr H).
Qed.
