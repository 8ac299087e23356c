(** * Comparisons of summaries: the numbers *)
From Coq Require Import Ascii String List ZArith Lia Bool Permutation Sorted.
From Verif Require Import Base MemMap SpecTree SpecOps Filter SpecFilter Pipeline SpecPipe SpecBuild SpecBytes SpecShape SpecSyms PyStr MapFile SpecMap ProofBuild ProofBytes ProofBytes2 ProofBytes3
  ElfRead SpecElf Project SpecProject SpecEnd ProofEnd Chips SpecChips Deps Table SpecTable Formats Main SpecMain Command SpecCommand SpecFail SpecReport ProofCommand1 ProofCommand2 ProofReport2 ProofReport5
  SpecAdds ProofAdds SpecSteps ProofSteps SpecCompare SpecMerge ProofMerge2 SpecCompareUsage.
Import ListNotations.
Open Scope list_scope.
Open Scope Z_scope.

(** ** the bytes of an account *)
Lemma used_value T q : exists n, used_bytes T q n.
Proof.
  destruct (counted_decided (ac_im q)) as (keep & K). destruct (goes_decided (ac_types q)) as (d & D). eexists. exists keep, (fun o x => d (pr_name o) x T). split; [exact K|]. split; [intros; apply D|reflexivity].
Qed.
Lemma used_unique T q n n' : used_bytes T q n -> used_bytes T q n' -> n = n'.
Proof.
  intros (kp & b & K & B & ->) (kp' & b' & K' & B' & ->). rewrite (same_filter kp kp' (ac_l q)) by (intros o; apply ProofAdds.same_bool; rewrite K, K'; reflexivity).
  apply zsumf_ext. intros o _. apply bytes_ext. intros x. apply ProofAdds.same_bool. rewrite B, B'. reflexivity.
Qed.
Section Place.
Variables (a : args) (T : str) (q : account) (o : printed) (b : Z -> bool).
Hypothesis (Io : In o (ac_l q)) (Co : counted (ac_im q) o) (B : forall x, b x = true <-> byte_goes (ac_types q) (pr_name o) x T) (Nz : bytes_with b (pr_addr o) (pr_size o) <> 0).
Lemma place_pos (b' : Z -> bool) : (forall x, b' x = true <-> byte_goes (ac_types q) (pr_name o) x T) -> 0 < bytes_with b' (pr_addr o) (pr_size o).
Proof.
  intros B'. pose proof (bytes_nonneg b (pr_addr o) (pr_size o)). rewrite (bytes_ext b' b); [lia|]. intros x. apply ProofAdds.same_bool. rewrite B, B'. reflexivity.
Qed.
Lemma place_used n : used_bytes T q n -> 0 < n.
Proof.
  intros (kp & b' & K & B' & ->). apply (zsumf_pos _ _ o); [intros; apply bytes_nonneg|apply filter_In; split; [exact Io|now apply K]|]. apply place_pos, B'.
Qed.
Lemma place_type : lists_type a T q.
Proof.
  split.
  - pose proof (bytes_nonneg b (pr_addr o) (pr_size o)). destruct (bytes_some b (pr_addr o) (pr_size o)) as (x & _ & Bx); [lia|]. apply B in Bx. exact (goes_name _ _ _ _ Bx).
  - right. destruct (used_value T q) as (n & U). exists n. split; [exact U|]. apply place_used in U. lia.
Qed.
Lemma place_section : lists_section T (pr_name o) q.
Proof.
  destruct (counted_decided (ac_im q)) as (keep & K). destruct (goes_decided (ac_types q)) as (d & D). eexists.
  split; [exists (fun o' => keep o' && (pr_name o' =?= pr_name o)), (fun x => d (pr_name o) x T); split; [intros o'; rewrite andb_true_iff, K, keq_eq; reflexivity|split; [intros; apply D|reflexivity]]|].
  apply (zsumf_pos _ _ o); [intros; apply bytes_nonneg|apply filter_In; split; [exact Io|rewrite keq_refl, andb_true_r; now apply K]|]. apply place_pos. intros x. apply D.
Qed.
End Place.
Lemma used_nonzero a T q n : used_bytes T q n -> n <> 0 -> lists_type a T q.
Proof.
  intros (kp & b & K & B & ->) N. apply zsumf_nz in N. destruct N as (o & Io & N). apply filter_In in Io. destruct Io as (Io & Ko). apply K in Ko. exact (place_type a T q o (b o) Io Ko (B o) N).
Qed.
Lemma name_places T N q n : name_bytes T N q n -> n <> 0 -> exists o b, In o (ac_l q) /\ counted (ac_im q) o /\ pr_name o = N /\ (forall x, b x = true <-> byte_goes (ac_types q) (pr_name o) x T) /\ bytes_with b (pr_addr o) (pr_size o) <> 0.
Proof.
  intros (kp & b & K & B & ->) Nz. apply zsumf_nz in Nz. destruct Nz as (o & Io & Nz). apply filter_In in Io. destruct Io as (Io & Ko). apply K in Ko. destruct Ko as (Ko & <-). exists o, b. tauto.
Qed.
Lemma label_places T N q n : label_bytes T N q n -> n <> 0 -> exists o b, In o (ac_l q) /\ counted (ac_im q) o /\ label [pr_name o] N /\ (forall x, b x = true <-> byte_goes (ac_types q) (pr_name o) x T) /\ bytes_with b (pr_addr o) (pr_size o) <> 0.
Proof.
  intros (kp & b & K & B & ->) Nz. apply zsumf_nz in Nz. destruct Nz as (o & Io & Nz). apply filter_In in Io. destruct Io as (Io & Ko). apply K in Ko. destruct Ko as (Ko & L). exists o, (b o). do 3 (split; [assumption|]). split; [apply B|exact Nz].
Qed.

(** ** sections by name or, with --unify, by abbreviated name *)
Definition sect_listed (u : bool) (T N : str) (q : account) : Prop := if u then lists_label T N q else lists_section T N q.
Definition sect_bytes (u : bool) (T N : str) (q : account) (n : Z) : Prop := if u then label_bytes T N q n else name_bytes T N q n.
Lemma sect_value u T N q : exists n, sect_bytes u T N q n.
Proof. destruct (used_value T q) as (n & U). destruct (figures_of _ _ _ U) as (ns & os & F). destruct u; eexists; [apply (fg_label _ _ _ _ F)|apply (fg_name _ _ _ _ F)]; reflexivity. Qed.
Lemma sect_unique u T N q n n' : sect_bytes u T N q n -> sect_bytes u T N q n' -> n = n'.
Proof.
  destruct (used_value T q) as (m & U). destruct (figures_of _ _ _ U) as (ns & os & F). destruct u; cbn; intros A B.
  - apply (fg_label _ _ _ _ F) in A, B. congruence.
  - apply (fg_name _ _ _ _ F) in A, B. congruence.
Qed.
Lemma sect_nonzero a u T N q n : sect_bytes u T N q n -> n <> 0 -> sect_listed u T N q /\ lists_type a T q.
Proof.
  destruct u; cbn; intros B Nz.
  - destruct (label_places _ _ _ _ B Nz) as (o & b & Io & Co & L & Bb & Po). split; [|exact (place_type a T q o b Io Co Bb Po)]. exists (pr_name o). split; [exact L|exact (place_section T q o b Io Co Bb Po)].
  - destruct (name_places _ _ _ _ B Nz) as (o & b & Io & Co & <- & Bb & Po). split; [exact (place_section T q o b Io Co Bb Po)|exact (place_type a T q o b Io Co Bb Po)].
Qed.
Lemma sect_type a u T N q : sect_listed u T N q -> lists_type a T q.
Proof.
  assert (S0 : forall M, lists_section T M q -> lists_type a T q) by (intros M (n & B & P); destruct (sect_nonzero a false T M q n B); [lia|assumption]).
  destruct u; [intros (M & _ & L); now apply (S0 M)|apply S0].
Qed.

(** ** the groups of a summary *)
Definition groups_right (u : bool) (k : account) (r : option account) (a : args) (gs : list pgroup) : Prop :=
  NoDup (map pg_type gs) /\
  (forall T, In T (map pg_type gs) <-> present k r (lists_type a T) /\ exists v, measured k r (used_bytes T) v /\ differs a v) /\
  Forall (fun g => measured k r (used_bytes (pg_type g)) (pg_used g) /\ NoDup (map fst (pg_sections g)) /\
    forall N v, In (N, v) (pg_sections g) <-> present k r (sect_listed u (pg_type g) N) /\ measured k r (sect_bytes u (pg_type g) N) v /\ differs a v) gs.
Lemma type_group gs T : In T (map pg_type gs) -> exists g, In g gs /\ pg_type g = T.
Proof. intros I. apply List.in_map_iff in I. destruct I as (g & E & I). now exists g. Qed.
Lemma group_unique gs g g' : NoDup (map pg_type gs) -> In g gs -> In g' gs -> pg_type g = pg_type g' -> g = g'.
Proof.
  induction gs as [|h gs IH]; [intros _ []|]. cbn [map]. intros D I I' E. inversion D as [|? ? Nh D']; subst.
  destruct I as [->|I], I' as [->|I']; [reflexivity|exfalso; apply Nh; rewrite E; now apply List.in_map|exfalso; apply Nh; rewrite <- E; now apply List.in_map|now apply IH].
Qed.
Lemma used_there gs T : exists v, used_in gs T v.
Proof.
  destruct (in_dec (list_eq_dec Ascii.ascii_dec) T (map pg_type gs)) as [I|I]; [|exists (0, 0); right; now split]. destruct (type_group _ _ I) as (g & Ig & E). exists (pg_used g). left. now exists g.
Qed.
Lemma section_dec gs T N : {v | section_in gs T N v /\ has_section gs T N} + {~ has_section gs T N}.
Proof.
  induction gs as [|g gs IH]; [right; intros (g & [] & _)|].
  destruct (list_eq_dec Ascii.ascii_dec (pg_type g) T) as [E|E].
  - destruct (dget N (pg_sections g)) as [v|] eqn:D.
    + left. exists v. apply dget_some in D. split; [left; exists g; split; [now left|now split]|]. exists g. split; [now left|]. split; [exact E|]. exact (List.in_map fst _ _ D).
    + apply dget_none in D. destruct IH as [(v & S0 & H)|H].
      * left. exists v. split; [|destruct H as (h & Ih & H); exists h; split; [now right|exact H]]. destruct S0 as [(h & Ih & H0)|(H0 & _)]; [left; exists h; split; [now right|exact H0]|contradiction].
      * right. intros (h & [<-|Ih] & E' & In0); [now apply D|]. apply H. exists h. tauto.
  - destruct IH as [(v & S0 & H)|H].
    + left. exists v. split; [|destruct H as (h & Ih & H); exists h; split; [now right|exact H]]. destruct S0 as [(h & Ih & H0)|(H0 & _)]; [left; exists h; split; [now right|exact H0]|contradiction].
    + right. intros (h & [<-|Ih] & E' & In0); [now apply E|]. apply H. exists h. tauto.
Qed.
Lemma section_there gs T N : exists v, section_in gs T N v.
Proof. destruct (section_dec gs T N) as [(v & H & _)|H]; [now exists v|exists (0, 0); right; now split]. Qed.

Section Groups.
Variable u : bool.
(** the group of a memory type, and its sections *)
Section One.
Variables (k : account) (r : option account) (a : args) (gs : list pgroup).
Hypothesis R : groups_right u k r a gs.
Lemma group_is g : In g gs -> measured k r (used_bytes (pg_type g)) (pg_used g) /\ NoDup (map fst (pg_sections g)) /\
    forall N v, In (N, v) (pg_sections g) <-> present k r (sect_listed u (pg_type g) N) /\ measured k r (sect_bytes u (pg_type g) N) v /\ differs a v.
Proof. destruct R as (_ & _ & G). rewrite Forall_forall in G. apply G. Qed.
Lemma section_has T N : has_section gs T N <-> In T (map pg_type gs) /\ present k r (sect_listed u T N) /\ exists v, measured k r (sect_bytes u T N) v /\ differs a v.
Proof.
  split.
  - intros (g & Ig & <- & I). split; [now apply List.in_map|]. apply List.in_map_iff in I. destruct I as ((M & v) & E & I). cbn [fst] in E. subst M. apply (proj2 (proj2 (group_is g Ig))) in I. destruct I as (P & M & D). split; [exact P|]. now exists v.
  - intros (I & P & v & M & D). destruct (type_group _ _ I) as (g & Ig & <-). exists g. split; [exact Ig|]. split; [reflexivity|]. apply (List.in_map fst _ (N, v)). apply (proj2 (proj2 (group_is g Ig))). tauto.
Qed.
Lemma used_case T v : used_in gs T v -> (In T (map pg_type gs) /\ measured k r (used_bytes T) v) \/ (~ In T (map pg_type gs) /\ v = (0, 0)).
Proof. intros [(g & Ig & <- & ->)|H]; [left; split; [now apply List.in_map|apply (group_is g Ig)]|now right]. Qed.
Lemma section_case T N v : section_in gs T N v -> (has_section gs T N /\ measured k r (sect_bytes u T N) v) \/ (~ has_section gs T N /\ v = (0, 0)).
Proof.
  intros [(g & Ig & <- & I)|H]; [left|now right]. split; [exists g; split; [exact Ig|]; split; [reflexivity|]; exact (List.in_map fst _ _ I)|]. apply (proj2 (proj2 (group_is g Ig))) in I. tauto.
Qed.
End One.
(** the summary of a project alone *)
Section Alone.
Variables (k : account) (a : args) (gs : list pgroup).
Hypothesis (R : groups_right u k None a gs) (G : given (a_diff a) = false).
Lemma alone_differs v : differs a v. Proof. intros G'. congruence. Qed.
Lemma alone_types T : In T (map pg_type gs) <-> lists_type a T k.
Proof.
  destruct R as (_ & Ts & _). rewrite Ts. split; [intros ([L|[]] & _); exact L|]. intros L. split; [now left|]. destruct (used_value T k) as (n & U). exists (n, 0). split; [now split|apply alone_differs].
Qed.
Lemma alone_has T N : has_section gs T N <-> sect_listed u T N k.
Proof.
  rewrite (section_has k None a gs R), alone_types. split; [intros (_ & [L|[]] & _); exact L|]. intros L. split; [exact (sect_type a u T N k L)|]. split; [now left|].
  destruct (sect_value u T N k) as (n & U). exists (n, 0). split; [now split|apply alone_differs].
Qed.
Lemma alone_used T v n : used_in gs T v -> used_bytes T k n -> v = (n, 0).
Proof.
  intros V U. destruct (used_case k None a gs R T v V) as [(_ & M1 & M2)|(Ni & ->)].
  - destruct v as (x, y). cbn [fst snd] in *. rewrite (used_unique T k _ _ U M1), M2. reflexivity.
  - destruct (Z.eq_dec n 0) as [->|N]; [reflexivity|]. exfalso. apply Ni, alone_types. exact (used_nonzero a T k n U N).
Qed.
Lemma alone_section T N v n : section_in gs T N v -> sect_bytes u T N k n -> v = (n, 0).
Proof.
  intros V U. destruct (section_case k None a gs R T N v V) as [(_ & M1 & M2)|(Ni & ->)].
  - destruct v as (x, y). cbn [fst snd] in *. rewrite (sect_unique u T N k _ _ U M1), M2. reflexivity.
  - destruct (Z.eq_dec n 0) as [->|Nz]; [reflexivity|]. exfalso. apply Ni, alone_has. exact (proj1 (sect_nonzero a u T N k n U Nz)).
Qed.
End Alone.
(** that of a comparison *)
Section Both.
Variables (k r : account) (a : args) (gs : list pgroup).
Hypothesis (R : groups_right u k (Some r) a gs).
Lemma measured_pair (f : account -> Z -> Prop) v x y : (forall q n n', f q n -> f q n' -> n = n') -> measured k (Some r) f v -> f k x -> f r y -> v = (x, x - y).
Proof. intros Un (M1 & y' & M2 & E) X Y. destruct v as (p, q). cbn [fst snd] in *. rewrite (Un k _ _ X M1), (Un r _ _ Y M2), E. reflexivity. Qed.
Lemma pair_measured (f : account -> Z -> Prop) x y : f k x -> f r y -> measured k (Some r) f (x, x - y).
Proof. intros X Y. split; [exact X|]. now exists y. Qed.
Lemma both_used T v x y : used_in gs T v -> used_bytes T k x -> used_bytes T r y -> snd v = x - y /\ (In T (map pg_type gs) \/ a_show_unchanged a = true -> fst v = x).
Proof.
  intros V X Y. destruct (used_case k (Some r) a gs R T v V) as [(I & M)|(Ni & ->)].
  - rewrite (measured_pair (used_bytes T) v x y) by (try assumption; apply used_unique). now split.
  - cbn [fst snd]. assert (L : x <> 0 \/ y <> 0 -> present k (Some r) (lists_type a T)) by (intros [N|N]; [left; exact (used_nonzero a T k x X N)|right; exact (used_nonzero a T r y Y N)]).
    assert (NI : x <> 0 \/ y <> 0 -> ~ differs a (x, x - y)). { intros N D. apply Ni. apply R. split; [now apply L|]. exists (x, x - y). split; [now apply pair_measured|exact D]. }
    split; [|intros [I|Sa]; [contradiction|]].
    + destruct (Z.eq_dec x y) as [E|E]; [lia|]. exfalso. apply (NI ltac:(lia)). intros _ _. cbn [snd]. lia.
    + destruct (Z.eq_dec x 0) as [E|E]; [now symmetry|]. exfalso. apply (NI (or_introl E)). intros _ Sb. congruence.
Qed.
Lemma both_section T N v x y : section_in gs T N v -> sect_bytes u T N k x -> sect_bytes u T N r y -> has_section gs T N \/ a_show_unchanged a = true -> v = (x, x - y).
Proof.
  intros V X Y H. destruct (section_case k (Some r) a gs R T N v V) as [(I & M)|(Ni & ->)]; [apply (measured_pair (sect_bytes u T N)); try assumption; apply sect_unique|].
  destruct H as [H|Sa]; [contradiction|]. assert (Da : forall w, differs a w) by (intros w _ Sb; congruence).
  assert (NI : ~ (x <> 0 \/ y <> 0)).
  { intros Nz. apply Ni. apply (section_has k (Some r) a gs R).
    assert (P : present k (Some r) (sect_listed u T N) /\ present k (Some r) (lists_type a T)).
    { destruct Nz as [Nz|Nz]; [destruct (sect_nonzero a u T N k x X Nz); split; now left|destruct (sect_nonzero a u T N r y Y Nz); split; now right]. }
    destruct P as (P1 & P2). split; [|split; [exact P1|]].
    - apply R. split; [exact P2|]. destruct (used_value T k) as (p & Pv). destruct (used_value T r) as (q & Qv). exists (p, p - q). split; [now apply pair_measured|apply Da].
    - exists (x, x - y). split; [now apply pair_measured|apply Da]. }
  assert (x = 0 /\ y = 0) as (-> & ->) by lia. reflexivity.
Qed.
End Both.
End Groups.
