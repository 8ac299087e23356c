(** * The sizes of memory types in several comparisons *)
From Coq Require Import Ascii String List ZArith Lia Bool Permutation Sorted.
From Verif Require Import Base MemMap SpecTree SpecOps Filter SpecFilter Pipeline SpecPipe SpecBuild SpecBytes SpecShape PyStr MapFile SpecMap
  ElfRead SpecElf Project SpecProject SpecEnd Chips SpecChips ProofChips Deps Table SpecTable Formats Main SpecMain Command SpecCommand SpecFail SpecReport
  SpecAdds SpecSteps ProofSteps SpecCompare SpecMerge SpecCompareUsage ProofCompareUsage ProofCompareUsage2 SpecSizes ProofSizes SpecSizeSteps.
Import ListNotations.
Open Scope list_scope.
Open Scope Z_scope.

Lemma size_is a k r gs g : totals_right k (Some r) a gs -> In g gs -> total_bytes a (pg_type g) k (fst (pg_total g)) /\ (size_known a g -> total_bytes a (pg_type g) r (fst (pg_total g) - snd (pg_total g))).
Proof.
  intros Tr I. unfold totals_right in Tr. rewrite Forall_forall in Tr. destruct (Tr g I) as (T1 & T2). split; [exact T1|]. intros K. destruct (T2 K) as (_ & n & N & E). replace (fst (pg_total g) - snd (pg_total g)) with n by lia. exact N.
Qed.
Lemma sizes_chain k r q a b gs gs' g g' : windows_separate (ac_types r) -> a_use_flash_size a = a_use_flash_size b -> (forall T q, lists_type a T q <-> lists_type b T q) ->
  totals_right k (Some r) a gs -> totals_right r (Some q) b gs' -> In g gs -> In g' gs' -> pg_type g' = pg_type g -> size_known a g -> fst (pg_total g') = fst (pg_total g) - snd (pg_total g).
Proof.
  intros W Ef El T T' I I' E K. destruct (size_is a k r gs g T I) as (_ & A). destruct (size_is b r q gs' g' T' I') as (B & _). rewrite E in B. symmetry. exact (total_unique a b (pg_type g) r _ _ W Ef (El _ _) (A K) B).
Qed.
Lemma sizes_ends k r k' r' a b gs gs' g g' n : windows_separate (ac_types n) -> a_use_flash_size a = a_use_flash_size b -> (forall T q, lists_type a T q <-> lists_type b T q) ->
  totals_right k (Some r) a gs -> totals_right k' (Some r') b gs' -> In g gs -> In g' gs' -> pg_type g' = pg_type g ->
  (k = n -> k' = n -> fst (pg_total g') = fst (pg_total g)) /\
  (r = n -> r' = n -> size_known a g -> size_known b g' -> fst (pg_total g') - snd (pg_total g') = fst (pg_total g) - snd (pg_total g)) /\
  (k = n -> r' = n -> size_known b g' -> fst (pg_total g') - snd (pg_total g') = fst (pg_total g)).
Proof.
  intros W Ef El T T' I I' E. destruct (size_is a k r gs g T I) as (A1 & A2). destruct (size_is b k' r' gs' g' T' I') as (B1 & B2). rewrite E in B1, B2.
  split; [|split]; intros -> -> ; intros.
  - symmetry. exact (total_unique a b (pg_type g) n _ _ W Ef (El _ _) A1 B1).
  - symmetry. refine (total_unique a b (pg_type g) n _ _ W Ef (El _ _) (A2 _) (B2 _)); assumption.
  - symmetry. refine (total_unique a b (pg_type g) n _ _ W Ef (El _ _) A1 (B2 _)); assumption.
Qed.
Section Runs.
Variables (d : disk) (c : cmd) (render : console -> list piece -> str) (encode : str -> str) (ord : set_order) (pf : pct_format).
Hypothesis Ty : of_types (c_args c).
Hypothesis Fo : a_format (c_args c) = FTable \/ a_format (c_args c) = FText \/ a_format (c_args c) = FCsv.
Let same (x y : args) (H : a_show_unused x = a_show_unused y) : forall T q, lists_type x T q <-> lists_type y T q.
Proof. intros T q. unfold lists_type, listed_type. now rewrite H. Qed.
Lemma sizes_turned x y k r o o' fs fs' s s' : summarised d (comparing c x y) k (Some r) ->
  run_files d (get_memory_types chip_info) render encode ord pf (comparing c x y) o (start fs) = (Done tt, s) ->
  run_files d (get_memory_types chip_info) render encode ord pf (comparing c y x) o' (start fs') = (Done tt, s') ->
  exists gs gs', shows_usage (c_args (comparing c x y)) s gs /\ shows_usage (c_args (comparing c y x)) s' gs' /\ turned_usage gs gs' /\ turned_sizes (c_args c) gs gs'.
Proof.
  intros Su R1 R2. pose proof Su as (P & (fy & Ey & Q) & V). injection Ey as <-.
  assert (Sv : summarised d (comparing c y x) r (Some k)) by (split; [exact Q|split; [exists x; split; [reflexivity|exact P]|exact V]]).
  destruct (sizes_shown d (comparing c x y) k (Some r) o fs s render encode ord pf) as (gs & N1 & N2 & N3); [exact Su|exact Ty|exact Fo|exact R1|].
  destruct (sizes_shown d (comparing c y x) r (Some k) o' fs' s' render encode ord pf) as (gs' & O1 & O2 & O3); [exact Sv|exact Ty|exact Fo|exact R2|].
  exists gs, gs'. do 2 (split; [assumption|]). split.
  - refine (usage_turned (a_unify (c_args c)) k r (c_args (comparing c x y)) (c_args (comparing c y x)) gs gs' (fun T q => conj (fun H => H) (fun H => H)) _ N2 O2).
    intros v. unfold differs. cbn [comparing c_args a_diff a_show_unchanged]. rewrite (given_reference _ _ _ _ _ _ Su), (given_reference _ _ _ _ _ _ Sv). reflexivity.
  - intros g g' I I' E K. pose proof (sizes_chain k r k (c_args (comparing c x y)) (c_args (comparing c y x)) gs gs' g g' (project_separate _ _ _ _ Q) eq_refl (same _ _ eq_refl) N3 O3 I I' E K) as F. split; [exact F|]. intros K'.
    destruct (sizes_ends k r r k (c_args (comparing c x y)) (c_args (comparing c y x)) gs gs' g g' k (project_separate _ _ _ _ P) eq_refl (same _ _ eq_refl) N3 O3 I I' E) as (_ & _ & H). specialize (H eq_refl eq_refl K'). lia.
Qed.
Lemma sizes_steps x y z k1 k2 k3 o o' o2 fs fs' fs2 s s' s2 : summarised d (comparing c x y) k1 (Some k2) -> summarised d (comparing c y z) k2 (Some k3) ->
  run_files d (get_memory_types chip_info) render encode ord pf (comparing c x y) o (start fs) = (Done tt, s) ->
  run_files d (get_memory_types chip_info) render encode ord pf (comparing c y z) o' (start fs') = (Done tt, s') ->
  run_files d (get_memory_types chip_info) render encode ord pf (comparing c x z) o2 (start fs2) = (Done tt, s2) ->
  exists gs gs' all, shows_usage (c_args (comparing c x y)) s gs /\ shows_usage (c_args (comparing c y z)) s' gs' /\ shows_usage (c_args (comparing c x z)) s2 all /\
    steps_usage (c_args c) gs gs' all /\ steps_sizes (c_args c) gs gs' all.
Proof.
  intros Su Sv R1 R2 R3. pose proof Su as (P & _ & V). pose proof Sv as (Py & (fz & Ez & Q) & _). injection Ez as <-.
  assert (Sw : summarised d (comparing c x z) k1 (Some k3)) by (split; [exact P|split; [exists z; split; [reflexivity|exact Q]|exact V]]).
  destruct (sizes_shown d (comparing c x y) k1 (Some k2) o fs s render encode ord pf) as (gs & N1 & N2 & N3); [exact Su|exact Ty|exact Fo|exact R1|].
  destruct (sizes_shown d (comparing c y z) k2 (Some k3) o' fs' s' render encode ord pf) as (gs' & O1 & O2 & O3); [exact Sv|exact Ty|exact Fo|exact R2|].
  destruct (sizes_shown d (comparing c x z) k1 (Some k3) o2 fs2 s2 render encode ord pf) as (all & B1 & B2 & B3); [exact Sw|exact Ty|exact Fo|exact R3|].
  exists gs, gs', all. do 3 (split; [assumption|]). split; [exact (usage_steps (a_unify (c_args c)) k1 k2 k3 (c_args (comparing c x y)) (c_args (comparing c y z)) (c_args (comparing c x z)) gs gs' all eq_refl eq_refl N2 O2 B2)|].
  assert (First : forall g g', In g gs -> In g' gs' -> pg_type g' = pg_type g -> size_known (c_args c) g -> fst (pg_total g') = fst (pg_total g) - snd (pg_total g)).
  { intros g g' I I' E K. exact (sizes_chain k1 k2 k3 (c_args (comparing c x y)) (c_args (comparing c y z)) gs gs' g g' (project_separate _ _ _ _ Py) eq_refl (same _ _ eq_refl) N3 O3 I I' E K). }
  assert (Same : forall g h, In g gs -> In h all -> pg_type h = pg_type g -> fst (pg_total h) = fst (pg_total g)).
  { intros g h I Ih E. destruct (sizes_ends k1 k2 k1 k3 (c_args (comparing c x y)) (c_args (comparing c x z)) gs all g h k1 (project_separate _ _ _ _ P) eq_refl (same _ _ eq_refl) N3 B3 I Ih E) as (H & _). exact (H eq_refl eq_refl). }
  split; [exact First|]. split; [exact Same|]. intros g g' h I I' Ih E E' K K'. pose proof (First g g' I I' E K) as F. pose proof (Same g h I Ih E') as S1.
  assert (Kh : size_known (c_args c) h) by (unfold size_known in *; rewrite S1; exact K).
  destruct (sizes_ends k2 k3 k1 k3 (c_args (comparing c y z)) (c_args (comparing c x z)) gs' all g' h k3 (project_separate _ _ _ _ Q) eq_refl (same _ _ eq_refl) O3 B3 I' Ih ltac:(congruence)) as (_ & H & _).
  specialize (H eq_refl eq_refl K' Kh). lia.
Qed.
End Runs.
