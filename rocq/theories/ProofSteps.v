(** * Comparing projects with each other *)
From Coq Require Import Ascii String List ZArith Lia Bool Permutation Sorted.
From Verif Require Import Base MemMap SpecTree SpecOps Filter SpecFilter Pipeline SpecPipe SpecBuild SpecBytes SpecShape PyStr MapFile SpecMap ProofBuild ProofBytes ProofBytes2 ProofBytes3
  ElfRead SpecElf Project SpecProject SpecEnd ProofEnd Chips SpecChips Deps Table SpecTable Formats Main SpecMain Command SpecCommand SpecFail SpecReport ProofCommand2 ProofReport5 SpecAdds ProofAdds SpecSteps.
Import ListNotations.
Open Scope list_scope.
Open Scope Z_scope.

(** ** every figure has a value *)
Lemma counted_decided im : exists keep, forall o, keep o = true <-> counted im o.
Proof.
  set (e := match im with None => None | Some l => Some (ElfFile (map header_of l) [] []) end).
  assert (M : elf_matches im e) by (unfold e; destruct im; [reflexivity|exact Logic.I]).
  exists (fun o => keep_section (get_elf_sections_headers e) (printed_section o)). intros o. rewrite keep_spec. now apply kept_counted.
Qed.
Lemma own_value own c k : exists n, own_bytes own c k n.
Proof.
  destruct (counted_decided (ac_im k)) as (keep & K). destruct (goes_decided (ac_types k)) as (d & D). destruct c as [|T|T N]; cbn [own_bytes].
  - eexists. exists keep. split; [exact K|reflexivity].
  - eexists. exists keep, (fun o x => d (pr_name o) x T). split; [exact K|]. split; [intros o a; apply D|reflexivity].
  - eexists. exists (fun o => keep o && (pr_name o =?= N)), (fun x => d N x T). split; [|split; [intros a; apply D|reflexivity]].
    intros o. rewrite andb_true_iff, K, keq_eq. reflexivity.
Qed.
Lemma zsumf_nz {A} (f : A -> Z) l : zsumf f l <> 0 -> exists x, In x l /\ f x <> 0.
Proof.
  induction l as [|x l IH]; [intros H; exfalso; now apply H|]. rewrite zsumf_cons. intros H. destruct (Z.eq_dec (f x) 0) as [E|E]; [|exists x; split; [now left|exact E]].
  destruct IH as (y & I & Y); [lia|]. exists y. split; [now right|exact Y].
Qed.
(** bytes are those of an input section *)
Definition lists_col (a : args) (c : col) (k : account) : Prop :=
  match c with ColTotal => True | ColType T => lists_type a T k | ColSect T N => lists_type a T k /\ lists_section T N k end.
Definition sound (k : account) : Prop := forall o, In o (ac_l k) -> counted (ac_im k) o -> items_in o.
Lemma goes_name types n a T : byte_goes types n a T -> exists c, In c types /\ ct_name c = T.
Proof.
  intros [(_ & l1 & t & l2 & -> & E & _)|(_ & t & F & E)]; exists t; (split; [|exact E]); [apply in_or_app; right; now left|]. destruct F as (l1 & l2 & -> & _). apply in_or_app. right. now left.
Qed.
Lemma own_nonzero own c k n a : sound k -> own_bytes own c k n -> n <> 0 -> lists_col a c k /\ exists i, places i k /\ own i = true.
Proof.
  intros Sk O N0.
  assert (Sec : forall o i T b, In o (ac_l k) -> counted (ac_im k) o -> In i (pr_items o) -> (forall x, b x = true <-> byte_goes (ac_types k) (pr_name o) x T) -> bytes_with b (it_addr i) (it_size i) <> 0 ->
    lists_type a T k /\ lists_section T (pr_name o) k /\ it_size i <> 0).
  { intros o i T b Io Co Ii B Nz. pose proof (Sk o Io Co) as In0. unfold items_in in In0. rewrite Forall_forall in In0. specialize (In0 i Ii).
    pose proof (bytes_nonneg b (it_addr i) (it_size i)) as Nn. destruct (bytes_some b (it_addr i) (it_size i)) as (x & X & Bx); [lia|].
    destruct (counted_decided (ac_im k)) as (keep & K). destruct (goes_decided (ac_types k)) as (d & D).
    assert (Dx : forall y, d (pr_name o) y T = b y) by (intros y; apply same_bool; rewrite D, B; reflexivity).
    assert (Po : 0 < bytes_with (fun y => d (pr_name o) y T) (pr_addr o) (pr_size o)) by (apply bytes_pos; exists x; split; [lia|now rewrite Dx]).
    split; [|split].
    - split; [apply B in Bx; exact (goes_name _ _ _ _ Bx)|]. right. eexists. split; [exists keep, (fun o x => d (pr_name o) x T); split; [exact K|split; [intros; apply D|reflexivity]]|].
      assert (0 < zsumf (fun o => bytes_with (fun x => d (pr_name o) x T) (pr_addr o) (pr_size o)) (filter keep (ac_l k))); [|lia].
      apply (zsumf_pos _ _ o); [intros; apply bytes_nonneg|apply filter_In; split; [exact Io|now apply K]|exact Po].
    - eexists. split; [exists (fun q => keep q && (pr_name q =?= pr_name o)), (fun x => d (pr_name o) x T); split; [intros q; rewrite andb_true_iff, K, keq_eq; reflexivity|split; [intros; apply D|reflexivity]]|].
      apply (zsumf_pos _ _ o); [intros; apply bytes_nonneg|apply filter_In; split; [exact Io|rewrite keq_refl, andb_true_r; now apply K]|exact Po].
    - intros Z0. rewrite Z0 in X. lia. }
  destruct c as [|T|T M]; cbn [own_bytes lists_col] in *.
  - destruct O as (keep & K & ->). apply zsumf_nz in N0. destruct N0 as (o & Io & N0). apply zsumf_nz in N0. destruct N0 as (i & Ii & N0). apply filter_In in Io, Ii.
    split; [exact Logic.I|]. exists i. split; [|apply Ii]. exists o. split; [apply Io|]. split; [apply K, Io|]. split; [apply Ii|exact N0].
  - destruct O as (keep & b & K & B & ->). apply zsumf_nz in N0. destruct N0 as (o & Io & N0). apply zsumf_nz in N0. destruct N0 as (i & Ii & N0). apply filter_In in Io, Ii.
    destruct Io as (Io & Ko), Ii as (Ii & Oi). apply K in Ko. destruct (Sec o i T (b o) Io Ko Ii (B o) N0) as (L1 & L2 & L3). split; [exact L1|]. exists i. split; [|exact Oi]. exists o. tauto.
  - destruct O as (keep & b & K & B & ->). apply zsumf_nz in N0. destruct N0 as (o & Io & N0). apply zsumf_nz in N0. destruct N0 as (i & Ii & N0). apply filter_In in Io, Ii.
    destruct Io as (Io & Ko), Ii as (Ii & Oi). apply K in Ko. destruct Ko as (Ko & <-). destruct (Sec o i T b Io Ko Ii B N0) as (L1 & L2 & L3). split; [now split|]. exists i. split; [|exact Oi]. exists o. tauto.
Qed.
Lemma own_key files i j : row_own files i j = true -> row_key files j = row_key files i.
Proof.
  unfold row_own, row_key, of_object, of_archive. destruct files.
  - rewrite andb_true_iff, !keq_eq. intros (-> & ->). reflexivity.
  - rewrite keq_eq. trivial.
Qed.
Lemma key_own files i j : (files = true -> ~ In ":"%char (it_object i) /\ ~ In ":"%char (it_object j)) -> row_key files i = row_key files j -> row_own files i = row_own files j.
Proof.
  intros H E. unfold row_own, row_key in *. destruct files; [|now rewrite E]. destruct (H eq_refl) as (A & B). destruct (last_unique _ _ _ _ _ E A B) as (-> & ->). reflexivity.
Qed.
Lemma dict_value {V} (d : dict str V) n e e' : NoDup (map fst d) -> In (n, e) d -> In (n, e') d -> e = e'.
Proof.
  induction d as [|(m & w) d IH]; [intros _ []|]. cbn [map fst]. intros N. inversion N as [|? ? A B]; subst. intros [E|I] [E'|I'].
  - congruence.
  - injection E as -> ->. exfalso. apply A. exact (List.in_map fst _ _ I').
  - injection E' as -> ->. exfalso. apply A. exact (List.in_map fst _ _ I).
  - now apply IH.
Qed.

(** ** the figures of a comparison are those of the projects *)
Section Figures.
Variables (files : bool) (k r : account) (a : args) (rows : dict str sentry).
Hypothesis (R : entries_right files k (Some r) a rows) (Tf : tells_files files k (Some r)).
Hypothesis (Sk : sound k) (Sr : sound r).

Lemma figure_value i n c v x y : (files = true -> ~ In ":"%char (it_object i)) -> n = row_key files i -> figure rows n c v ->
  own_bytes (row_own files i) c k x -> own_bytes (row_own files i) c r y ->
  (c = ColTotal -> snd v = x - y) /\ (shows_all a -> v = (x, x - y)).
Proof.
  intros Ti -> Fv Ox Oy. destruct R as (Nd & Ks & Rs). destruct Fv as [(e & I & ->)|(Ni & ->)].
  - destruct (Rs _ _ I) as (j & Pj & Ej & _ & Er). rewrite (key_own files i j) in Ox, Oy; [|intros F; split; [now apply Ti|now apply Tf]|exact Ej|intros F; split; [now apply Ti|now apply Tf]|exact Ej].
    assert (E : col_value e c = (x, x - y)).
    { destruct (listed_dec _ _ _ _ _ c Er) as [L|L].
      - apply (measured_same (row_own files j) c k (Some r)); [apply (proj1 (row_value _ _ _ _ _ c Er)), L|]. split; [exact Ox|]. exists y. now split.
      - rewrite (proj2 (row_value _ _ _ _ _ c Er) L).
        assert (x = 0) as ->. { destruct (Z.eq_dec x 0) as [Z0|Z0]; [exact Z0|]. exfalso. apply L. destruct (own_nonzero _ _ _ _ a Sk Ox Z0) as (Lk & _). destruct c; cbn in *; [exact Logic.I|now left|split; left; tauto]. }
        assert (y = 0) as ->. { destruct (Z.eq_dec y 0) as [Z0|Z0]; [exact Z0|]. exfalso. apply L. destruct (own_nonzero _ _ _ _ a Sr Oy Z0) as (Lk & _). destruct c; cbn in *; [exact Logic.I|now right|split; right; tauto]. }
        reflexivity. }
    rewrite E. cbn [snd]. tauto.
  - assert (There : forall j v, present k (Some r) (places j) -> row_own files i j = true -> measured k (Some r) (own_bytes (row_own files i) ColTotal) v -> ~ differs a v).
    { intros j v P O M D. apply Ni, Ks. exists j, v. split; [exact P|]. split; [symmetry; now apply own_key|]. split; [|exact D].
      rewrite (key_own files j i); [exact M|intros F; split; [now apply Tf|now apply Ti]|now apply own_key]. }
    split.
    + intros ->. cbn [snd]. destruct (Z.eq_dec (x - y) 0) as [Z0|Z0]; [lia|]. exfalso.
      assert (exists j, present k (Some r) (places j) /\ row_own files i j = true) as (j & P & O).
      { destruct (Z.eq_dec x 0) as [X0|X0].
        - destruct (own_nonzero _ _ _ _ a Sr Oy) as (_ & j & P & O); [lia|]. exists j. split; [now right|exact O].
        - destruct (own_nonzero _ _ _ _ a Sk Ox X0) as (_ & j & P & O). exists j. split; [now left|exact O]. }
      apply (There j (x, x - y) P O); [split; [exact Ox|exists y; now split]|]. intros _ _. exact Z0.
    + intros Sa. assert (None0 : forall j, present k (Some r) (places j) -> row_own files i j <> true).
      { intros j P O. destruct (own_value (row_own files i) ColTotal k) as (x' & Ox'). destruct (own_value (row_own files i) ColTotal r) as (y' & Oy').
        apply (There j (x', x' - y') P O); [split; [exact Ox'|exists y'; now split]|]. now apply all_differs. }
      assert (x = 0) as ->. { destruct (Z.eq_dec x 0) as [Z0|Z0]; [exact Z0|]. exfalso. destruct (own_nonzero _ _ _ _ a Sk Ox Z0) as (_ & j & P & O). exact (None0 j (or_introl P) O). }
      assert (y = 0) as ->. { destruct (Z.eq_dec y 0) as [Z0|Z0]; [exact Z0|]. exfalso. destruct (own_nonzero _ _ _ _ a Sr Oy Z0) as (_ & j & P & O). exact (None0 j (or_intror P) O). }
      reflexivity.
Qed.
Lemma row_item n : In n (map fst rows) -> exists i, n = row_key files i /\ (files = true -> ~ In ":"%char (it_object i)).
Proof. intros I. destruct R as (_ & Ks & _). apply Ks in I. destruct I as (i & v & P & E & _). exists i. split; [exact E|]. intros F. now apply Tf. Qed.
Lemma figure_there n c v : figure rows n c v -> v <> (0, 0) -> In n (map fst rows).
Proof. intros [(e & I & _)|(_ & ->)] N; [exact (List.in_map fst _ _ I)|congruence]. Qed.
End Figures.

Lemma add_up files a k1 k2 k3 rows rows' all :
  entries_right files k1 (Some k2) a rows -> entries_right files k2 (Some k3) a rows' -> entries_right files k1 (Some k3) a all ->
  tells_files files k1 (Some k2) -> tells_files files k2 (Some k3) -> sound k1 -> sound k2 -> sound k3 -> steps a rows rows' all.
Proof.
  intros R R' Ra T T' S1 S2 S3 n c v v' w Hc F F' Fa.
  assert (Ta : tells_files files k1 (Some k3)). { intros X i [P|P]; [apply (T X i); now left|apply (T' X i); now right]. }
  assert (Cases : (exists i, n = row_key files i /\ (files = true -> ~ In ":"%char (it_object i))) \/ (v = (0, 0) /\ v' = (0, 0) /\ w = (0, 0))).
  { destruct F as [(e & I & _)|(_ & ->)]; [left; exact (row_item files k1 k2 a rows R T n (List.in_map fst _ _ I))|].
    destruct F' as [(e & I & _)|(_ & ->)]; [left; exact (row_item files k2 k3 a rows' R' T' n (List.in_map fst _ _ I))|].
    destruct Fa as [(e & I & _)|(_ & ->)]; [left; exact (row_item files k1 k3 a all Ra Ta n (List.in_map fst _ _ I))|]. right. repeat split. }
  destruct Cases as [(i & E & Ti)|(-> & -> & ->)]; [|cbn; split; [lia|reflexivity]].
  destruct (own_value (row_own files i) c k1) as (x & X). destruct (own_value (row_own files i) c k2) as (y & Y). destruct (own_value (row_own files i) c k3) as (z & Zz).
  destruct (figure_value files k1 k2 a rows R T S1 S2 i n c v x y Ti E F X Y) as (A1 & A2).
  destruct (figure_value files k2 k3 a rows' R' T' S2 S3 i n c v' y z Ti E F' Y Zz) as (B1 & B2).
  destruct (figure_value files k1 k3 a all Ra Ta S1 S3 i n c w x z Ti E Fa X Zz) as (C1 & C2).
  assert (Sa : a_show_unchanged a = true -> shows_all a) by (intros U; now right).
  split.
  - destruct Hc as [Hc|Hc]; [rewrite (A1 Hc), (B1 Hc), (C1 Hc); lia|]. rewrite (A2 (Sa Hc)), (B2 (Sa Hc)), (C2 (Sa Hc)). cbn [snd]. lia.
  - intros U. rewrite (A2 (Sa U)), (C2 (Sa U)). reflexivity.
Qed.

(** ** the other way around *)
Lemma turned_round files a k r rows rows' : entries_right files k (Some r) a rows -> entries_right files r (Some k) a rows' -> tells_files files k (Some r) -> turned rows rows'.
Proof.
  intros (Nd & Ks & Rs) (Nd' & Ks' & Rs') T.
  assert (Sw : forall (P : account -> Prop), present k (Some r) P <-> present r (Some k) P) by (intros P; unfold present; tauto).
  assert (T' : tells_files files r (Some k)) by (intros X i P; apply (T X i), Sw, P).
  assert (Mt : forall own c v, measured k (Some r) (own_bytes own c) v <-> measured r (Some k) (own_bytes own c) (fst v - snd v, - snd v)).
  { intros own c (v1 & v2). unfold measured. cbn [fst snd]. split.
    - intros (A & n & B & ->). replace (v1 - (v1 - n)) with n by lia. split; [exact B|]. exists v1. split; [exact A|lia].
    - intros (A & n & B & E). replace v1 with n by lia. split; [exact B|]. exists (v1 - v2). split; [exact A|lia]. }
  assert (Mt' : forall own c v, measured r (Some k) (own_bytes own c) v -> measured k (Some r) (own_bytes own c) (fst v - snd v, - snd v)).
  { intros own c v M. apply Mt. cbn [fst snd]. destruct v as (v1 & v2). cbn [fst snd] in *. replace (v1 - v2 - - v2) with v1 by lia. replace (- - v2) with v2 by lia. exact M. }
  assert (Names : forall n, In n (map fst rows) <-> In n (map fst rows')).
  { intros n. rewrite Ks, Ks'. split; intros (i & v & P & E & M & D); exists i, (fst v - snd v, - snd v).
    - split; [now apply Sw|]. split; [exact E|]. split; [now apply Mt|]. intros G U. specialize (D G U). cbn [snd]. lia.
    - split; [now apply Sw|]. split; [exact E|]. split; [now apply Mt'|]. intros G U. specialize (D G U). cbn [snd]. lia. }
  split; [exact Names|]. intros n c v v' F F'. destruct F as [(e & I & ->)|(N & ->)], F' as [(e' & I' & ->)|(N' & ->)].
  - destruct (Rs _ _ I) as (i & P & E & _ & Er), (Rs' _ _ I') as (j & Pj & Ej & _ & Er').
    rewrite <- (key_own files i j) in Er'; [|intros X; split; [now apply T|now apply T']|congruence].
    assert (Ls : listed k (Some r) a c <-> listed r (Some k) a c) by (destruct c; cbn [listed]; rewrite ?Sw; try tauto; rewrite (Sw (lists_type a s)), (Sw (lists_section s s0)); tauto).
    destruct (listed_dec _ _ _ _ _ c Er) as [L|L].
    + apply (measured_same (row_own files i) c r (Some k)); [apply (proj1 (row_value _ _ _ _ _ c Er')), Ls, L|]. apply Mt. apply (proj1 (row_value _ _ _ _ _ c Er)), L.
    + rewrite (proj2 (row_value _ _ _ _ _ c Er) L), (proj2 (row_value _ _ _ _ _ c Er')); [reflexivity|]. intros X. apply L, Ls, X.
  - exfalso. apply N', Names. exact (List.in_map fst _ _ I).
  - exfalso. apply N, Names. exact (List.in_map fst _ _ I').
  - reflexivity.
Qed.

(** ** runs *)
Lemma project_sound d a fn k : project_at d a fn k -> sound k.
Proof.
  intros (dir & name & text & crt & _ & B & _) o Io Co. pose proof (bt_sections _ _ _ _ _ _ _ _ _ B) as S. rewrite Forall_forall in S. now apply (S o Io Co).
Qed.
Lemma project_given d a fn k : project_at d a fn k -> given (Some fn) = true.
Proof. intros (dir & name & text & crt & -> & _). unfold in_dir. destruct dir; reflexivity. Qed.
Lemma right_for files c x y x' y' k r rows : given (Some y) = true -> given (Some y') = true -> entries_right files k r (c_args (comparing c x y)) rows -> entries_right files k r (c_args (comparing c x' y')) rows.
Proof.
  intros G G' (N & K & R). assert (D : forall v, differs (c_args (comparing c x y)) v <-> differs (c_args (comparing c x' y')) v).
  { intros v. unfold differs. change (a_diff (c_args (comparing c x y))) with (Some y). change (a_diff (c_args (comparing c x' y'))) with (Some y'). rewrite G, G'. reflexivity. }
  split; [exact N|]. split.
  { intros n. rewrite K. split; intros (i & v & P & E & M & Q); exists i, v; (split; [exact P|split; [exact E|split; [exact M|now apply D]]]). }
  intros n e I. destruct (R n e I) as (i & P & E & A & Er). exists i. split; [exact P|]. split; [exact E|]. split; [exact A|].
  destruct Er as [E1 E2 E3 E4 E5 E6 E7 E8]. constructor; assumption.
Qed.
Section Runs.
Variables (d : disk) (c : cmd) (files : bool) (render : console -> list piece -> str) (encode : str -> str) (ord : set_order) (pf : pct_format).
Hypothesis As : asked files (c_args c).
Hypothesis De : given (a_archive_details (c_args c)) = true -> a_use_dwarf (c_args c) <> Some true.
Hypothesis Fo : a_format (c_args c) = FJson2.
Lemma one_run x y k r o fs s : reported d (comparing c x y) k r -> tells_files files k r ->
  run_files d (get_memory_types chip_info) render encode ord pf (comparing c x y) o (start fs) = (Done tt, s) ->
  exists rows, s_printed s = [PEntries rows] /\ entries_right files k r (c_args (comparing c x y)) rows.
Proof.
  intros Rp T R. destruct (entries_json d (comparing c x y) k r o files fs s render encode ord pf) as (rows & P & E & _); [exact Rp| |exact De|exact T|exact Fo|exact R|exists rows; now split].
  unfold asked in *. destruct files; exact As.
Qed.
Lemma reported_turned x y k r : reported d (comparing c x y) k (Some r) -> reported d (comparing c y x) r (Some k).
Proof.
  intros (P & (fn & E & Q) & U & V). injection E as <-. split; [exact Q|]. split; [exists x; split; [reflexivity|exact P]|]. split; assumption.
Qed.
Lemma turned_runs x y k r o o' fs fs' s s' : reported d (comparing c x y) k (Some r) -> tells_files files k (Some r) ->
  run_files d (get_memory_types chip_info) render encode ord pf (comparing c x y) o (start fs) = (Done tt, s) ->
  run_files d (get_memory_types chip_info) render encode ord pf (comparing c y x) o' (start fs') = (Done tt, s') ->
  exists rows rows', s_printed s = [PEntries rows] /\ s_printed s' = [PEntries rows'] /\ turned rows rows'.
Proof.
  intros Rp T R R'. destruct (one_run _ _ _ _ _ _ _ Rp T R) as (rows & P & E).
  assert (T' : tells_files files r (Some k)) by (intros X i Q; apply (T X i); destruct Q; [now right|now left]).
  destruct (one_run _ _ _ _ _ _ _ (reported_turned _ _ _ _ Rp) T' R') as (rows' & P' & E').
  pose proof Rp as (P1 & (fy & Ey & P2) & _). injection Ey as <-.
  exists rows, rows'. split; [exact P|]. split; [exact P'|]. eapply turned_round; [exact E|exact (right_for _ _ _ _ _ _ _ _ _ (project_given _ _ _ _ P1) (project_given _ _ _ _ P2) E')|exact T].
Qed.
Lemma step_runs x y z k1 k2 k3 o o' o2 fs fs' fs2 s s' s2 : reported d (comparing c x y) k1 (Some k2) -> reported d (comparing c y z) k2 (Some k3) ->
  tells_files files k1 (Some k2) -> tells_files files k2 (Some k3) ->
  run_files d (get_memory_types chip_info) render encode ord pf (comparing c x y) o (start fs) = (Done tt, s) ->
  run_files d (get_memory_types chip_info) render encode ord pf (comparing c y z) o' (start fs') = (Done tt, s') ->
  run_files d (get_memory_types chip_info) render encode ord pf (comparing c x z) o2 (start fs2) = (Done tt, s2) ->
  exists rows rows' all, s_printed s = [PEntries rows] /\ s_printed s' = [PEntries rows'] /\ s_printed s2 = [PEntries all] /\ steps (c_args c) rows rows' all.
Proof.
  intros Rp Rp' T T' R R' R2. destruct (one_run _ _ _ _ _ _ _ Rp T R) as (rows & P & E). destruct (one_run _ _ _ _ _ _ _ Rp' T' R') as (rows' & P' & E').
  pose proof Rp as (P1 & (fy & Ey & P2) & U & V). injection Ey as <-. pose proof Rp' as (_ & (fz & Ez & P3) & _). injection Ez as <-.
  assert (Rp2 : reported d (comparing c x z) k1 (Some k3)). { split; [exact P1|]. split; [exists z; split; [reflexivity|exact P3]|]. split; assumption. }
  assert (T2 : tells_files files k1 (Some k3)). { intros X i [Q|Q]; [apply (T X i); now left|apply (T' X i); now right]. }
  destruct (one_run _ _ _ _ _ _ _ Rp2 T2 R2) as (all & P4 & E4).
  exists rows, rows', all. split; [exact P|]. split; [exact P'|]. split; [exact P4|].
  exact (add_up files (c_args (comparing c x z)) k1 k2 k3 rows rows' all (right_for _ _ _ _ _ _ _ _ _ (project_given _ _ _ _ P2) (project_given _ _ _ _ P3) E) (right_for _ _ _ _ _ _ _ _ _ (project_given _ _ _ _ P3) (project_given _ _ _ _ P3) E') E4 T T' (project_sound _ _ _ _ P1) (project_sound _ _ _ _ P2) (project_sound _ _ _ _ P3)).
Qed.
End Runs.
