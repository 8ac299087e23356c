From Coq Require Import Ascii String List ZArith Lia Bool Permutation Sorted.
From Verif Require Import Base MemMap SpecTree SpecOps SpecTable Filter Pipeline SpecPipe SpecBuild SpecBytes SpecShape ProofOps ProofTrim ProofSummary2 ProofBuild ProofRegions ProofTypes ProofBytes ProofBytes2 ProofBytes3 ProofShape PyStr MapFile SpecMap
  ElfRead SpecElf Project SpecProject ProofProject2 SpecEnd ProofEnd Chips SpecChips ProofChips Deps Table Formats ProofFormats Main SpecMain ProofMain ProofMain4 ProofMain5 Command SpecCommand ProofCommand1 ProofCommand2 ProofCommand3.
Import ListNotations.
Open Scope list_scope.
Open Scope Z_scope.

(** ** sums *)
Lemma zsumf_swap {A B} (f : A -> B -> Z) la lb : zsumf (fun a => zsumf (f a) lb) la = zsumf (fun b => zsumf (fun a => f a b) la) lb.
Proof.
  induction la as [|a la IH]; [symmetry; now apply zsumf_zero|]. rewrite zsumf_cons, IH, <- zsumf_plus. apply zsumf_ext. intros b _. now rewrite zsumf_cons.
Qed.
Lemma one_of (f : str -> bool) T ks : NoDup ks -> In T ks -> f T = true -> (forall T', f T' = true -> T' = T) -> zsumf (fun t => if f t then 1 else 0) ks = 1.
Proof.
  intros N I H U. apply in_split in I. destruct I as (k1 & k2 & ->). apply NoDup_remove in N. destruct N as (_ & N).
  rewrite zsumf_app, zsumf_cons, H.
  rewrite !zsumf_zero; [reflexivity| |]; intros t It; destruct (f t) eqn:E; try reflexivity; exfalso; apply U in E; subst; apply N, in_or_app; tauto.
Qed.
(** bytes of which each belongs to exactly one of the types *)
Lemma count_split (P : Z -> str -> bool) ks n : NoDup ks -> forall a,
  (forall x, a <= x < a + Z.of_nat n -> exists T, In T ks /\ P x T = true /\ forall T', P x T' = true -> T' = T) ->
  zsumf (fun T => count (fun x => P x T) a n) ks = Z.of_nat n.
Proof.
  intros N. induction n as [|n IH]; intros a H; [now apply zsumf_zero|].
  assert (E : zsumf (fun T => count (fun x => P x T) a (S n)) ks = zsumf (fun T => if P a T then 1 else 0) ks + zsumf (fun T => count (fun x => P x T) (a + 1) n) ks).
  { rewrite <- zsumf_plus. apply zsumf_ext. reflexivity. }
  rewrite E, IH by (intros; apply H; lia). destruct (H a) as (T & I & Pa & U); [lia|]. rewrite (one_of (P a) T ks N I Pa U). lia.
Qed.
Lemma bytes_split (P : Z -> str -> bool) ks a n : NoDup ks -> 0 <= n ->
  (forall x, a <= x < a + n -> exists T, In T ks /\ P x T = true /\ forall T', P x T' = true -> T' = T) ->
  zsumf (fun T => bytes_with (fun x => P x T) a n) ks = n.
Proof. intros N L H. unfold bytes_with. rewrite (count_split P ks (Z.to_nat n) N a); [lia|]. intros x Hx. apply H. lia. Qed.
Lemma bytes_none_in P a n a' n' : bytes_with P a n = 0 -> a <= a' -> a' + n' <= a + n -> bytes_with P a' n' = 0.
Proof.
  intros Z0 L1 L2. destruct (Z.lt_ge_cases 0 (bytes_with P a' n')) as [H|H]; [|pose proof (bytes_nonneg P a' n'); lia].
  apply bytes_some in H. destruct H as (x & Hx & Px). assert (0 < bytes_with P a n) by (apply bytes_pos; exists x; split; [lia|exact Px]). lia.
Qed.

(** ** the memory type of a byte *)
Lemma covered_first types a : covered types a -> exists t, first_covering types a t.
Proof.
  intros (t & I & C). induction types as [|u types IH]; [destruct I|].
  assert (D : covers u a \/ ~ covers u a).
  { destruct (existsb (fun w => (fst w <=? a) && (a <? snd w)) (windows_of u)) eqn:E.
    - left. apply existsb_exists in E. destruct E as ((lo & hi) & I' & E). apply windows_of_ok in I'. cbn in E. apply andb_true_iff in E.
      destruct E as (E1 & E2). apply Z.leb_le in E1. apply Z.ltb_lt in E2. exists lo, hi. split; [exact I'|lia].
    - right. intros (lo & hi & W & H). apply windows_of_ok in W. assert (X : existsb (fun w => (fst w <=? a) && (a <? snd w)) (windows_of u) = true).
      { apply existsb_exists. exists (lo, hi). split; [exact W|]. cbn. apply andb_true_iff. split; [apply Z.leb_le|apply Z.ltb_lt]; lia. } congruence. }
  destruct D as [D|D].
  - exists u, [], types. split; [reflexivity|]. split; [exact D|]. intros u' [].
  - destruct I as [->|I]; [contradiction|]. destruct (IH I) as (t' & l1 & l2 & -> & C' & N). exists t', (u :: l1), l2. split; [reflexivity|]. split; [exact C'|].
    intros u' [<-|I']; [exact D|now apply N].
Qed.
Lemma ext_ram_In types T : ext_ram types T -> exists c, In c types /\ ct_name c = T.
Proof. intros (l1 & t & l2 & -> & E & _). exists t. split; [apply in_or_app; right; now left|exact E]. Qed.
Lemma byte_goes_In types n a T : byte_goes types n a T -> exists c, In c types /\ ct_name c = T.
Proof. intros [(_ & E)|(_ & t & F & E)]; [now apply ext_ram_In|]. exists t. split; [eapply first_covering_In; exact F|exact E]. Qed.
Lemma byte_goes_unique types n a T T' : byte_goes types n a T -> byte_goes types n a T' -> T' = T.
Proof.
  intros [(N & E)|(N & t & F & E)] [(N' & E')|(N' & t' & F' & E')].
  - eapply ext_ram_unique; eassumption.
  - exfalso. apply N'. split; [eexists; exact E|exact N].
  - exfalso. apply N. split; [eexists; exact E'|exact N'].
  - rewrite <- E, <- E'. f_equal. eapply first_covering_unique; eassumption.
Qed.
Lemma by_name_dec types n : by_name types n \/ ~ by_name types n.
Proof.
  destruct (ext_ram_alias types) as [al|] eqn:E.
  - apply ext_alias_spec in E. pose proof (ext_name_spec n) as B. destruct (existsb _ EXT_RAM_SECTION_NAMES).
    + left. split; [eexists; exact E|]. now apply B.
    + right. intros (_ & X). apply B in X. discriminate.
  - right. intros ((al & X) & _). apply ext_alias_spec in X. congruence.
Qed.
Lemma byte_goes_some rs types o a : section_mapped rs types (printed_section o) -> byte_of (printed_section o) a -> exists T, byte_goes types (pr_name o) a T.
Proof.
  intros M Ba. destruct (by_name_dec types (pr_name o)) as [N|N].
  - destruct N as ((T & E) & N). exists T. left. now split.
  - destruct M as [M|M]; [contradiction|]. destruct (M a Ba) as (r & _ & _ & H1 & H2). destruct (covered_first types a) as (t & F); [apply H2; lia|].
    exists (ct_name t). right. split; [exact N|]. exists t. now split.
Qed.

(** ** [prepare] *)
Definition kept_sections (a : args) (t : mtype) : dict str sect := if a_show_unused a then t_sections t else sections_left t.
Lemma prepare_In a m T t' : In (T, t') (m_types (prepare a m)) ->
  exists t, In (T, t) (m_types m) /\ t_sections t' = kept_sections a t.
Proof.
  unfold prepare, kept_sections. cbn zeta. set (m1 := if a_show_unused a then m else remove_unused m).
  assert (H1 : forall t', In (T, t') (m_types m1) -> exists t, In (T, t) (m_types m) /\ t_sections t' = if a_show_unused a then t_sections t else sections_left t).
  { unfold m1. destruct (a_show_unused a); [eauto|]. intros t1 I. rewrite remove_unused_types in I. apply List.in_map_iff in I. destruct I as ((T0 & t) & E & I).
    injection E as -> <-. apply filter_In in I. exists t. split; [apply I|reflexivity]. }
  destruct (a_use_flash_size a); [apply H1|]. cbn [ignore_flash_size with_types m_types]. unfold dmapk. intros I. apply List.in_map_iff in I.
  destruct I as ((T0 & t) & E & I). cbn [fst snd] in E. injection E as -> <-. destruct (H1 t I) as (t0 & I0 & E0). exists t0. split; [exact I0|]. rewrite <- E0.
  destruct (is_flash T); reflexivity.
Qed.
Lemma prepare_sections a m T t' : wf_map m -> dget T (m_types (prepare a m)) = Some t' ->
  exists t, dget T (m_types m) = Some t /\
    (forall n x, dget n (t_sections t') = Some x -> dget n (t_sections t) = Some x) /\
    (forall n x, dget n (t_sections t) = Some x -> n_sub x <> [] -> dget n (t_sections t') = Some x) /\
    wf_dict (t_sections t').
Proof.
  intros W E. apply dget_In in E. destruct (prepare_In _ _ _ _ E) as (t & I & S1). exists t. split; [apply In_dget; [apply W|exact I]|].
  assert (Wt : wf_dict (t_sections t)) by (destruct W as (_ & F); rewrite Forall_forall in F; apply (F _ I)).
  rewrite S1. unfold kept_sections. destruct (a_show_unused a); [now repeat split|].
  assert (Wl : wf_dict (sections_left t)) by apply NoDup_map_filter, Wt. split; [|split; [|exact Wl]].
  - intros n x G. apply dget_In in G. apply filter_In in G. apply In_dget; [exact Wt|apply G].
  - intros n x G N. apply dget_In in G. apply In_dget; [exact Wl|]. apply filter_In. split; [exact G|]. cbn. destruct (n_sub x); [contradiction|reflexivity].
Qed.
Lemma prepare_has a m T t : dget T (m_types m) = Some t -> t_used t <> 0 -> exists t', dget T (m_types (prepare a m)) = Some t'.
Proof.
  intros E U. assert (I : In T (keys (m_types (prepare a m)))).
  { apply dget_In in E. unfold prepare. cbn zeta. set (m1 := if a_show_unused a then m else remove_unused m).
    assert (I1 : In T (keys (m_types m1))).
    { unfold m1. destruct (a_show_unused a); [apply (List.in_map fst) in E; exact E|]. rewrite remove_unused_types. unfold keys. rewrite map_map. cbn [fst].
      apply (List.in_map fst) with (x := (T, t)). apply filter_In. split; [exact E|]. cbn. apply negb_true_iff, Z.eqb_neq, U. }
    destruct (a_use_flash_size a); [exact I1|]. cbn [ignore_flash_size with_types m_types]. unfold keys, dmapk. rewrite map_map. exact I1. }
  destruct (dget T (m_types (prepare a m))) as [t'|] eqn:G; [now exists t'|]. apply dget_None in G. contradiction.
Qed.
Lemma wf_prepare a m : wf_map m -> wf_map (prepare a m).
Proof.
  intros W. unfold prepare. cbn zeta. destruct (a_show_unused a), (a_use_flash_size a); repeat first [apply wf_ignore|apply wf_remove_unused|exact W].
Qed.

Section Rows.
Variables (rs : list region) (l : list printed) (im : option (list (str * xshdr))) (types : list chip_type).
Variables (m : memmap) (a : args) (keep : printed -> bool) (b : str -> Z -> str -> bool).
Hypothesis Se : Forall (fun o => counted im o -> section_mapped rs types (printed_section o) /\ items_in o) l.
Hypothesis Sz : Forall (fun o => Forall (fun i => 0 <= it_size i) (pr_items o)) l.
Hypothesis K : forall o, keep o = true <-> counted im o.
Hypothesis Bb : forall n a T, b n a T = true <-> byte_goes types n a T.
Hypothesis W : wf_map m.
Hypothesis Nm : NoDup (map pr_name (filter keep l)).
Hypothesis Ks : forall t, In t (keys (m_types m)) <-> exists c, In c types /\ ct_name c = t.
Hypothesis Us : forall T t, dget T (m_types m) = Some t ->
  t_used t = zsumf (fun o => bytes_with (fun a => b (pr_name o) a T) (pr_addr o) (pr_size o)) (filter keep l).
Hypothesis Li : forall T t, dget T (m_types m) = Some t -> forall o, In o l -> counted im o ->
  listed_as b T (printed_section o) (dget (pr_name o) (t_sections t)).
Hypothesis Lo : forall T t, dget T (m_types m) = Some t -> forall n x, dget n (t_sections t) = Some x -> exists o, In o l /\ counted im o /\ pr_name o = n.
Let m' := prepare a m.

Lemma one_type o i : In o l -> counted im o -> In i (pr_items o) ->
  zsumf (fun T => bytes_with (fun x => b (pr_name o) x T) (it_addr i) (it_size i)) (keys (m_types m)) = it_size i.
Proof.
  intros Io Co Ii. rewrite Forall_forall in Se, Sz. destruct (Se o Io Co) as (M & In0). unfold items_in in In0. rewrite Forall_forall in In0.
  specialize (Sz o Io). rewrite Forall_forall in Sz.
  apply (bytes_split (fun x T => b (pr_name o) x T)); [apply W|now apply Sz|].
  intros x Hx. destruct (byte_goes_some rs types o x M) as (T & G); [specialize (In0 i Ii); split; cbn; lia|]. exists T. split.
  - apply Ks. eapply byte_goes_In; exact G.
  - split; [now apply Bb|]. intros T' G'. apply Bb in G'. eapply byte_goes_unique; eassumption.
Qed.

Section Row.
Variables (own : item -> bool) (p : list str).
Let bytes_of (T : str) (o : printed) : Z := zsumf (fun i => bytes_with (fun x => b (pr_name o) x T) (it_addr i) (it_size i)) (filter own (pr_items o)).
Hypothesis Ho : forall T o x, listed_as b T (printed_section o) (Some x) -> esize (look_sect p x) = bytes_of T o.
Hypothesis He : forall x, n_sub x = [] -> look_sect p x = None.

Lemma bytes_of_none T o : In o l -> counted im o -> bytes_with (fun x => b (pr_name o) x T) (pr_addr o) (pr_size o) = 0 -> bytes_of T o = 0.
Proof.
  intros Io Co E. apply zsumf_zero. intros i Ii. apply filter_In in Ii. destruct Ii as (Ii & _). rewrite Forall_forall in Se. destruct (Se o Io Co) as (_ & In0).
  unfold items_in in In0. rewrite Forall_forall in In0. specialize (In0 i Ii). eapply bytes_none_in; [exact E|lia|lia].
Qed.
(** what the map has for an output section *)
Lemma row_section T t' o : dget T (m_types m') = Some t' -> In o l -> counted im o ->
  match dget (pr_name o) (t_sections t') with Some x => esize (look_sect p x) | None => 0 end = bytes_of T o.
Proof.
  intros E Io Co. destruct (prepare_sections _ _ _ _ W E) as (t & Et & S1 & S2 & _). pose proof (Li T t Et o Io Co) as L.
  destruct (dget (pr_name o) (t_sections t')) as [x|] eqn:G.
  - apply S1 in G. apply Ho. rewrite <- G. exact L.
  - symmetry. revert L. generalize (S2 (pr_name o)). destruct (dget (pr_name o) (t_sections t)) as [x|]; intros S3 L.
    + assert (Ex : n_sub x = []). { destruct (n_sub x) eqn:Ex; [reflexivity|]. assert (X : n_sub x <> []) by congruence. specialize (S3 x eq_refl X). congruence. }
      rewrite <- (Ho T o x L), (He x Ex). reflexivity.
    + now apply bytes_of_none.
Qed.
Lemma row_type T t' : dget T (m_types m') = Some t' ->
  zsumf (fun kv => esize (look_sect p (snd kv))) (t_sections t') = zsumf (bytes_of T) (filter keep l).
Proof.
  intros E. destruct (prepare_sections _ _ _ _ W E) as (t & Et & S1 & S2 & Wt).
  rewrite (dict_sum (fun x => esize (look_sect p x)) pr_name (t_sections t') Wt (filter keep l) Nm).
  - apply zsumf_ext. intros o Io. apply filter_In in Io. destruct Io as (Io & Ko). apply row_section; [exact E|exact Io|now apply K].
  - intros n x G. apply S1 in G. destruct (Lo T t Et n x G) as (o & Io & Co & En). exists o. split; [|exact En]. apply filter_In. split; [exact Io|now apply K].
Qed.
Lemma row_dropped T : In T (keys (m_types m)) -> ~ In T (keys (m_types m')) -> zsumf (bytes_of T) (filter keep l) = 0.
Proof.
  intros I N. destruct (dget T (m_types m)) as [t|] eqn:Et; [|apply dget_None in Et; contradiction].
  assert (U : t_used t = 0). { destruct (Z.eq_dec (t_used t) 0) as [U|U]; [exact U|]. exfalso. destruct (prepare_has a m T t Et U) as (t' & E'). apply N.
    apply dget_In in E'. apply (List.in_map fst) in E'. exact E'. }
  rewrite (Us T t Et) in U. apply zsumf_zero. intros o Io. pose proof Io as Io'. apply filter_In in Io'. destruct Io' as (Il & Ko). apply bytes_of_none; [exact Il|now apply K|].
  destruct (Z.eq_dec (bytes_with (fun x => b (pr_name o) x T) (pr_addr o) (pr_size o)) 0) as [Z0|Z0]; [exact Z0|]. exfalso.
  assert (0 < zsumf (fun o => bytes_with (fun a => b (pr_name o) a T) (pr_addr o) (pr_size o)) (filter keep l)).
  { apply (zsumf_pos _ _ o); [intros; apply bytes_nonneg|exact Io|]. pose proof (bytes_nonneg (fun x => b (pr_name o) x T) (pr_addr o) (pr_size o)). lia. } lia.
Qed.
Lemma row_total : zsumf (fun T => zsumf (bytes_of T) (filter keep l)) (keys (m_types m')) = zsumf (fun o => zsumf it_size (filter own (pr_items o))) (filter keep l).
Proof.
  transitivity (zsumf (fun T => zsumf (bytes_of T) (filter keep l)) (keys (m_types m))).
  - assert (Wk : NoDup (keys (m_types m))) by apply W. assert (Wk' : NoDup (keys (m_types m'))) by apply (wf_prepare a m W).
    assert (Sub : forall T, In T (keys (m_types m')) -> In T (keys (m_types m))).
    { intros T I. destruct (dget T (m_types m')) as [t'|] eqn:E; [|apply dget_None in E; contradiction].
      destruct (prepare_sections _ _ _ _ W E) as (t & Et & _). apply dget_In in Et. apply (List.in_map fst) in Et. exact Et. }
    rewrite (zsumf_split (fun T => mem T (keys (m_types m'))) _ (keys (m_types m))).
    rewrite (zsumf_zero _ (filter (fun x => negb (mem x (keys (m_types m')))) (keys (m_types m)))).
    + rewrite Z.add_0_r. apply zsumf_perm. apply NoDup_Permutation; [exact Wk'|apply NoDup_filter, Wk|]. intros T. rewrite filter_In, mem_In. split; [auto|tauto].
    + intros T I. apply filter_In in I. destruct I as (I & N). apply negb_true_iff in N. apply row_dropped; [exact I|]. intros X. apply mem_In in X. congruence.
  - rewrite zsumf_swap. apply zsumf_ext. intros o Io. apply filter_In in Io. destruct Io as (Io & Ko). apply K in Ko.
    unfold bytes_of. rewrite zsumf_swap. apply zsumf_ext. intros i Ii. apply filter_In in Ii. apply one_type; [exact Io|exact Ko|apply Ii].
Qed.

Lemma row_report_ok e : row_ok m' (fun t s => look m' t (s :: p)) e -> row_report im types l own e.
Proof.
  intros (Ke & Ze & _ & Rt).
  assert (Wk' : NoDup (keys (m_types m'))) by apply (wf_prepare a m W).
  assert (Wse : wf_dict (se_types e)) by (unfold wf_dict; rewrite Ke; exact Wk').
  assert (St : forall T st, In (T, st) (se_types e) -> exists t', dget T (m_types m') = Some t' /\ keys (st_sections st) = keys (t_sections t') /\
    (forall n q, In (n, q) (st_sections st) -> exists x, dget n (t_sections t') = Some x /\ ss_size q = esize (look_sect p x)) /\
    st_size st = zsumf (bytes_of T) (filter keep l)).
  { intros T st I. apply In_dget in I; [|exact Wse]. destruct (Rt T st I) as (Kq & Zq & _ & Q).
    destruct (dget T (m_types m')) as [t'|] eqn:E; [|discriminate Kq]. cbn [option_map] in Kq. injection Kq as Kq. exists t'. split; [reflexivity|]. split; [exact Kq|].
    destruct (prepare_sections _ _ _ _ W E) as (t & Et & S1 & S2 & Wt).
    assert (Wq : wf_dict (st_sections st)) by (unfold wf_dict; rewrite Kq; exact Wt).
    assert (Qx : forall n q, In (n, q) (st_sections st) -> exists x, dget n (t_sections t') = Some x /\ ss_size q = esize (look_sect p x)).
    { intros n q Iq. apply In_dget in Iq; [|exact Wq]. destruct (Q n q Iq) as (Q1 & _). rewrite Q1. unfold look. rewrite E. cbn [look_dict].
      assert (In n (keys (t_sections t'))) by (rewrite <- Kq; apply dget_In in Iq; apply (List.in_map fst) in Iq; exact Iq).
      destruct (dget n (t_sections t')) as [x|] eqn:G; [|apply dget_None in G; contradiction]. exists x. split; reflexivity. }
    split; [exact Qx|]. rewrite Zq, <- (row_type T t' E).
    clear - Kq Qx Wt. revert Kq Qx. unfold keys. generalize (st_sections st). revert Wt. generalize (t_sections t'). intros D Wt Q0.
    (* both dictionaries have the same keys in the same order *)
    intros Kq Qx. assert (H : forall n q x, In (n, q) Q0 -> In (n, x) D -> ss_size q = esize (look_sect p x)).
    { intros n q x I1 I2. destruct (Qx n q I1) as (x' & G & ->). apply In_dget in I2; [|exact Wt]. congruence. }
    clear Wt Qx. revert D Kq H. induction Q0 as [|[n q] Q0 IH]; intros [|[n' x] D] Kq H; try discriminate; [reflexivity|].
    cbn [map fst] in Kq. injection Kq as -> Kq. rewrite !zsumf_cons. cbn [snd]. rewrite (H n' q x (or_introl eq_refl) (or_introl eq_refl)).
    f_equal. apply IH; [exact Kq|]. intros; eapply H; right; eassumption. }
  split.
  - exists keep. split; [exact K|]. rewrite Ze, <- row_total, <- Ke.
    assert (E : zsumf (fun kv => st_size (snd kv)) (se_types e) = zsumf (fun kv => zsumf (bytes_of (fst kv)) (filter keep l)) (se_types e)).
    { apply zsumf_ext. intros [T st] I. destruct (St T st I) as (t' & _ & _ & _ & E). exact E. }
    rewrite E. unfold keys. rewrite zsumf_map. reflexivity.
  - exact Wse.
  - intros T st I. destruct (St T st I) as (t' & E & _). destruct (prepare_sections _ _ _ _ W E) as (t & Et & _).
    apply Ks. apply dget_In in Et. apply (List.in_map fst) in Et. exact Et.
  - intros T st I. destruct (St T st I) as (t' & _ & _ & _ & E). exists keep, (fun o x => b (pr_name o) x T). split; [exact K|]. split; [intros; apply Bb|]. exact E.
  - intros T st n q I Iq. destruct (St T st I) as (t' & E & _ & Q & _). destruct (Q n q Iq) as (x & G & Eq).
    destruct (prepare_sections _ _ _ _ W E) as (t & Et & S1 & _). destruct (Lo T t Et n x (S1 n x G)) as (o & Io & Co & En). exists o. do 3 (split; [assumption|]).
    exists (fun x => b (pr_name o) x T). split; [intros; apply Bb|]. pose proof (row_section T t' o E Io Co) as R. rewrite En, G in R. rewrite Eq, R. reflexivity.
  - intros o T n Io Co (b' & B' & ->) Nz.
    assert (Eb : zsumf (fun i => bytes_with b' (it_addr i) (it_size i)) (filter own (pr_items o)) = bytes_of T o).
    { apply zsumf_ext. intros i _. apply bytes_ext. intros x. apply eq_true_iff_eq. rewrite B', Bb. reflexivity. }
    rewrite Eb in *.
    assert (Pb : forall q, 0 <= bytes_of T q) by (intros q; apply zsumf_nonneg; intros; apply bytes_nonneg).
    assert (IT : In T (keys (m_types m'))).
    { destruct (mem T (keys (m_types m'))) eqn:Me; [now apply mem_In|]. exfalso.
      assert (Z0 : zsumf (bytes_of T) (filter keep l) = 0).
      { apply row_dropped; [|intros X; apply mem_In in X; congruence]. apply Ks.
        assert (P : exists i, In i (filter own (pr_items o)) /\ bytes_with (fun x => b (pr_name o) x T) (it_addr i) (it_size i) <> 0).
        { clear -Nz. unfold bytes_of in Nz. revert Nz. induction (filter own (pr_items o)) as [|i q IH]; intros Nz; [contradiction|]. rewrite zsumf_cons in Nz.
          destruct (Z.eq_dec (bytes_with (fun x => b (pr_name o) x T) (it_addr i) (it_size i)) 0) as [Z0|Z0]; [|exists i; split; [now left|exact Z0]].
          destruct IH as (i' & I' & N'); [lia|]. exists i'. split; [now right|exact N']. }
        destruct P as (i & _ & P). pose proof (bytes_nonneg (fun x => b (pr_name o) x T) (it_addr i) (it_size i)).
        destruct (bytes_some (fun x => b (pr_name o) x T) (it_addr i) (it_size i)) as (x & _ & G); [lia|]. apply Bb in G. eapply byte_goes_In; exact G. }
      assert (0 < zsumf (bytes_of T) (filter keep l)); [|lia].
      apply (zsumf_pos _ _ o); [intros; apply Pb|apply filter_In; split; [exact Io|now apply K]|]. specialize (Pb o). lia. }
    rewrite <- Ke in IT. unfold keys in IT. apply List.in_map_iff in IT. destruct IT as ((T0 & st) & E0 & I). cbn in E0. subst T0.
    destruct (St T st I) as (t' & E & Kq & Q & _). pose proof (row_section T t' o E Io Co) as R.
    destruct (dget (pr_name o) (t_sections t')) as [x|] eqn:G; [|congruence].
    assert (Iq : In (pr_name o) (keys (st_sections st))) by (rewrite Kq; apply dget_In in G; apply (List.in_map fst) in G; exact G).
    unfold keys in Iq. apply List.in_map_iff in Iq. destruct Iq as ((n0 & q) & E0 & Iq). cbn in E0. subst n0.
    exists st, q. split; [exact I|]. split; [exact Iq|]. destruct (Q _ _ Iq) as (x' & G' & ->). rewrite <- R. congruence.
Qed.
End Row.
End Rows.
