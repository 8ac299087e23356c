From Coq Require Import Ascii String List ZArith Lia Bool Permutation Sorted.
From Verif Require Import Base MemMap SpecTree SpecOps Filter Pipeline SpecPipe SpecBuild SpecBytes SpecShape ProofOps ProofTrim ProofSummary ProofSummary2 ProofSummary3 Fixtures ProofBuild ProofRegions ProofTypes ProofBytes ProofBytes2 ProofBytes3 ProofShape PyStr MapFile SpecMap
  ElfRead SpecElf Project SpecProject ProofProject2 SpecEnd ProofEnd Chips SpecChips ProofChips Deps Table SpecTable Formats ProofFormats Main SpecMain ProofMain ProofMain4 ProofMain5 Command SpecCommand SpecFail SpecReport
  ProofCommand1 ProofCommand2 ProofCommand3 ProofCommand4 ProofCommand5.
Import ListNotations.
Open Scope list_scope.
Open Scope Z_scope.

(** ** everything a report needs to know of the memory map of one project *)
Record ledger (a : args) (k : account) (mm : memmap) (lu : str -> Z) (ln : str -> str -> Z) (lo : (item -> bool) -> str -> str -> Z) : Prop := {
  lg_wf : wf_map mm;
  lg_used : forall T, type_used_at mm T = lu T;
  lg_used_is : forall T n, used_bytes T k n <-> n = lu T;
  lg_listed : forall T, dget T (m_types mm) <> None <-> lists_type a T k;
  lg_name : forall T N, size_at mm T [N] = ln T N;
  lg_name_is : forall T N n, name_bytes T N k n <-> n = ln T N;
  lg_section : forall T N, look mm T [N] <> None <-> 0 < ln T N;
  lg_archive : forall T N x, size_at mm T [N; x] = lo (of_archive x) T N;
  lg_object : forall T N x o, size_at mm T [N; x; o] = lo (of_object x o) T N;
  lg_sect_is : forall own T N n, own_bytes own (ColSect T N) k n <-> n = lo own T N;
  lg_type_is : forall own T Ns, NoDup Ns -> (forall N, 0 < ln T N -> In N Ns) -> forall n, own_bytes own (ColType T) k n <-> n = zsumf (lo own T) Ns;
  lg_all_is : forall own Ts (Ns : str -> list str), NoDup Ts -> (forall T, lists_type a T k -> In T Ts) ->
    (forall T, In T Ts -> NoDup (Ns T) /\ forall N, 0 < ln T N -> In N (Ns T)) ->
    forall n, own_bytes own ColTotal k n <-> n = zsumf (fun T => zsumf (lo own T) (Ns T)) Ts;
  lg_places_archive : forall x, (exists T N, look mm T [N; x] <> None) <-> exists i, places i k /\ it_archive i = x;
  lg_places_object : forall x o, (exists T N, look mm T [N; x; o] <> None) <-> exists i, places i k /\ it_archive i = x /\ it_object i = o;
  lg_label : forall T p e, look mm T p = Some e -> label p (e_abbrev e);
  lg_same : forall T p e, look mm T p = Some e -> e_diff e = 0;
  lg_same_type : forall T t, dget T (m_types mm) = Some t -> t_used_diff t = 0 /\ t_size_diff t = 0;
  lg_total : forall T, total_bytes a T k (type_size_at mm T);
  lg_image : image_bytes (ac_im k) (ac_l k) (m_image_size mm) /\ m_image_size_diff mm = 0 }.

Lemma zsumf_filter_if {A} (p q : A -> bool) (f : A -> Z) l :
  zsumf f (filter (fun x => p x && q x) l) = zsumf (fun x => if q x then f x else 0) (filter p l).
Proof. induction l as [|x l IH]; [reflexivity|]. cbn [filter]. destruct (p x); cbn [andb]; [|exact IH]. rewrite zsumf_cons. destruct (q x); rewrite ?zsumf_cons, IH; lia. Qed.
Lemma zsumf_if_in (n : str) (f : Z) Ns : NoDup Ns -> zsumf (fun N => if n =?= N then f else 0) Ns = if mem n Ns then f else 0.
Proof.
  induction Ns as [|N Ns IH]; intros D; [reflexivity|]. apply NoDup_cons_iff in D. destruct D as (D1 & D2). rewrite zsumf_cons, (IH D2). cbn [mem existsb].
  change (existsb (fun y => n =?= y) Ns) with (mem n Ns). destruct (n =?= N) eqn:E; cbn [orb]; [|lia]. apply keq_eq in E. subst N.
  destruct (mem n Ns) eqn:M; [|lia]. apply mem_In in M. contradiction.
Qed.

Section Ledger.
Variables (rs : list region) (l : list printed) (im : option (list (str * xshdr))) (types : list chip_type).
Variables (m : memmap) (a : args) (keep : printed -> bool) (b : str -> Z -> str -> bool) (groups : list (list sregion)).
Hypothesis Se : Forall (fun o => counted im o -> section_mapped rs types (printed_section o) /\ items_in o) l.
Hypothesis Sz : Forall (fun o => Forall (fun i => 0 <= it_size i) (pr_items o)) l.
Hypothesis K : forall o, keep o = true <-> counted im o.
Hypothesis Bb : forall n a T, b n a T = true <-> byte_goes types n a T.
Hypothesis Pr : pristine m.
Hypothesis Nm : NoDup (map pr_name (filter keep l)).
Hypothesis Ks : forall t, In t (keys (m_types m)) <-> exists c, In c types /\ ct_name c = t.
Hypothesis Us : forall T t, dget T (m_types m) = Some t ->
  t_used t = zsumf (fun o => bytes_with (fun a => b (pr_name o) a T) (pr_addr o) (pr_size o)) (filter keep l).
Hypothesis Li : forall T t, dget T (m_types m) = Some t -> forall o, In o l -> counted im o ->
  listed_as b T (printed_section o) (dget (pr_name o) (t_sections t)).
Hypothesis Lo : forall T t, dget T (m_types m) = Some t -> forall n x, dget n (t_sections t) = Some x -> exists o, In o l /\ counted im o /\ pr_name o = n.
Hypothesis Gr : Forall2 (region_parts types) (filter listed_region rs) groups.
Hypothesis Tz : forall T t, dget T (m_types m) = Some t -> t_size t = type_size T (concat groups).
Hypothesis Im : image_bytes im l (m_image_size m).
Let m' := prepare a m.
Hypothesis Em : m_types m' = map (shown_type a) (filter (fun kv => a_show_unused a || negb (t_used (snd kv) =? 0)) (m_types m)).
Hypothesis Ei : m_image_size m' = m_image_size m.
Hypothesis Ed : m_image_size_diff m' = 0.
Let W : wf_map m := proj1 Pr.

Let U (T : str) : Z := zsumf (fun o => bytes_with (fun x => b (pr_name o) x T) (pr_addr o) (pr_size o)) (filter keep l).
Let V (T N : str) : Z := zsumf (fun o => bytes_with (fun x => b N x T) (pr_addr o) (pr_size o)) (filter (fun o => keep o && (pr_name o =?= N)) l).
Let O (own : item -> bool) (T N : str) : Z :=
  zsumf (fun o => zsumf (fun i => bytes_with (fun x => b N x T) (it_addr i) (it_size i)) (filter own (pr_items o))) (filter (fun o => keep o && (pr_name o =?= N)) l).
Let bytes_of (own : item -> bool) (T : str) (o : printed) : Z :=
  zsumf (fun i => bytes_with (fun x => b (pr_name o) x T) (it_addr i) (it_size i)) (filter own (pr_items o)).
Let Q (T : str) : Prop := a_show_unused a = true \/ U T <> 0.

Lemma le_named N o : In o (filter (fun o => keep o && (pr_name o =?= N)) l) -> In o l /\ counted im o /\ pr_name o = N.
Proof. intros I. apply filter_In in I. destruct I as (I & E). apply andb_true_iff in E. destruct E as (E1 & E2). apply keq_eq in E2. split; [exact I|]. split; [now apply K|exact E2]. Qed.
Lemma le_V_if T N : V T N = zsumf (fun o => if pr_name o =?= N then bytes_with (fun x => b (pr_name o) x T) (pr_addr o) (pr_size o) else 0) (filter keep l).
Proof.
  unfold V. rewrite zsumf_filter_if. apply zsumf_ext. intros o _. destruct (pr_name o =?= N) eqn:E; [|reflexivity]. apply keq_eq in E. now rewrite E.
Qed.
Lemma le_O_if own T N : O own T N = zsumf (fun o => if pr_name o =?= N then bytes_of own T o else 0) (filter keep l).
Proof.
  unfold O. rewrite zsumf_filter_if. apply zsumf_ext. intros o _. destruct (pr_name o =?= N) eqn:E; [|reflexivity]. apply keq_eq in E. unfold bytes_of. now rewrite E.
Qed.
Lemma zsumf_zero_all {A} (f : A -> Z) q : (forall x, In x q -> 0 <= f x) -> zsumf f q = 0 -> forall x, In x q -> f x = 0.
Proof.
  intros P Z0 x I. pose proof (P x I). destruct (Z.eq_dec (f x) 0) as [E|E]; [exact E|]. assert (0 < zsumf f q) by (apply (zsumf_pos f q x P I); lia). lia.
Qed.
Lemma le_V_pos T N : 0 <= V T N.
Proof. apply zsumf_nonneg. intros; apply bytes_nonneg. Qed.
Lemma le_U_V T N : U T = 0 -> V T N = 0.
Proof.
  intros Z0. rewrite le_V_if. apply zsumf_zero. intros o Io. destruct (pr_name o =?= N); [|reflexivity].
  apply (zsumf_zero_all _ _ (fun o _ => bytes_nonneg _ _ _) Z0 o Io).
Qed.
Lemma le_one T N o : V T N = 0 -> In o l -> counted im o -> pr_name o = N -> bytes_with (fun x => b N x T) (pr_addr o) (pr_size o) = 0.
Proof.
  intros Z0 Io Co En. apply (zsumf_zero_all _ _ (fun o _ => bytes_nonneg _ _ _) Z0 o). apply filter_In. split; [exact Io|].
  apply andb_true_iff. split; [now apply K|]. rewrite En. apply keq_refl.
Qed.
Lemma le_V_bytes own T o : V T (pr_name o) = 0 -> In o l -> counted im o -> bytes_of own T o = 0.
Proof. intros Z0 Io Co. unfold bytes_of. eapply (bytes_of_none rs l im types b Se); [exact Io|exact Co|]. now apply le_one. Qed.
Lemma le_V_O own T N : V T N = 0 -> O own T N = 0.
Proof.
  intros Z0. rewrite le_O_if. apply zsumf_zero. intros o Io. destruct (pr_name o =?= N) eqn:E; [|reflexivity]. apply keq_eq in E. subst N.
  apply filter_In in Io. apply le_V_bytes; [exact Z0|apply Io|apply K, Io].
Qed.
(** memory types outside the chip have no bytes *)
Lemma le_chip T : U T <> 0 -> exists t, dget T (m_types m) = Some t.
Proof.
  intros N. destruct (dget T (m_types m)) as [t|] eqn:E; [eauto|]. exfalso. apply N. apply dget_None in E. apply zsumf_zero. intros o _.
  destruct (Z.eq_dec (bytes_with (fun x => b (pr_name o) x T) (pr_addr o) (pr_size o)) 0) as [Z0|Z0]; [exact Z0|]. exfalso. apply E. apply Ks.
  pose proof (bytes_nonneg (fun x => b (pr_name o) x T) (pr_addr o) (pr_size o)).
  destruct (bytes_some (fun x => b (pr_name o) x T) (pr_addr o) (pr_size o)) as (x & _ & G); [lia|]. apply Bb in G. eapply byte_goes_In; exact G.
Qed.

Lemma le_get T t' : dget T (m_types m') = Some t' <-> exists t, dget T (m_types m) = Some t /\ Q T /\ t' = snd (shown_type a (T, t)).
Proof.
  assert (Wd : wf_dict (m_types m)) by apply W. assert (Wd' : wf_dict (m_types m')) by apply (wf_prepare a m W). split.
  - intros E. apply dget_In in E. rewrite Em in E. apply List.in_map_iff in E. destruct E as ([T0 t] & E & I). cbn [shown_type fst snd] in E. injection E as -> <-.
    apply filter_In in I. destruct I as (I & Qb). apply In_dget in I; [|exact Wd]. exists t. split; [exact I|]. split; [|reflexivity].
    cbn [snd] in Qb. apply orb_true_iff in Qb. destruct Qb as [Qb|Qb]; [now left|]. right. apply negb_true_iff, Z.eqb_neq in Qb. rewrite (Us T t I) in Qb. exact Qb.
  - intros (t & E & Hq & ->). apply In_dget; [exact Wd'|]. rewrite Em. apply List.in_map_iff. exists (T, t). split; [reflexivity|]. apply filter_In.
    split; [now apply dget_In|]. cbn [snd]. apply orb_true_iff. destruct Hq as [Hq|Hq]; [now left|]. right. apply negb_true_iff, Z.eqb_neq. rewrite (Us T t E). exact Hq.
Qed.
Lemma le_none T : dget T (m_types m') = None -> U T = 0.
Proof.
  intros E. destruct (Z.eq_dec (U T) 0) as [Z0|Z0]; [exact Z0|]. exfalso. destruct (le_chip T Z0) as (t & Et).
  assert (X : dget T (m_types m') = Some (snd (shown_type a (T, t)))) by (apply le_get; exists t; split; [exact Et|split; [now right|reflexivity]]). congruence.
Qed.

Lemma le_look T p : look m' T p = match dget T (m_types m) with Some t => match dget T (m_types m') with Some _ => look_dict look_sect p (t_sections t) | None => None end | None => None end.
Proof.
  unfold look. destruct (dget T (m_types m')) as [t'|] eqn:E.
  - apply le_get in E. destruct E as (t & Et & _ & ->). rewrite Et. reflexivity.
  - destruct (dget T (m_types m)); reflexivity.
Qed.

(** what the map has below a section *)
Section Path.
Variables (own : item -> bool) (p : list str).
Hypothesis Ho : forall T o x, listed_as b T (printed_section o) (Some x) -> esize (look_sect p x) = bytes_of own T o.
Lemma le_named_one T N o : In o l -> counted im o -> pr_name o = N -> O own T N = bytes_of own T o /\ V T N = bytes_with (fun x => b N x T) (pr_addr o) (pr_size o).
Proof.
  intros Io Co En. assert (F : filter (fun o => keep o && (pr_name o =?= N)) l = [o]).
  { assert (I0 : In o (filter keep l)) by (apply filter_In; split; [exact Io|now apply K]).
    assert (E : filter (fun o => keep o && (pr_name o =?= N)) l = filter (fun o => pr_name o =?= N) (filter keep l)).
    { clear. induction l as [|x q IH]; [reflexivity|]. cbn [filter]. destruct (keep x); cbn [andb]; [cbn [filter]; destruct (pr_name x =?= N); now rewrite IH|exact IH]. }
    rewrite E. clear E. apply in_split in I0. destruct I0 as (q1 & q2 & E). rewrite E in *. rewrite map_app in Nm. cbn [map] in Nm. apply NoDup_remove_2 in Nm. rewrite <- map_app, En in Nm.
    rewrite filter_app. cbn [filter]. rewrite En, keq_refl.
    assert (Z0 : forall q, incl q (q1 ++ q2) -> filter (fun o => pr_name o =?= N) q = []).
    { induction q as [|x q IH]; intros Iq; [reflexivity|]. cbn [filter]. destruct (pr_name x =?= N) eqn:Ex; [|apply IH; intros z Z0; apply Iq; now right].
      apply keq_eq in Ex. exfalso. apply Nm. rewrite <- Ex. apply List.in_map. apply Iq. now left. }
    rewrite !Z0; [reflexivity| |]; intros z Hz; apply in_or_app; tauto. }
  unfold O, V. rewrite F, !zsumf_cons. unfold bytes_of. rewrite En. split; change (@nil printed) with (@nil printed); cbn; rewrite ?Z.add_0_r; reflexivity.
Qed.
Lemma le_path T N : size_at m' T (N :: p) = O own T N.
Proof.
  unfold size_at. rewrite le_look. destruct (dget T (m_types m')) as [t'|] eqn:E'.
  2:{ assert (X : O own T N = 0) by (apply le_V_O, le_U_V, le_none, E'). rewrite X. destruct (dget T (m_types m)); reflexivity. }
  apply le_get in E'. destruct E' as (t & Et & _ & ->). rewrite Et. cbn [look_dict].
  destruct (dget N (t_sections t)) as [x|] eqn:G.
  - destruct (Lo T t Et N x G) as (o & Io & Co & En). destruct (le_named_one T N o Io Co En) as (-> & _). pose proof (Li T t Et o Io Co) as L. rewrite En, G in L.
    rewrite <- (Ho T o x L). unfold esize. reflexivity.
  - symmetry. destruct (Z.eq_dec (O own T N) 0) as [Z0|Z0]; [exact Z0|]. exfalso. apply Z0. apply le_V_O.
    destruct (filter (fun o => keep o && (pr_name o =?= N)) l) as [|o q] eqn:F; [unfold V; rewrite F; reflexivity|].
    assert (I0 : In o (filter (fun o => keep o && (pr_name o =?= N)) l)) by (rewrite F; now left). apply le_named in I0. destruct I0 as (Io & Co & En).
    destruct (le_named_one T N o Io Co En) as (_ & ->). pose proof (Li T t Et o Io Co) as L. rewrite En, G in L. apply listed_size in L. rewrite En in L. exact L.
Qed.
End Path.

Lemma le_name T N : size_at m' T [N] = V T N /\ (look m' T [N] <> None <-> 0 < V T N).
Proof.
  unfold size_at. rewrite le_look. destruct (dget T (m_types m')) as [t'|] eqn:E'.
  2:{ assert (X : V T N = 0) by (apply le_U_V, le_none, E'). rewrite X. destruct (dget T (m_types m)); (split; [reflexivity|split; [congruence|lia]]). }
  apply le_get in E'. destruct E' as (t & Et & _ & ->). rewrite Et. cbn [look_dict].
  destruct (dget N (t_sections t)) as [x|] eqn:G.
  - destruct (Lo T t Et N x G) as (o & Io & Co & En). destruct (le_named_one (fun _ => true) T N o Io Co En) as (_ & ->). pose proof (Li T t Et o Io Co) as L. rewrite En, G in L.
    pose proof (listed_size _ _ _ _ L) as Lz. rewrite En in Lz. rewrite Lz. destruct L as (L & _). cbn [printed_section o_addr o_size o_name] in L. rewrite En, Lz in L.
    split; [reflexivity|]. split; [intros _; exact L|discriminate].
  - assert (X : V T N = 0).
    { destruct (filter (fun o => keep o && (pr_name o =?= N)) l) as [|o q] eqn:F; [unfold V; rewrite F; reflexivity|].
      assert (I0 : In o (filter (fun o => keep o && (pr_name o =?= N)) l)) by (rewrite F; now left). apply le_named in I0. destruct I0 as (Io & Co & En).
      destruct (le_named_one (fun _ => true) T N o Io Co En) as (_ & ->). pose proof (Li T t Et o Io Co) as L. rewrite En, G in L. apply listed_size in L. rewrite En in L. exact L. }
    rewrite X. split; [reflexivity|]. split; [congruence|lia].
Qed.

(** sums *)
Lemma le_type own T Ns : NoDup Ns -> (forall N, 0 < V T N -> In N Ns) -> zsumf (O own T) Ns = zsumf (bytes_of own T) (filter keep l).
Proof.
  intros D C. transitivity (zsumf (fun N => zsumf (fun o => if pr_name o =?= N then bytes_of own T o else 0) (filter keep l)) Ns).
  { apply zsumf_ext. intros N _. apply le_O_if. }
  rewrite zsumf_swap. apply zsumf_ext. intros o Io. apply filter_In in Io. destruct Io as (Io & Ko). rewrite zsumf_if_in by exact D.
  destruct (mem (pr_name o) Ns) eqn:Me; [reflexivity|]. symmetry. apply le_V_bytes; [|exact Io|now apply K].
  pose proof (le_V_pos T (pr_name o)). destruct (Z.eq_dec (V T (pr_name o)) 0) as [Z0|Z0]; [exact Z0|]. exfalso.
  assert (In (pr_name o) Ns) by (apply C; lia). apply mem_In in H0. congruence.
Qed.
Lemma le_all own Ts : NoDup Ts -> (forall T, U T <> 0 -> In T Ts) ->
  zsumf (fun T => zsumf (bytes_of own T) (filter keep l)) Ts = zsumf (fun o => zsumf it_size (filter own (pr_items o))) (filter keep l).
Proof.
  intros D C. rewrite zsumf_swap. apply zsumf_ext. intros o Io. pose proof Io as Io'. apply filter_In in Io. destruct Io as (Io & Ko). apply K in Ko.
  unfold bytes_of. rewrite zsumf_swap. apply zsumf_ext. intros i Ii. apply filter_In in Ii. destruct Ii as (Ii & _).
  rewrite Forall_forall in Se, Sz. destruct (Se o Io Ko) as (M & In0). unfold items_in in In0. rewrite Forall_forall in In0.
  specialize (Sz o Io). rewrite Forall_forall in Sz.
  apply (bytes_split (fun x T => b (pr_name o) x T)); [exact D|now apply Sz|].
  intros x Hx. specialize (In0 i Ii). destruct (byte_goes_some rs types o x M) as (T & G); [split; cbn; lia|]. exists T. split.
  - apply C. assert (0 < U T); [|lia]. apply (zsumf_pos _ _ o); [intros; apply bytes_nonneg|exact Io'|]. apply bytes_pos. exists x. split; [cbn in *; lia|now apply Bb].
  - split; [now apply Bb|]. intros T' G'. apply Bb in G'. eapply byte_goes_unique; eassumption.
Qed.

Let k := Account rs l im types.
Lemma le_used_is T n : used_bytes T k n <-> n = U T.
Proof.
  split.
  - intros (k2 & b2 & K2 & B2 & ->). cbn [ac_l k ac_types ac_im] in *.
    replace (filter k2 l) with (filter keep l) by (apply filter_ext; intros o; apply eq_true_iff_eq; rewrite K, K2; reflexivity).
    apply zsumf_ext. intros o _. apply bytes_ext. intros x. apply eq_true_iff_eq. rewrite Bb, B2. reflexivity.
  - intros ->. exists keep, (fun o x => b (pr_name o) x T). split; [exact K|]. split; [intros; apply Bb|]. reflexivity.
Qed.
Lemma le_named_filter N k2 : (forall o, k2 o = true <-> counted im o /\ pr_name o = N) -> filter k2 l = filter (fun o => keep o && (pr_name o =?= N)) l.
Proof. intros K2. apply filter_ext. intros o. apply eq_true_iff_eq. rewrite K2, andb_true_iff, K, keq_eq. reflexivity. Qed.
Lemma le_named_ok N o : keep o && (pr_name o =?= N) = true <-> counted im o /\ pr_name o = N.
Proof. rewrite andb_true_iff, K, keq_eq. reflexivity. Qed.
Lemma le_name_is T N n : name_bytes T N k n <-> n = V T N.
Proof.
  split.
  - intros (k2 & b2 & K2 & B2 & ->). cbn [ac_l k ac_types ac_im] in *. rewrite (le_named_filter N k2 K2).
    apply zsumf_ext. intros o _. apply bytes_ext. intros x. apply eq_true_iff_eq. rewrite Bb, B2. reflexivity.
  - intros ->. exists (fun o => keep o && (pr_name o =?= N)), (fun x => b N x T). split; [intros o; apply le_named_ok|]. split; [intros; apply Bb|]. reflexivity.
Qed.
Lemma le_sect_is own T N n : own_bytes own (ColSect T N) k n <-> n = O own T N.
Proof.
  split.
  - intros (k2 & b2 & K2 & B2 & ->). cbn [ac_l k ac_types ac_im] in *. rewrite (le_named_filter N k2 K2).
    apply zsumf_ext. intros o _. apply zsumf_ext. intros i _. apply bytes_ext. intros x. apply eq_true_iff_eq. rewrite Bb, B2. reflexivity.
  - intros ->. exists (fun o => keep o && (pr_name o =?= N)), (fun x => b N x T). split; [intros o; apply le_named_ok|]. split; [intros; apply Bb|]. reflexivity.
Qed.
Lemma le_type_is own T n : own_bytes own (ColType T) k n <-> n = zsumf (bytes_of own T) (filter keep l).
Proof.
  split.
  - intros (k2 & b2 & K2 & B2 & ->). cbn [ac_l k ac_types ac_im] in *.
    replace (filter k2 l) with (filter keep l) by (apply filter_ext; intros o; apply eq_true_iff_eq; rewrite K, K2; reflexivity).
    apply zsumf_ext. intros o _. apply zsumf_ext. intros i _. apply bytes_ext. intros x. apply eq_true_iff_eq. rewrite Bb, B2. reflexivity.
  - intros ->. exists keep, (fun o x => b (pr_name o) x T). split; [exact K|]. split; [intros; apply Bb|]. reflexivity.
Qed.
Lemma le_all_is own n : own_bytes own ColTotal k n <-> n = zsumf (fun o => zsumf it_size (filter own (pr_items o))) (filter keep l).
Proof.
  split.
  - intros (k2 & K2 & ->). cbn [ac_l k ac_types ac_im] in *.
    replace (filter k2 l) with (filter keep l) by (apply filter_ext; intros o; apply eq_true_iff_eq; rewrite K, K2; reflexivity). reflexivity.
  - intros ->. exists keep. split; [exact K|reflexivity].
Qed.
Lemma le_listed T : dget T (m_types m') <> None <-> lists_type a T k.
Proof.
  unfold lists_type, listed_type. cbn [ac_l k ac_types ac_im]. rewrite <- Ks. split.
  - intros N. destruct (dget T (m_types m')) as [t'|] eqn:E; [|congruence]. apply le_get in E. destruct E as (t & Et & Hq & _). split.
    + apply dget_In in Et. apply (List.in_map fst) in Et. exact Et.
    + destruct Hq as [Hq|Hq]; [now left|]. right. exists (U T). split; [now apply le_used_is|exact Hq].
  - intros (I & Hq). destruct (dget T (m_types m)) as [t|] eqn:Et; [|apply dget_None in Et; contradiction].
    assert (X : dget T (m_types m') = Some (snd (shown_type a (T, t)))).
    { apply le_get. exists t. split; [exact Et|]. split; [|reflexivity]. destruct Hq as [Hq|(n & Hn & Nz)]; [now left|]. right. apply le_used_is in Hn. now subst. }
    congruence.
Qed.
Lemma le_label T p e : look m' T p = Some e -> label p (e_abbrev e) /\ e_diff e = 0.
Proof.
  intros L. assert (Lm : look m T p = Some e).
  { rewrite le_look in L. unfold look. destruct (dget T (m_types m)); [|discriminate]. destruct (dget T (m_types m')); [exact L|discriminate]. }
  apply look_ents in Lm. destruct Lm as (t & I1 & I2). pose proof (proj2 (proj2 (proj2 (proj2 Pr)))) as Sh. destruct (Sh T t I1) as (_ & _ & Sl & _). destruct (Sl _ _ I2) as (D & Lb). now split.
Qed.
Lemma le_same_type T t : dget T (m_types m') = Some t -> t_used_diff t = 0 /\ t_size_diff t = 0.
Proof.
  intros E. apply le_get in E. destruct E as (t0 & Et & _ & ->). pose proof (proj2 (proj2 (proj2 (proj2 Pr)))) as Sh. apply dget_In in Et. destruct (Sh T t0 Et) as (D1 & D2 & _). cbn. now split.
Qed.
Lemma le_total T : total_bytes a T k (type_size_at m' T).
Proof.
  split.
  - intros L. exists groups. split; [exact Gr|]. apply le_listed in L. unfold type_size_at. destruct (dget T (m_types m')) as [t'|] eqn:E; [|congruence].
    apply le_get in E. destruct E as (t & Et & _ & ->). cbn [shown_type snd t_size]. unfold shown_size. split.
    + intros (Q1 & Q2). cbn [fst]. apply flash_spec in Q2. rewrite Q1, Q2. reflexivity.
    + intros Nq. cbn [fst]. destruct (negb (a_use_flash_size a) && is_flash T) eqn:Eb; [|now apply Tz]. exfalso. apply Nq. apply andb_true_iff in Eb. destruct Eb as (B1 & B2).
      apply negb_true_iff in B1. apply flash_spec in B2. now split.
  - intros L. unfold type_size_at. destruct (dget T (m_types m')) as [t'|] eqn:E; [|reflexivity]. exfalso. apply L. apply le_listed. congruence.
Qed.

Lemma ledger_of : ledger a k m' U V O.
Proof.
  split.
  - apply (wf_prepare a m W).
  - intros T. unfold type_used_at. destruct (dget T (m_types m')) as [t'|] eqn:E.
    + apply le_get in E. destruct E as (t & Et & _ & ->). cbn. now apply Us.
    + symmetry. now apply le_none.
  - exact le_used_is.
  - exact le_listed.
  - intros T N. apply le_name.
  - exact le_name_is.
  - intros T N. apply le_name.
  - intros T N x. apply le_path. intros T0 o s L. eapply archive_own, L.
  - intros T N x ob. apply le_path. intros T0 o s L. eapply object_own, L.
  - exact le_sect_is.
  - intros own T Ns D C n. rewrite le_type_is, (le_type own T Ns D C). reflexivity.
  - intros own Ts Ns D C H n. rewrite le_all_is, <- (le_all own Ts D).
    + assert (E : zsumf (fun T => zsumf (O own T) (Ns T)) Ts = zsumf (fun T => zsumf (bytes_of own T) (filter keep l)) Ts).
      { apply zsumf_ext. intros T IT. destruct (H T IT). now apply le_type. }
      rewrite E. reflexivity.
    + intros T Nz. apply C. apply le_listed. intros E. apply Nz. now apply le_none.
  - intros x. split.
    + intros (T & N & L). destruct (look m' T [N; x]) as [e|] eqn:E; [|congruence].
      destruct (listed_placed l im m a b Pr Li Lo T N x e E) as ((i & P & Ex) & _). exists i. now split.
    + intros (i & P & <-). destruct (placed_listed rs l im types m a keep b Se Sz K Bb Pr Ks Us Li i P) as (T & N & _ & L). exists T, N. exact L.
  - intros x ob. split.
    + intros (T & N & L). destruct (listed_placed_object l im m a b Pr Li Lo T N x ob L) as (i & P & Ex & Eo). exists i. now repeat split.
    + intros (i & P & <- & <-). destruct (placed_listed rs l im types m a keep b Se Sz K Bb Pr Ks Us Li i P) as (T & N & L & _). exists T, N. exact L.
  - intros T p e L. now apply le_label in L.
  - intros T p e L. now apply le_label in L.
  - exact le_same_type.
  - exact le_total.
  - split; [|exact Ed]. cbn [k ac_im ac_l]. rewrite Ei. exact Im.
Qed.
End Ledger.
