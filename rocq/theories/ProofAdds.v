(** * Reports that add up *)
From Coq Require Import Ascii String List ZArith Lia Bool Permutation Sorted.
From Verif Require Import Base MemMap SpecTree SpecOps Filter SpecFilter Pipeline SpecPipe SpecBuild SpecBytes SpecShape PyStr MapFile SpecMap
  ElfRead SpecElf Project SpecProject SpecEnd Chips SpecChips Deps Table SpecTable Formats Main SpecMain Command SpecCommand SpecFail SpecReport ProofReport5 SpecAdds.
Import ListNotations.
Open Scope list_scope.
Open Scope Z_scope.

(** ** sums *)
Lemma same_filter {A} (p q : A -> bool) l : (forall x, p x = q x) -> filter p l = filter q l.
Proof. intros H. induction l as [|x l IH]; [reflexivity|]. cbn. now rewrite H, IH. Qed.
Lemma same_bool (p q : bool) : (p = true <-> q = true) -> p = q.
Proof. destruct p, q; intuition congruence. Qed.
Lemma same_count b b' a n : (forall x, b x = b' x) -> bytes_with b a n = bytes_with b' a n.
Proof. intros H. unfold bytes_with. revert a. induction (Z.to_nat n) as [|m IH]; intros a; [reflexivity|]. cbn. now rewrite H, IH. Qed.
Lemma zsumf_swap {A B} (f : A -> B -> Z) la lb : zsumf (fun a => zsumf (f a) lb) la = zsumf (fun b => zsumf (fun a => f a b) la) lb.
Proof.
  induction la as [|a la IH]; [symmetry; now apply zsumf_zero|]. rewrite zsumf_cons, IH, <- zsumf_plus. apply zsumf_ext. intros b _. now rewrite zsumf_cons.
Qed.
Lemma zsumf_in (x : str) (v : Z) os : NoDup os -> In x os -> zsumf (fun o => if x =?= o then v else 0) os = v.
Proof.
  intros N I. induction N as [|y os NI N IH]; [destruct I|]. rewrite zsumf_cons. destruct (keqP x y) as [<-|Ne].
  - rewrite zsumf_zero; [lia|]. intros o Io. destruct (keqP x o) as [<-|]; [contradiction|reflexivity].
  - destruct I as [E|I]; [congruence|]. rewrite (IH I). lia.
Qed.
(** items by their object files *)
Lemma zsumf_objects (f : item -> Z) x os items : NoDup os -> (forall i, In i items -> f i <> 0 -> it_archive i = x -> In (it_object i) os) ->
  zsumf f (filter (of_archive x) items) = zsumf (fun o => zsumf f (filter (of_object x o) items)) os.
Proof.
  intros N. induction items as [|i items IH]; intros H; [symmetry; now apply zsumf_zero|].
  assert (IH' := IH (fun j J => H j (or_intror J))). clear IH.
  transitivity ((if of_archive x i then f i else 0) + zsumf f (filter (of_archive x) items)).
  { cbn [filter]. destruct (of_archive x i); [now rewrite zsumf_cons|lia]. }
  transitivity (zsumf (fun o => (if of_object x o i then f i else 0) + zsumf f (filter (of_object x o) items)) os).
  2: { apply zsumf_ext. intros o _. cbn [filter]. destruct (of_object x o i); [now rewrite zsumf_cons|lia]. }
  rewrite zsumf_plus, IH'. f_equal. unfold of_archive, of_object. destruct (keqP (it_archive i) x) as [E|Ne]; cbn [andb].
  - destruct (Z.eq_dec (f i) 0) as [F0|F0].
    + rewrite F0. symmetry. apply zsumf_zero. intros o _. destruct (it_object i =?= o); reflexivity.
    + symmetry. apply zsumf_in; [exact N|]. apply (H i (or_introl eq_refl) F0 E).
  - symmetry. now apply zsumf_zero.
Qed.

(** ** the bytes of an archive *)
Lemma bytes_zero b a : bytes_with b a 0 = 0.
Proof. reflexivity. Qed.
Lemma own_unique own c k n n' : own_bytes own c k n -> own_bytes own c k n' -> n = n'.
Proof.
  assert (S : forall f f' keep keep', (forall o : printed, keep o = keep' o) -> (forall o (i : item), f o i = f' o i) ->
    zsumf (fun o => zsumf (f o) (filter own (pr_items o))) (filter keep (ac_l k)) = zsumf (fun o => zsumf (f' o) (filter own (pr_items o))) (filter keep' (ac_l k))).
  { intros f f' keep keep' K F. rewrite (same_filter keep keep' _ K). apply zsumf_ext. intros o _. apply zsumf_ext. intros i _. apply F. }
  destruct c as [|T|T N]; cbn [own_bytes].
  - intros (keep & K & ->) (keep' & K' & ->). apply (S (fun _ => it_size) (fun _ => it_size)); [|reflexivity]. intros o. apply same_bool. rewrite K, K'. reflexivity.
  - intros (keep & b & K & B & ->) (keep' & b' & K' & B' & ->). apply (S (fun o i => bytes_with (b o) (it_addr i) (it_size i)) (fun o i => bytes_with (b' o) (it_addr i) (it_size i))).
    + intros o. apply same_bool. rewrite K, K'. reflexivity.
    + intros o i. apply same_count. intros y. apply same_bool. rewrite B, B'. reflexivity.
  - intros (keep & b & K & B & ->) (keep' & b' & K' & B' & ->). apply (S (fun o i => bytes_with b (it_addr i) (it_size i)) (fun o i => bytes_with b' (it_addr i) (it_size i))).
    + intros o. apply same_bool. rewrite K, K'. reflexivity.
    + intros o i. apply same_count. intros y. apply same_bool. rewrite B, B'. reflexivity.
Qed.
Lemma measured_same own c k r v w : measured k r (own_bytes own c) v -> measured k r (own_bytes own c) w -> v = w.
Proof.
  intros (A & A') (B & B'). pose proof (own_unique _ _ _ _ _ A B) as E. destruct v as (v1 & v2), w as (w1 & w2). cbn [fst snd] in *. subst w1. f_equal.
  destruct r as [k'|]; [|congruence]. destruct A' as (n & A' & ->), B' as (m & B' & ->). now rewrite (own_unique _ _ _ _ _ A' B').
Qed.
Lemma own_split x os c k n : own_bytes (of_archive x) c k n -> NoDup os -> (forall i, places i k -> it_archive i = x -> In (it_object i) os) ->
  exists f, (forall o, own_bytes (of_object x o) c k (f o)) /\ n = zsumf f os.
Proof.
  intros H N P.
  assert (S : forall (f : printed -> item -> Z) keep, (forall o, keep o = true -> counted (ac_im k) o) -> (forall o i, it_size i = 0 -> f o i = 0) ->
    zsumf (fun o => zsumf (f o) (filter (of_archive x) (pr_items o))) (filter keep (ac_l k)) =
    zsumf (fun b => zsumf (fun o => zsumf (f o) (filter (of_object x b) (pr_items o))) (filter keep (ac_l k))) os).
  { intros f keep K F. rewrite <- zsumf_swap. apply zsumf_ext. intros o Io. apply filter_In in Io. destruct Io as (Io & Ko). apply zsumf_objects; [exact N|].
    intros i Ii Fi Ex. apply P; [|exact Ex]. exists o. split; [exact Io|]. split; [now apply K|]. split; [exact Ii|]. intros Z0. apply Fi. now apply F. }
  destruct c as [|T|T M]; cbn [own_bytes] in H.
  - destruct H as (keep & K & ->). eexists. split; [intros o; exists keep; split; [exact K|reflexivity]|].
    cbv beta. apply (S (fun _ => it_size)); [intros o; apply K|]. now intros o i.
  - destruct H as (keep & b & K & B & ->). eexists. split; [intros o; exists keep, b; split; [exact K|split; [exact B|reflexivity]]|].
    cbv beta. apply (S (fun o i => bytes_with (b o) (it_addr i) (it_size i))); [intros o; apply K|]. intros o i ->. apply bytes_zero.
  - destruct H as (keep & b & K & B & ->). eexists. split; [intros o; exists keep, b; split; [exact K|split; [exact B|reflexivity]]|].
    cbv beta. apply (S (fun o i => bytes_with b (it_addr i) (it_size i))); [intros o Ko; apply K in Ko; apply Ko|]. intros o i ->. apply bytes_zero.
Qed.
Lemma measured_split x os c k r v : measured k r (own_bytes (of_archive x) c) v -> NoDup os -> (forall i, present k r (places i) -> it_archive i = x -> In (it_object i) os) ->
  exists f, (forall o, measured k r (own_bytes (of_object x o) c) (f o)) /\ v = (zsumf (fun o => fst (f o)) os, zsumf (fun o => snd (f o)) os).
Proof.
  intros (A & B) N P. destruct (own_split _ _ _ _ _ A N (fun i I => P i (or_introl I))) as (f & Hf & Ef). destruct v as (v1 & v2). cbn [fst snd] in *. destruct r as [k'|].
  - destruct B as (n' & A' & ->). destruct (own_split _ _ _ _ _ A' N (fun i I => P i (or_intror I))) as (g & Hg & Eg).
    exists (fun o => (f o, f o - g o)). cbn [fst snd]. split; [intros o; split; [apply Hf|exists (g o); split; [apply Hg|reflexivity]]|]. rewrite zsumf_minus. now subst.
  - exists (fun o => (f o, 0)). cbn [fst snd]. split; [intros o; split; [apply Hf|reflexivity]|]. rewrite (zsumf_zero (fun _ => 0)) by reflexivity. now subst.
Qed.
(** the object files of an archive *)
Lemma objects_of x k : (exists n, own_bytes (of_archive x) ColTotal k n) -> exists os, forall o, In o os <-> exists i, places i k /\ it_archive i = x /\ it_object i = o.
Proof.
  intros (n & keep & K & _). exists (map it_object (filter (fun i => of_archive x i && negb (it_size i =? 0)) (flat_map pr_items (filter keep (ac_l k))))). intros o. rewrite List.in_map_iff. split.
  - intros (i & E & I). apply filter_In in I. destruct I as (I & C). apply andb_true_iff in C. destruct C as (C1 & C2). apply in_flat_map in I. destruct I as (p & Ip & Ii). apply filter_In in Ip. destruct Ip as (Ip & Kp).
    exists i. split; [|split; [|exact E]].
    + exists p. split; [exact Ip|]. split; [now apply K|]. split; [exact Ii|]. apply negb_true_iff, Z.eqb_neq in C2. exact C2.
    + unfold of_archive in C1. destruct (keqP (it_archive i) x); [assumption|discriminate].
  - intros (i & (p & Ip & Cp & Ii & Z0) & Ex & E). exists i. split; [exact E|]. apply filter_In. split.
    + apply in_flat_map. exists p. split; [|exact Ii]. apply filter_In. split; [exact Ip|now apply K].
    + unfold of_archive. rewrite Ex, keq_refl. cbn [andb]. apply negb_true_iff, Z.eqb_neq. exact Z0.
Qed.
Lemma objects_all x k r v : measured k r (own_bytes (of_archive x) ColTotal) v ->
  exists os, NoDup os /\ forall o, In o os <-> exists i, present k r (places i) /\ it_archive i = x /\ it_object i = o.
Proof.
  intros (A & B). destruct (objects_of x k (ex_intro _ _ A)) as (os & H).
  assert (exists os', forall o, In o os' <-> exists i, match r with None => False | Some k' => places i k' end /\ it_archive i = x /\ it_object i = o) as (os' & H').
  { destruct r as [k'|]; [|exists []; intros o; split; [intros []|intros (i & [] & _)]]. destruct B as (n' & A' & _). exact (objects_of x k' (ex_intro _ _ A')). }
  exists (nodup (list_eq_dec ascii_dec) (os ++ os')). split; [apply NoDup_nodup|]. intros o. rewrite nodup_In, in_app_iff, H, H'. unfold present. split.
  - intros [(i & P & Q)|(i & P & Q)]; exists i; tauto.
  - intros (i & [P|P] & Q); [left|right]; exists i; tauto.
Qed.

(** ** the rows *)
Lemma last_unique (c : ascii) a b a' b' : a ++ c :: b = a' ++ c :: b' -> ~ In c b -> ~ In c b' -> a = a' /\ b = b'.
Proof.
  revert a'. induction a as [|x a IH]; intros [|x' a'] E N N'; cbn in E.
  - injection E as E. now split.
  - injection E as E1 E2. exfalso. apply N. rewrite E2. apply in_app_iff. right. now left.
  - injection E as E1 E2. exfalso. apply N'. rewrite <- E2. apply in_app_iff. right. now left.
  - injection E as E1 E2. destruct (IH _ E2 N N') as (-> & ->). subst. now split.
Qed.
(** the figures of a row are those of its input sections, or the column is not there *)
Definition listed (k : account) (r : option account) (a : args) (c : col) : Prop :=
  match c with ColTotal => True | ColType T => present k r (lists_type a T) | ColSect T N => present k r (lists_type a T) /\ present k r (lists_section T N) end.
Lemma dget_some {V} (d : dict str V) x v : dget x d = Some v -> In (x, v) d.
Proof.
  induction d as [|(y & w) d IH]; [discriminate|]. cbn [dget]. destruct (keqP x y) as [->|]; [intros [= ->]; now left|]. intros H. right. now apply IH.
Qed.
Lemma dget_none {V} (d : dict str V) x : dget x d = None -> ~ In x (map fst d).
Proof.
  induction d as [|(y & w) d IH]; [intros _ []|]. cbn [dget]. destruct (keqP x y) as [->|Ne]; [discriminate|]. intros H [E|I]; [cbn in E; congruence|]. exact (IH H I).
Qed.
Lemma row_value k r a own e c : entry_right k r a own e ->
  (listed k r a c -> measured k r (own_bytes own c) (col_value e c)) /\ (~ listed k r a c -> col_value e c = (0, 0)).
Proof.
  intros [H1 H2 H3 H4 H5 H6 H7 H8]. destruct c as [|T|T N]; cbn [listed col_value].
  - split; [intros _; exact H1|tauto].
  - destruct (dget T (se_types e)) as [st|] eqn:E.
    + split; [intros _; exact (H4 _ _ (dget_some _ _ _ E))|]. intros X. exfalso. apply X, H3. exact (List.in_map fst _ _ (dget_some _ _ _ E)).
    + split; [|reflexivity]. intros X. exfalso. apply (dget_none _ _ E), H3, X.
  - destruct (dget T (se_types e)) as [st|] eqn:E.
    + pose proof (dget_some _ _ _ E) as I. destruct (dget N (st_sections st)) as [q|] eqn:F.
      * pose proof (dget_some _ _ _ F) as J. split; [intros _; exact (H7 _ _ _ _ I J)|]. intros X. exfalso. apply X. split; [apply H3; exact (List.in_map fst _ _ I)|]. apply (H6 T st N I). exact (List.in_map fst _ _ J).
      * split; [|reflexivity]. intros (_ & X). exfalso. apply (dget_none _ _ F), (H6 T st N I), X.
    + split; [|reflexivity]. intros (X & _). exfalso. apply (dget_none _ _ E), H3, X.
Qed.
Lemma listed_dec k r a own e c : entry_right k r a own e -> listed k r a c \/ ~ listed k r a c.
Proof.
  intros [H1 H2 H3 H4 H5 H6 H7 H8]. destruct c as [|T|T N]; cbn [listed]; [now left| |].
  - rewrite <- H3. destruct (dget T (se_types e)) as [st|] eqn:E; [left; exact (List.in_map fst _ _ (dget_some _ _ _ E))|right; exact (dget_none _ _ E)].
  - rewrite <- H3. destruct (dget T (se_types e)) as [st|] eqn:E; [|right; intros (X & _); exact (dget_none _ _ E X)]. pose proof (dget_some _ _ _ E) as I. rewrite <- (H6 T st N I).
    destruct (dget N (st_sections st)) as [q|] eqn:F; [left; split; [exact (List.in_map fst _ _ I)|exact (List.in_map fst _ _ (dget_some _ _ _ F))]|right; intros (_ & X); exact (dget_none _ _ F X)].
Qed.
(** a sum over some keys is the sum over all, if the others have nothing *)
Lemma zsumf_some {V} (g : str -> Z) (h : str * V -> Z) x os (rows : dict str V) : NoDup os -> NoDup (map fst rows) ->
  (forall n e, In (n, e) rows -> exists o, n = x ++ ":"%char :: o /\ In o os /\ h (n, e) = g o) ->
  (forall o, In o os -> ~ In (x ++ ":"%char :: o) (map fst rows) -> g o = 0) -> zsumf g os = zsumf h rows.
Proof.
  intros N. revert rows. induction N as [|o os NI N IH]; intros rows Nr R Z0.
  - destruct rows as [|(n & e) rows]; [reflexivity|]. destruct (R n e (or_introl eq_refl)) as (o & _ & [] & _).
  - set (here := fun kv : str * V => fst kv =?= x ++ ":"%char :: o).
    rewrite (zsumf_split here h rows), zsumf_cons. f_equal.
    + destruct (filter here rows) as [|(n & e) l] eqn:F.
      * apply Z0; [now left|]. intros I. apply List.in_map_iff in I. destruct I as ((n & e) & E & I). cbn [fst] in E. subst n.
        assert (J : In (x ++ ":"%char :: o, e) (filter here rows)) by (apply filter_In; split; [exact I|unfold here; cbn [fst]; apply keq_refl]). rewrite F in J. destruct J.
      * assert (J : In (n, e) (filter here rows)) by (rewrite F; now left). apply filter_In in J. destruct J as (J & H). unfold here in H. cbn [fst] in H. destruct (keqP n (x ++ ":"%char :: o)) as [->|]; [|discriminate].
        destruct (R _ _ J) as (o' & E & _ & Hv). apply app_inv_head in E. injection E as <-.
        assert (L : l = []).
        { destruct l as [|(n' & e') l]; [reflexivity|]. exfalso. assert (Nf : NoDup (map fst (filter here rows))).
          { clear -Nr. induction rows as [|kv rows IH]; [constructor|]. cbn [map] in Nr. inversion Nr as [|? ? A B]; subst. cbn [filter]. destruct (here kv); [|now apply IH]. cbn [map]. constructor; [|now apply IH].
            intros I. apply A. apply List.in_map_iff in I. destruct I as (q & E & I). apply filter_In in I. rewrite <- E. apply List.in_map, I. }
          rewrite F in Nf. cbn [map fst] in Nf. inversion Nf as [|? ? A _]; subst. apply A. left.
          assert (I : In (n', e') (filter here rows)) by (rewrite F; right; now left). apply filter_In in I. destruct I as (_ & I). unfold here in I. cbn [fst] in I. destruct (keqP n' (x ++ ":"%char :: o)); [assumption|discriminate]. }
        subst l. rewrite zsumf_cons, zsumf_nil, Hv. lia.
    + apply IH.
      * clear -Nr. induction rows as [|kv rows IH]; [constructor|]. cbn [map] in Nr. inversion Nr as [|? ? A B]; subst. cbn [filter]. destruct (negb (here kv)); [|now apply IH]. cbn [map]. constructor; [|now apply IH].
        intros I. apply A. apply List.in_map_iff in I. destruct I as (q & E & I). apply filter_In in I. rewrite <- E. apply List.in_map, I.
      * intros n e I. apply filter_In in I. destruct I as (I & H). destruct (R n e I) as (o' & -> & Io & Hv). exists o'. split; [reflexivity|]. split; [|exact Hv]. destruct Io as [<-|Io]; [|exact Io].
        unfold here in H. cbn [fst] in H. rewrite keq_refl in H. discriminate.
      * intros o' Io' Nk. apply Z0; [now right|]. intros I. apply Nk. apply List.in_map_iff in I. destruct I as (kv & E & I). apply List.in_map_iff. exists kv. split; [exact E|]. apply filter_In. split; [exact I|].
        unfold here. rewrite E. apply negb_true_iff, keq_neq. intros E2. apply app_inv_head in E2. injection E2 as ->. contradiction.
Qed.

Section Rows.
Variables (k : account) (r : option account) (a : args) (archives files : dict str sentry).
Hypothesis Ra : entries_right false k r a archives.
Hypothesis Rf : entries_right true k r a files.
Hypothesis Tf : tells_files true k r.
Variables (x : str) (part : str -> bool).
Hypothesis Pt : forall n, part n = true <-> file_of x n.
Let rows := filter (fun kv : str * sentry => part (fst kv)) files.
Lemma rows_once : NoDup (map fst rows).
Proof.
  destruct Rf as (N & _ & _). unfold rows. clear -N. induction files as [|kv l IH]; [constructor|]. cbn [map] in N. inversion N as [|? ? A B]; subst. cbn [filter]. destruct (part (fst kv)); [|now apply IH]. cbn [map]. constructor; [|now apply IH].
  intros I. apply A. apply List.in_map_iff in I. destruct I as (q & E & I). apply filter_In in I. rewrite <- E. apply List.in_map, I.
Qed.
Lemma row_is n e : In (n, e) rows -> exists i, present k r (places i) /\ it_archive i = x /\ n = x ++ ":"%char :: it_object i /\ entry_right k r a (of_object x (it_object i)) e.
Proof.
  intros I. apply filter_In in I. destruct I as (I & H). cbn [fst] in H. apply Pt in H. destruct H as (o & E & No). destruct Rf as (_ & _ & R). destruct (R n e I) as (i & P & En & _ & Er).
  cbn [row_key] in En. rewrite En in E. destruct (last_unique _ _ _ _ _ E (Tf eq_refl i P) No) as (Ex & Eo). exists i. split; [exact P|]. split; [exact Ex|]. rewrite En, Ex. split; [reflexivity|]. cbn [row_own] in Er. now rewrite Ex in Er.
Qed.
Lemma row_there i v : present k r (places i) -> it_archive i = x -> measured k r (own_bytes (of_object x (it_object i)) ColTotal) v -> differs a v -> In (x ++ ":"%char :: it_object i) (map fst rows).
Proof.
  intros P Ex M Df. destruct Rf as (_ & K & _). assert (I : In (x ++ ":"%char :: it_object i) (map fst files)).
  { apply K. exists i, v. split; [exact P|]. cbn [row_key row_own]. rewrite Ex. split; [reflexivity|]. split; assumption. }
  apply List.in_map_iff in I. destruct I as (kv & E & I). apply List.in_map_iff. exists kv. split; [exact E|]. apply filter_In. split; [exact I|]. apply Pt. rewrite E. exists (it_object i). split; [reflexivity|]. now apply Tf.
Qed.
Lemma all_differs v : shows_all a -> differs a v.
Proof. intros [G|G] H1 H2; congruence. Qed.


(** a figure of the archive *)
Lemma figures c v w : listed k r a c -> measured k r (own_bytes (of_archive x) c) v -> measured k r (own_bytes (of_archive x) ColTotal) w ->
  (c = ColTotal -> snd v = zsumf (fun kv => snd (col_value (snd kv) c)) rows) /\
  (shows_all a -> v = (zsumf (fun kv => fst (col_value (snd kv) c)) rows, zsumf (fun kv => snd (col_value (snd kv) c)) rows)).
Proof.
  intros Li Mv Mw. destruct (objects_all x k r w Mw) as (os & No & Os).
  destruct (measured_split x os c k r v Mv No) as (f & Mf & ->). { intros i P E. apply Os. exists i. tauto. }
  destruct (measured_split x os ColTotal k r w Mw No) as (g & Mg & _). { intros i P E. apply Os. exists i. tauto. }
  assert (In_row : forall n e, In (n, e) rows -> exists o, n = x ++ ":"%char :: o /\ In o os /\ col_value e c = f o).
  { intros n e I. destruct (row_is n e I) as (i & P & Ex & En & Er). exists (it_object i). split; [exact En|]. split; [apply Os; exists i; tauto|]. eapply measured_same; [|apply Mf]. apply (proj1 (row_value _ _ _ _ _ c Er)), Li. }
  assert (Fst : forall n e, In (n, e) rows -> exists o, n = x ++ ":"%char :: o /\ In o os /\ fst (col_value (snd (n, e)) c) = fst (f o)).
  { intros n e I. destruct (In_row n e I) as (o & En & Io & E). exists o. cbn [snd]. now rewrite E. }
  assert (Snd : forall n e, In (n, e) rows -> exists o, n = x ++ ":"%char :: o /\ In o os /\ snd (col_value (snd (n, e)) c) = snd (f o)).
  { intros n e I. destruct (In_row n e I) as (o & En & Io & E). exists o. cbn [snd]. now rewrite E. }
  cbn [fst snd]. split.
  - intros ->. apply (zsumf_some (fun o => snd (f o)) (fun kv => snd (col_value (snd kv) ColTotal)) x os rows No rows_once Snd).
    intros o Io Nk. apply Os in Io. destruct Io as (i & P & Ex & Eo). destruct (Z.eq_dec (snd (f o)) 0) as [E|E]; [exact E|]. exfalso. apply Nk. rewrite <- Eo.
    apply (row_there i (f o) P Ex); [rewrite Eo; apply Mf|]. intros _ _. exact E.
  - intros Sa. assert (Nk : forall (h : str -> Z) o, In o os -> ~ In (x ++ ":"%char :: o) (map fst rows) -> h o = 0).
    { intros h o Io Nk. exfalso. apply Nk. apply Os in Io. destruct Io as (i & P & Ex & <-). apply (row_there i (g (it_object i)) P Ex (Mg _)). now apply all_differs. }
    f_equal; [apply (zsumf_some (fun o => fst (f o)) (fun kv => fst (col_value (snd kv) c)) x os rows No rows_once Fst)|apply (zsumf_some (fun o => snd (f o)) (fun kv => snd (col_value (snd kv) c)) x os rows No rows_once Snd)]; intros o; apply (Nk (fun o => _)).
Qed.
Lemma archive_row e : In (x, e) archives -> entry_right k r a (of_archive x) e.
Proof. intros I. destruct Ra as (_ & _ & R). destruct (R x e I) as (i & P & E & _ & Er). cbn [row_key row_own] in *. now subst x. Qed.
(** the archive of a file has bytes *)
Lemma archive_total n e : In (n, e) rows -> exists i w, present k r (places i) /\ it_archive i = x /\ measured k r (own_bytes (of_archive x) ColTotal) w.
Proof.
  intros I. destruct (row_is n e I) as (i & P & Ex & _ & Er). exists i. destruct (er_size _ _ _ _ _ Er) as ((keep & K & _) & B).
  assert (A : exists w1, own_bytes (of_archive x) ColTotal k w1) by (eexists; exists keep; split; [exact K|reflexivity]). destruct A as (w1 & A). destruct r as [k'|].
  - destruct B as (n' & (keep' & K' & _) & _). assert (A' : exists w2, own_bytes (of_archive x) ColTotal k' w2) by (eexists; exists keep'; split; [exact K'|reflexivity]). destruct A' as (w2 & A').
    exists (w1, w1 - w2). split; [exact P|]. split; [exact Ex|]. split; [exact A|]. exists w2. now split.
  - exists (w1, 0). split; [exact P|]. split; [exact Ex|]. now split.
Qed.
Lemma archive_there i w : present k r (places i) -> it_archive i = x -> measured k r (own_bytes (of_archive x) ColTotal) w -> differs a w -> In x (map fst archives).
Proof. intros P Ex M Df. destruct Ra as (_ & K & _). apply K. exists i, w. cbn [row_key row_own]. rewrite Ex. tauto. Qed.
Lemma rows_add : (forall e, In (x, e) archives -> se_diff e = zsumf (fun kv => se_diff (snd kv)) rows) /\
  (~ In x (map fst archives) -> zsumf (fun kv => se_diff (snd kv)) rows = 0) /\
  (shows_all a ->
     (forall e c, In (x, e) archives -> col_value e c = (zsumf (fun kv => fst (col_value (snd kv) c)) rows, zsumf (fun kv => snd (col_value (snd kv) c)) rows)) /\
     (In x (map fst archives) <-> rows <> [])).
Proof.
  split; [|split; [|intros Sa; split; [|split]]].
  - intros e I. apply archive_row in I. pose proof (er_size _ _ _ _ _ I) as M. exact (proj1 (figures ColTotal _ _ Logic.I M M) eq_refl).
  - intros N. destruct rows as [|(n & e) l] eqn:E; [reflexivity|]. rewrite <- E. assert (I : In (n, e) rows) by (rewrite E; now left). destruct (archive_total n e I) as (i & w & P & Ex & M).
    pose proof (proj1 (figures ColTotal _ _ Logic.I M M) eq_refl) as F. cbn [col_value snd] in F. rewrite <- F. destruct (Z.eq_dec (snd w) 0) as [Z0|Z0]; [exact Z0|]. exfalso. apply N. apply (archive_there i w P Ex M). intros _ _. exact Z0.
  - intros e c I. apply archive_row in I. destruct (listed_dec _ _ _ _ _ c I) as [L|L].
    + pose proof (er_size _ _ _ _ _ I) as M. exact (proj2 (figures c _ _ L (proj1 (row_value _ _ _ _ _ c I) L) M) Sa).
    + rewrite (proj2 (row_value _ _ _ _ _ c I) L). f_equal; symmetry; apply zsumf_zero; intros (n & e') J; destruct (row_is n e' J) as (i & _ & _ & _ & Er); cbn [snd]; now rewrite (proj2 (row_value _ _ _ _ _ c Er) L).
  - intros I. apply List.in_map_iff in I. destruct I as ((x' & e) & E & I). cbn [fst] in E. subst x'. destruct Ra as (_ & _ & R). destruct (R x e I) as (i & P & E & _ & Er). cbn [row_key row_own] in *.
    symmetry in E. pose proof (er_size _ _ _ _ _ Er) as M. rewrite E in M. destruct (objects_all x k r _ M) as (os & No & Os).
    destruct (measured_split x os ColTotal k r _ M No) as (g & Mg & _). { intros j Pj Ej. apply Os. exists j. tauto. }
    pose proof (row_there i (g (it_object i)) P E (Mg _) (all_differs _ Sa)) as J. intros Z0. rewrite Z0 in J. destruct J.
  - intros Ne. destruct rows as [|(n & e) l] eqn:E; [congruence|]. assert (I : In (n, e) rows) by (rewrite E; now left). destruct (archive_total n e I) as (i & w & P & Ex & M). apply (archive_there i w P Ex M). now apply all_differs.
Qed.
End Rows.

Lemma reported_on b b' d c k r : reported d (report_on b c) k r -> reported d (report_on b' c) k r.
Proof.
  assert (W : forall dir, without_dwarf d dir (c_args (report_on b c)) -> without_dwarf d dir (c_args (report_on b' c))).
  { intros dir. unfold without_dwarf. change (a_use_dwarf (c_args (report_on b c))) with (a_use_dwarf (c_args c)). change (a_use_dwarf (c_args (report_on b' c))) with (a_use_dwarf (c_args c)).
    destruct (a_use_dwarf (c_args c)) as [[|]|]; [|tauto|tauto]. destruct b; intros (A & B); discriminate. }
  assert (Pa : forall fn k, project_at d (c_args (report_on b c)) fn k -> project_at d (c_args (report_on b' c)) fn k).
  { intros fn k0 (dir & name & text & crt & E & B & D & F). exists dir, name, text, crt. split; [exact E|]. split; [exact B|]. split; [now apply W|exact F]. }
  intros (P & Q & U & V). split; [apply Pa, P|]. split; [|split; assumption]. destruct r as [k'|]; [|exact Q]. destruct Q as (fn & E & Q). exists fn. split; [exact E|apply Pa, Q].
Qed.
Lemma right_on b b' files c k r rows : entries_right files k r (c_args (report_on b c)) rows -> entries_right files k r (c_args (report_on b' c)) rows.
Proof.
  intros (N & K & R). split; [exact N|]. split; [exact K|]. intros n e I. destruct (R n e I) as (i & P & E & A & Er). exists i. split; [exact P|]. split; [exact E|]. split; [exact A|].
  destruct Er as [E1 E2 E3 E4 E5 E6 E7 E8]. constructor; assumption.
Qed.
Lemma reports_add d c k r o o' fs fs' s s' render encode ord pf :
  reported d (report_on false c) k r -> tells_files true k r -> a_format (c_args c) = FJson2 ->
  run_files d (get_memory_types chip_info) render encode ord pf (report_on false c) o (start fs) = (Done tt, s) ->
  run_files d (get_memory_types chip_info) render encode ord pf (report_on true c) o' (start fs') = (Done tt, s') ->
  exists archives files, s_printed s = [PEntries archives] /\ s_printed s' = [PEntries files] /\ adds_up (c_args c) archives files.
Proof.
  intros Rp Tf Fo R R'.
  destruct (entries_json d (report_on false c) k r o false fs s render encode ord pf) as (ra & P & Ra & _); [exact Rp|reflexivity|discriminate|discriminate|exact Fo|exact R|].
  destruct (entries_json d (report_on true c) k r o' true fs' s' render encode ord pf) as (rf & P' & Rf & _); [exact (reported_on false true _ _ _ _ Rp)|repeat split|discriminate|exact Tf|exact Fo|exact R'|].
  exists ra, rf. split; [exact P|]. split; [exact P'|]. intros x part Pt. exact (rows_add k r _ ra rf Ra (right_on true false _ _ _ _ _ Rf) Tf x part Pt).
Qed.

(** the object files of an archive can be told *)
Fixpoint after (x n : str) : option str :=
  match x, n with
  | [], _ => Some n
  | a :: x, b :: n => if Ascii.eqb a b then after x n else None
  | _ :: _, [] => None
  end.
Lemma after_ok x n o : after x n = Some o <-> n = x ++ o.
Proof.
  revert n. induction x as [|a x IH]; intros n; cbn [after app]; [split; congruence|]. destruct n as [|b n]; [split; discriminate|].
  destruct (Ascii.eqb_spec a b) as [->|N]; [rewrite IH; split; congruence|]. split; [discriminate|congruence].
Qed.
Definition part_of (x n : str) : bool := match after (x ++ [":"%char]) n with Some o => negb (existsb (Ascii.eqb ":"%char) o) | None => false end.
Lemma part_of_ok x n : part_of x n = true <-> file_of x n.
Proof.
  unfold part_of, file_of. destruct (after (x ++ [":"%char]) n) as [o|] eqn:E.
  - apply after_ok in E. rewrite <- app_assoc in E. cbn [app] in E. subst n. rewrite negb_true_iff. split.
    + intros Q. exists o. split; [reflexivity|]. intros J. assert (existsb (Ascii.eqb ":"%char) o = true) by (apply existsb_exists; exists ":"%char; split; [exact J|apply Ascii.eqb_refl]). congruence.
    + intros (o' & E & Q). apply app_inv_head in E. injection E as <-. destruct (existsb (Ascii.eqb ":"%char) o) eqn:X; [|reflexivity]. apply existsb_exists in X. destruct X as (y & J & Y). apply Ascii.eqb_eq in Y. subst y. contradiction.
  - split; [discriminate|]. intros (o & -> & _). assert (Q : after (x ++ [":"%char]) (x ++ ":"%char :: o) = Some o) by (apply after_ok; rewrite <- app_assoc; reflexivity). congruence.
Qed.
