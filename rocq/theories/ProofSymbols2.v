(** * The memory map of a project, symbol by symbol *)
From Coq Require Import Ascii String List ZArith Lia Bool Permutation Sorted.
From Verif Require Import Base MemMap SpecTree SpecOps Filter Pipeline SpecPipe SpecBuild SpecBytes SpecShape SpecSyms ProofOps ProofTrim ProofSummary ProofSummary2 ProofSummary3 Fixtures ProofBuild ProofRegions ProofTypes ProofBytes ProofBytes2 ProofBytes3 ProofShape PyStr MapFile SpecMap
  ElfRead SpecElf Project SpecProject ProofProject2 SpecEnd ProofEnd Chips SpecChips ProofChips Deps Table SpecTable Formats ProofFormats Main SpecMain ProofMain ProofMain4 ProofMain5 Command SpecCommand SpecFail SpecReport
  ProofCommand1 ProofCommand2 ProofCommand3 ProofCommand4 ProofCommand5 ProofReport1 ProofReport2 SpecSymbols ProofSymbols1.
Import ListNotations.
Open Scope list_scope.
Open Scope Z_scope.

(** ** everything a report on symbols needs to know of the memory map of one project *)
Record sledger (a : args) (q : account) (mm : memmap) (ln : str -> str -> Z) (ls : (item -> bool) -> str -> str -> Z) : Prop := {
  sl_wf : wf_map mm;
  sl_listed : forall T, dget T (m_types mm) <> None <-> lists_type a T q;
  sl_name_is : forall T N n, name_bytes T N q n <-> n = ln T N;
  sl_section : forall T N, look mm T [N] <> None <-> 0 < ln T N;
  sl_symbol : forall T N i, size_at mm T [N; it_archive i; it_object i; it_name i] = ls (of_symbol i) T N;
  sl_sect_is : forall own T N n, own_bytes own (ColSect T N) q n <-> n = ls own T N;
  sl_type_is : forall own T Ns, NoDup Ns -> (forall N, 0 < ln T N -> In N Ns) -> forall n, own_bytes own (ColType T) q n <-> n = zsumf (ls own T) Ns;
  sl_all_is : forall own Ts (Ns : str -> list str), NoDup Ts -> (forall T, lists_type a T q -> In T Ts) ->
    (forall T, In T Ts -> NoDup (Ns T) /\ forall N, 0 < ln T N -> In N (Ns T)) ->
    forall n, own_bytes own ColTotal q n <-> n = zsumf (fun T => zsumf (ls own T) (Ns T)) Ts;
  sl_places : forall x ob y, (exists T N, look mm T [N; x; ob; y] <> None) <-> exists i, places i q /\ it_archive i = x /\ it_object i = ob /\ it_name i = y;
  sl_label : forall T p e, look mm T p = Some e -> label p (e_abbrev e);
  sl_same : forall T p e, look mm T p = Some e -> e_diff e = 0 }.

Lemma filter_keep_map im keep ys l : (forall o, keep o = true <-> counted im o) -> filter keep (map (by_symbols ys) l) = map (by_symbols ys) (filter keep l).
Proof.
  intros K. induction l as [|o q IH]; [reflexivity|]. cbn [map filter]. assert (E : keep (by_symbols ys o) = keep o) by (apply eq_true_iff_eq; rewrite !K; reflexivity).
  rewrite E. destruct (keep o); cbn [map]; now rewrite IH.
Qed.
Lemma names_by_symbols ys l : map pr_name (map (by_symbols ys) l) = map pr_name l.
Proof. rewrite map_map. reflexivity. Qed.
Lemma zsumf_map {A B} (f : B -> Z) (g : A -> B) l : zsumf f (map g l) = zsumf (fun x => f (g x)) l.
Proof. induction l as [|x q IH]; [reflexivity|]. cbn [map]. now rewrite !zsumf_cons, IH. Qed.
Lemma filter_map_swap {A B} (p : B -> bool) (g : A -> B) l : filter p (map g l) = map g (filter (fun x => p (g x)) l).
Proof. induction l as [|x q IH]; [reflexivity|]. cbn [map filter]. destruct (p (g x)); cbn [map]; now rewrite IH. Qed.

Lemma symbol_bytes_items P ys i o :
  symbol_bytes_with P ys (it_archive i) (it_object i) (it_name i) (printed_section o) =
  zsumf (fun j => bytes_with P (it_addr j) (it_size j)) (filter (of_symbol i) (pr_items (by_symbols ys o))).
Proof.
  unfold symbol_bytes_with.
  set (f := fun z => (sy_name z, sy_addr z, sy_size z)). set (g := fun j => (it_name j, it_addr j, it_size j)).
  set (h := fun v : str * Z * Z => bytes_with P (snd (fst v)) (snd v)). set (p := fun v : str * Z * Z => fst (fst v) =?= it_name i).
  pose proof (symbols_in_map f g ys (it_archive i) (it_object i) o (fun _ _ => eq_refl)) as E.
  apply (f_equal (fun v => zsumf h (filter p v))) in E. rewrite !filter_map_swap, !zsumf_map in E.
  transitivity (zsumf (fun x => h (f x)) (filter (fun x => p (f x)) (symbols_in ys (it_archive i) (it_object i) (printed_section o)))); [reflexivity|].
  rewrite E. assert (F : filter (fun x => p (g x)) (filter (of_object (it_archive i) (it_object i)) (pr_items (by_symbols ys o))) = filter (of_symbol i) (pr_items (by_symbols ys o))).
  { clear E. induction (pr_items (by_symbols ys o)) as [|j q IH]; [reflexivity|]. cbn [filter]. unfold of_symbol at 1. destruct (of_object (it_archive i) (it_object i) j); cbn [andb filter]; [|exact IH].
    unfold p at 1, g at 1. cbn [fst]. destruct (it_name j =?= it_name i); now rewrite IH. }
  rewrite F. reflexivity.
Qed.
Lemma symbol_size_look x ob y N (dd : dict str sect) :
  match look_dict look_sect [N; x; ob; y] dd with Some e => e_size e | None => 0 end = symbol_size x ob y (dget N dd).
Proof.
  unfold symbol_size, look_dict at 1. destruct (dget N dd) as [s|]; [|reflexivity]. unfold look_sect, look_node, look_dict. destruct (dget x (n_sub s)) as [c|]; [|reflexivity].
  unfold look_arch, look_node, look_dict. destruct (dget ob (n_sub c)) as [v|]; [|reflexivity]. unfold look_obj, look_node, look_dict. destruct (dget y (n_sub v)); reflexivity.
Qed.

Section Sledger.
Variables (rs : list region) (l : list printed) (im : option (list (str * xshdr))) (types : list chip_type) (ys : option (list elfsym)).
Variables (m : memmap) (a : args) (keep : printed -> bool) (b : str -> Z -> str -> bool).
Let l2 := map (by_symbols ys) l.
Hypothesis Se : Forall (fun o => counted im o -> section_mapped rs types (printed_section o)) l.
Hypothesis Si : forall o, In o l -> counted im o -> items_in (by_symbols ys o).
Hypothesis Sz : Forall (fun o => Forall (fun i => 0 < it_size i) (pr_items (by_symbols ys o))) l.
Hypothesis K : forall o, keep o = true <-> counted im o.
Hypothesis Bb : forall n a T, b n a T = true <-> byte_goes types n a T.
Hypothesis Pr : pristine m.
Hypothesis Nm : NoDup (map pr_name (filter keep l)).
Hypothesis Ks : forall t, In t (keys (m_types m)) <-> exists c, In c types /\ ct_name c = t.
Hypothesis Us : forall T t, dget T (m_types m) = Some t ->
  t_used t = zsumf (fun o => bytes_with (fun a => b (pr_name o) a T) (pr_addr o) (pr_size o)) (filter keep l).
Hypothesis Li : forall T t, dget T (m_types m) = Some t -> forall o, In o l -> counted im o ->
  listed_as b T (printed_section o) (dget (pr_name o) (t_sections t)).
Hypothesis Ls : forall T t, dget T (m_types m) = Some t -> forall o, In o l -> counted im o ->
  lists_symbols b ys T (printed_section o) (dget (pr_name o) (t_sections t)).
Hypothesis Lo : forall T t, dget T (m_types m) = Some t -> forall n x, dget n (t_sections t) = Some x -> exists o, In o l /\ counted im o /\ pr_name o = n.
Let m' := prepare a m.
Hypothesis Em : m_types m' = map (shown_type a) (filter (fun kv => a_show_unused a || negb (t_used (snd kv) =? 0)) (m_types m)).

Let Se2 : Forall (fun o => counted im o -> section_mapped rs types (printed_section o) /\ items_in o) l2.
Proof.
  apply Forall_map. rewrite Forall_forall in *. intros o Io Co. split; [|apply Si; [exact Io|exact Co]]. specialize (Se o Io Co). exact Se.
Qed.
Let Sz2 : Forall (fun o => Forall (fun i => 0 <= it_size i) (pr_items o)) l2.
Proof. apply Forall_map. eapply Forall_impl; [|exact Sz]. intros o Ho. eapply Forall_impl; [|exact Ho]. cbn. lia. Qed.
Let Ek : filter keep l2 = map (by_symbols ys) (filter keep l) := filter_keep_map im keep ys l K.
Let Nm2 : NoDup (map pr_name (filter keep l2)).
Proof. rewrite Ek, names_by_symbols. exact Nm. Qed.
Let Us2 : forall T t, dget T (m_types m) = Some t ->
  t_used t = zsumf (fun o => bytes_with (fun a => b (pr_name o) a T) (pr_addr o) (pr_size o)) (filter keep l2).
Proof. intros T t E. rewrite Ek, zsumf_map, (Us T t E). reflexivity. Qed.

Let V (T N : str) : Z := zsumf (fun o => bytes_with (fun x => b N x T) (pr_addr o) (pr_size o)) (filter (fun o => keep o && (pr_name o =?= N)) l2).
Let O (own : item -> bool) (T N : str) : Z :=
  zsumf (fun o => zsumf (fun i => bytes_with (fun x => b N x T) (it_addr i) (it_size i)) (filter own (pr_items o))) (filter (fun o => keep o && (pr_name o =?= N)) l2).

Lemma sl_V T N : V T N = zsumf (fun o => bytes_with (fun x => b N x T) (pr_addr o) (pr_size o)) (filter (fun o => keep o && (pr_name o =?= N)) l).
Proof.
  unfold V, l2. rewrite filter_map_swap, zsumf_map. cbn [by_symbols pr_name pr_addr pr_size]. f_equal. apply filter_ext. intros o. f_equal. apply eq_true_iff_eq. rewrite !K. reflexivity.
Qed.
Lemma sl_named N o : In o l -> counted im o -> pr_name o = N -> forall own T, O own T N = zsumf (fun i => bytes_with (fun x => b N x T) (it_addr i) (it_size i)) (filter own (pr_items (by_symbols ys o))).
Proof.
  intros Io Co En own T. destruct (le_named_one l2 im m a keep b K Nm2 Us2 own T N (by_symbols ys o)) as (E & _); [now apply List.in_map|exact Co|exact En|].
  unfold O. cbv beta in E. rewrite E. cbn [by_symbols pr_name pr_items]. rewrite En. reflexivity.
Qed.
Lemma sl_path T N i : size_at m' T [N; it_archive i; it_object i; it_name i] = O (of_symbol i) T N.
Proof.
  unfold size_at. unfold m'. rewrite (le_look l2 m a keep b Pr Us2 Em). fold m'. destruct (dget T (m_types m')) as [t'|] eqn:E'.
  2:{ assert (X : O (of_symbol i) T N = 0).
      { apply (le_V_O rs l2 im types keep b Se2 K). apply (le_U_V l2 keep b). apply (le_none l2 types m a keep b Bb Pr Ks Us2 Em). exact E'. }
      rewrite X. destruct (dget T (m_types m)); reflexivity. }
  apply (le_get l2 m a keep b Pr Us2 Em) in E'. destruct E' as (t & Et & _ & _). rewrite Et, symbol_size_look.
  destruct (filter (fun o => keep o && (pr_name o =?= N)) l) as [|o r] eqn:F.
  - assert (X : O (of_symbol i) T N = 0).
    { unfold O, l2. rewrite filter_map_swap. replace (filter _ l) with (@nil printed); [reflexivity|]. rewrite <- F. apply filter_ext. intros o. f_equal. apply eq_true_iff_eq. rewrite !K. reflexivity. }
    rewrite X. destruct (dget N (t_sections t)) as [s|] eqn:G; [|reflexivity]. destruct (Lo T t Et N s G) as (o & Io & Co & En).
    exfalso. assert (I0 : In o (filter (fun o => keep o && (pr_name o =?= N)) l)); [|rewrite F in I0; destruct I0].
    apply filter_In. split; [exact Io|]. apply andb_true_iff. split; [now apply K|]. apply keq_eq. exact En.
  - assert (I0 : In o (filter (fun o => keep o && (pr_name o =?= N)) l)) by (rewrite F; now left). apply filter_In in I0. destruct I0 as (Io & I0). apply andb_true_iff in I0.
    destruct I0 as (Co & En). apply K in Co. apply keq_eq in En. destruct (Ls T t Et o Io Co) as (L & _). rewrite En in L. rewrite L.
    rewrite symbol_bytes_items, (sl_named N o Io Co En). cbn [printed_section o_name]. rewrite En. reflexivity.
Qed.

Let k2 := Account rs l2 im types.
Lemma sledger_of (Ln : forall T N, look m' T [N] <> None <-> 0 < zsumf (fun o => bytes_with (fun x => b N x T) (pr_addr o) (pr_size o)) (filter (fun o => keep o && (pr_name o =?= N)) l))
  (Lb : forall T p e, look m' T p = Some e -> label p (e_abbrev e)) (Ld : forall T p e, look m' T p = Some e -> e_diff e = 0) : sledger a k2 m' V O.
Proof.
  assert (W : wf_map m) by apply Pr. assert (Lt : forall T, dget T (m_types m') <> None <-> lists_type a T k2) by exact (le_listed rs l2 im types m a keep b K Bb Pr Ks Us2 Em). split.
  - apply (wf_prepare a m W).
  - exact Lt.
  - exact (le_name_is rs l2 im types keep b K Bb).
  - intros T N. rewrite Ln, sl_V. reflexivity.
  - exact sl_path.
  - exact (le_sect_is rs l2 im types keep b K Bb).
  - intros own T Ns D C n. etransitivity; [apply (le_type_is rs l2 im types keep b K Bb)|]. rewrite <- (le_type rs l2 im types keep b Se2 K own T Ns D C). reflexivity.
  - intros own Ts Ns D C H n. etransitivity; [apply (le_all_is rs l2 im types keep K)|]. rewrite <- (le_all rs l2 im types keep b Se2 Sz2 K Bb own Ts D).
    + assert (E : zsumf (fun T => zsumf (O own T) (Ns T)) Ts = zsumf (fun T => zsumf (fun o => zsumf (fun i => bytes_with (fun x => b (pr_name o) x T) (it_addr i) (it_size i)) (filter own (pr_items o))) (filter keep l2)) Ts).
      { apply zsumf_ext. intros T IT. destruct (H T IT). now apply (le_type rs l2 im types keep b Se2 K own T). }
      rewrite E. reflexivity.
    + intros T Nz. apply C. apply Lt. intros E. apply Nz. apply (le_none l2 types m a keep b Bb Pr Ks Us2 Em). exact E.
  - intros x ob y. split.
    + intros (T & N & L). unfold m' in L. rewrite (le_look l2 m a keep b Pr Us2 Em) in L. destruct (dget T (m_types m)) as [t|] eqn:Et; [|congruence].
      destruct (dget T (m_types (prepare a m))); [|congruence]. unfold look_dict in L at 1. destruct (dget N (t_sections t)) as [s|] eqn:G; [|congruence].
      destruct (Lo T t Et N s G) as (o & Io & Co & En). destruct (Ls T t Et o Io Co) as (_ & L2). rewrite En, G in L2.
      unfold look_sect, look_node, look_dict in L. destruct (dget x (n_sub s)) as [c|] eqn:G1; [|congruence].
      unfold look_arch, look_node, look_dict in L. destruct (dget ob (n_sub c)) as [v|] eqn:G2; [|congruence].
      unfold look_obj, look_node, look_dict in L. destruct (dget y (n_sub v)) as [z|] eqn:G3; [|congruence].
      specialize (L2 s x c ob v y z eq_refl G1 G2 G3). rewrite (symbols_in_map sy_name it_name) in L2 by reflexivity.
      apply List.in_map_iff in L2. destruct L2 as (i & Ey & Ii). apply filter_In in Ii. destruct Ii as (Ii & Oi). unfold of_object in Oi. apply andb_true_iff in Oi. destruct Oi as (O1 & O2).
      apply keq_eq in O1, O2. exists i. split; [|now split]. exists (by_symbols ys o). split; [cbn [k2 ac_l]; unfold l2; now apply List.in_map|]. split; [exact Co|]. split; [exact Ii|].
      rewrite Forall_forall in Sz. specialize (Sz o Io). rewrite Forall_forall in Sz. specialize (Sz i Ii). lia.
    + intros (i & (o & Io & Co & Ii & Nz) & <- & <- & <-). cbn [k2 ac_l ac_im] in Io, Co. unfold l2 in Io. apply List.in_map_iff in Io. destruct Io as (o0 & <- & Io).
      assert (P : 0 < it_size i). { pose proof (proj1 (Forall_forall _ _) Sz o0 Io) as S0. cbv beta in S0. rewrite Forall_forall in S0. now apply S0. }
      pose proof (proj1 (Forall_forall _ _) Se o0 Io Co) as M. pose proof (Si o0 Io Co) as In0. unfold items_in in In0. rewrite Forall_forall in In0. specialize (In0 i Ii).
      cbn [by_symbols pr_addr pr_size] in In0. destruct (byte_goes_some rs types o0 (it_addr i) M) as (T & G); [split; cbn; lia|]. apply Bb in G.
      exists T, (pr_name o0). intros E. pose proof (sl_path T (pr_name o0) i) as Sp. unfold size_at in Sp. rewrite E in Sp. rewrite (sl_named _ o0 Io Co eq_refl) in Sp.
      assert (0 < zsumf (fun i => bytes_with (fun x => b (pr_name o0) x T) (it_addr i) (it_size i)) (filter (of_symbol i) (pr_items (by_symbols ys o0)))); [|lia].
      apply (zsumf_pos _ _ i); [intros; apply bytes_nonneg| |].
      * apply filter_In. split; [exact Ii|]. unfold of_symbol, of_object. now rewrite !keq_refl.
      * apply bytes_pos. exists (it_addr i). split; [lia|exact G].
  - exact Lb.
  - exact Ld.
Qed.
End Sledger.

(** ** the map of a project *)
Lemma built_sledger d dir name text rs l crt im types ys a ud m :
  built d dir name text rs l crt im types -> get_files d (get_memory_types chip_info) (in_dir dir name) true ud = Ok m -> no_dwarf d dir ud ->
  (a_show_unused a = true \/ filled im types l) -> symbols_of d dir name im ys -> clear_symbols (Account rs l im types) ys ->
  exists ln ls, sledger a (symbol_account ys (Account rs l im types)) (prepare a m) ln ls.
Proof.
  intros Bt G Nd Fi Sy Cs. destruct (built_map _ _ _ _ _ _ _ _ _ Bt _ _ _ G Nd) as (keep & b & groups & K & Bb & Pr & Gr & Ks & Im & H).
  pose proof (names_distinct _ _ _ _ _ _ _ _ _ Bt keep K) as Nm. assert (Wd : wf_dict (m_types m)) by apply Pr.
  destruct (prepare_types a m) as (E1 & E2).
  { intros Su T t It. pose proof It as Et. apply In_dget in Et; [|exact Wd]. destruct (H T t Et) as (_ & _ & L1 & L2 & U).
    split; [exact U|]. destruct Fi as [Fi|Fi]; [congruence|]. intros n sx Isx.
    assert (Ws : wf_dict (t_sections t)). { destruct Pr as ((_ & W2) & _). rewrite Forall_forall in W2. specialize (W2 _ It). apply W2. }
    apply In_dget in Isx; [|exact Ws]. destruct (L2 n sx Isx) as (o' & Io & Co & En). specialize (L1 o' Io Co). rewrite En, Isx in L1.
    eapply listed_filled; eassumption. }
  assert (Se : Forall (fun o => counted im o -> section_mapped rs types (printed_section o) /\ items_in o) l).
  { eapply Forall_impl; [|apply (bt_sections _ _ _ _ _ _ _ _ _ Bt)]. intros q Hq Cq. split; apply Hq, Cq. }
  assert (Sz : Forall (fun o => Forall (fun i => 0 <= it_size i) (pr_items o)) l).
  { eapply Forall_impl; [|apply (printed_nonneg _ _ _ _ (bt_map _ _ _ _ _ _ _ _ _ Bt))]. intros q (_ & Hq). eapply Forall_impl; [|exact Hq]. intros i Hi. apply Hi. }
  assert (Lg : exists lu, ledger a (Account rs l im types) (prepare a m) lu
     (fun T N => zsumf (fun o => bytes_with (fun x => b N x T) (pr_addr o) (pr_size o)) (filter (fun o => keep o && (pr_name o =?= N)) l))
     (fun own T N => zsumf (fun o => zsumf (fun i => bytes_with (fun x => b N x T) (it_addr i) (it_size i)) (filter own (pr_items o))) (filter (fun o => keep o && (pr_name o =?= N)) l))).
  { eexists. eapply (ledger_of rs l im types m a keep b groups Se Sz K Bb Pr Nm Ks); try eassumption; try (intros T t Et; apply (H T t Et)).
    transitivity (m_image_size_diff m); [|apply Pr]. unfold prepare. destruct (a_show_unused a), (a_use_flash_size a); reflexivity. }
  destruct Lg as (lu & Lg).
  destruct (symbols_end _ _ _ _ _ _ _ _ _ _ Bt Sy keep b K Bb Cs ud m Nd G) as (Si & Sp & Ls); [now apply (built_target _ _ _ _ _ _ _ _ _ Bt _ _ _ G)|exact Nm|].
  do 2 eexists. eapply (sledger_of rs l im types ys m a keep b); try eassumption; try (intros T t Et; apply (H T t Et)).
  - eapply Forall_impl; [|exact Se]. intros o Ho Co. now apply Ho.
  - apply (lg_section _ _ _ _ _ _ Lg).
  - apply (lg_label _ _ _ _ _ _ Lg).
  - apply (lg_same _ _ _ _ _ _ Lg).
Qed.
