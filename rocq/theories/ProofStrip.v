From Coq Require Import Ascii String List ZArith Lia Bool Permutation Sorted.
From Verif Require Import Base MemMap SpecTree Pipeline SpecPipe SpecBuild ProofArch ProofTypes ProofSplit ProofSyms.
Import ListNotations.
Open Scope list_scope.
Open Scope Z_scope.

Definition ce (i : isection) : isection := set_symbols i [].
Definition ces (s : osection) : osection := set_isecs s (map ce (o_isecs s)).

Lemma clear_ces l : clear_symbols l = map ces l.
Proof. reflexivity. Qed.

Lemma same_ces s t : same_osec s t -> ces s = ces t.
Proof.
  intros (H1 & H2 & H3 & H4). unfold ces, set_isecs. rewrite H1, H2, H3. f_equal.
  induction H4 as [|i j l m (E1 & E2 & E3 & E4 & E5 & E6) F IH]; simpl; [reflexivity|]. f_equal; [|exact IH].
  unfold ce, set_symbols. congruence.
Qed.

Lemma same_map_ces l m : Forall2 same_osec l m -> map ces l = map ces m.
Proof. induction 1; simpl; [reflexivity|]. f_equal; [apply same_ces; assumption|assumption]. Qed.

Lemma split_isec_ce cut i : split_isec cut (ce i) = (map ce (fst (split_isec cut i)), map ce (snd (split_isec cut i))).
Proof.
  unfold split_isec. cbn [ce set_symbols i_addr i_size i_fill i_name i_archive i_object i_symbols].
  destruct (i_addr i + i_size i + i_fill i <=? cut); [reflexivity|]. destruct (cut <? i_addr i); reflexivity.
Qed.

Lemma cut_ces cut s : cut_section cut (ces s) = (ces (fst (cut_section cut s)), ces (snd (cut_section cut s))).
Proof.
  unfold cut_section, ces, set_isecs. cbn [fst snd o_name o_addr o_size o_isecs].
  assert (E1 : forall l, flat_map (fun i => fst (split_isec cut i)) (map ce l) = map ce (flat_map (fun i => fst (split_isec cut i)) l)).
  { induction l as [|i l IH]; [reflexivity|]. cbn [map flat_map]. rewrite map_app, IH, split_isec_ce. reflexivity. }
  assert (E2 : forall l, flat_map (fun i => snd (split_isec cut i)) (map ce l) = map ce (flat_map (fun i => snd (split_isec cut i)) l)).
  { induction l as [|i l IH]; [reflexivity|]. cbn [map flat_map]. rewrite map_app, IH, split_isec_ce. reflexivity. }
  rewrite E1, E2. reflexivity.
Qed.


Lemma split_section_ces regions : forall fuel s, split_section fuel regions (ces s) = rmap (map ces) (split_section fuel regions s).
Proof.
  induction fuel as [|fuel IH]; intros s; [reflexivity|]. cbn [split_section].
  change (o_addr (ces s)) with (o_addr s). change (o_size (ces s)) with (o_size s).
  destruct (region_at regions (o_addr s)) as [r|]; [|reflexivity].
  destruct (o_addr s + o_size s <=? sr_origin r + sr_length r); [reflexivity|].
  rewrite cut_ces. cbn [fst snd]. rewrite IH. destruct (split_section fuel regions _); reflexivity.
Qed.

Lemma mapM_ces fuel regions l : mapM (split_section fuel regions) (map ces l) = rmap (map (map ces)) (mapM (split_section fuel regions) l).
Proof.
  induction l as [|s l IH]; [reflexivity|]. cbn [map mapM]. rewrite split_section_ces, IH.
  destruct (split_section fuel regions s); [|reflexivity]. cbn [rmap bind]. destruct (mapM _ l); reflexivity.
Qed.

Lemma split_map_ces fuel regions l : split_map_sections fuel (map ces l) regions = rmap (map ces) (split_map_sections fuel l regions).
Proof.
  unfold split_map_sections. rewrite <- map_rev, mapM_ces. destruct (mapM _ (rev l)) as [x|]; [|reflexivity].
  cbn [rmap bind]. rewrite concat_map. reflexivity.
Qed.

(** ** dictionaries *)

Lemma dmem_dmap {V W} (f : V -> W) k (d : dict str V) : dmem k (dmap f d) = dmem k d.
Proof. unfold dmem. rewrite dget_dmap. destruct (dget k d); reflexivity. Qed.

Lemma dmap_dset {V W} (f : V -> W) k v (d : dict str V) : dmap f (dset k v d) = dset k (f v) (dmap f d).
Proof.
  induction d as [|[k' v'] d IH]; [reflexivity|]. cbn [dset dmap map fst snd]. destruct (k =?= k'); [reflexivity|].
  cbn [map fst snd]. f_equal. exact IH.
Qed.

Lemma dmap_dupd {V W} (f : V -> W) (g : V -> V) (h : W -> W) k (d : dict str V) : (forall v, f (g v) = h (f v)) ->
  dmap f (dupd k g d) = dupd k h (dmap f d).
Proof.
  intros H. induction d as [|[k' v'] d IH]; [reflexivity|]. cbn [dupd dmap map fst snd]. destruct (k =?= k').
  - cbn [map fst snd]. rewrite H. reflexivity.
  - cbn [map fst snd]. f_equal. exact IH.
Qed.

Lemma in_dset {V} k v k' v' (d : dict str V) : In (k', v') (dset k v d) -> (k' = k /\ v' = v) \/ In (k', v') d.
Proof.
  induction d as [|[k0 v0] d IH]; cbn [dset].
  - intros [E|[]]. injection E as <- <-. auto.
  - destruct (keqP k k0) as [->|]; intros [E|I]; simpl; auto.
    + injection E as <- <-. auto.
    + destruct (IH I); auto.
Qed.

Lemma add_object_strip objs i : dmap strip_obj (add_object objs i) = add_object (dmap strip_obj objs) (ce i).
Proof.
  unfold add_object. cbn [ce set_symbols i_object i_size i_symbols]. rewrite dmem_dmap.
  rewrite (dmap_dupd strip_obj _ (fun o => Node (n_abbrev o) (n_size o + i_size i) (n_diff o) (add_object_symbols (strip_obj o).(n_sub) []))).
  2: reflexivity.
  destruct (dmem (i_object i) objs).
  - clear. induction objs as [|[k o] d IH]; [reflexivity|]. cbn [dmap map dupd fst snd]. destruct (i_object i =?= k); cbn [strip_obj n_abbrev n_size n_diff n_sub]; [reflexivity|]. f_equal. exact IH.
  - rewrite dmap_dset. cbn [strip_obj n_abbrev n_size n_diff n_sub].
    assert (G : forall d : dict str obj, (forall k o, In (k, o) d -> n_sub o = []) ->
      dupd (i_object i) (fun o : obj => Node (n_abbrev o) (n_size o + i_size i) (n_diff o) (add_object_symbols [] [])) d =
      dupd (i_object i) (fun o : obj => Node (n_abbrev o) (n_size o + i_size i) (n_diff o) (add_object_symbols (n_sub o) [])) d).
    { induction d as [|[k o] d IH]; intros X; [reflexivity|]. cbn [dupd]. destruct (i_object i =?= k).
      - rewrite (X k o) by (simpl; auto). reflexivity.
      - f_equal. apply IH. intros; eapply X; simpl; eauto. }
    apply G. intros k o I. apply in_dset in I. destruct I as [[_ ->]|I]; [reflexivity|].
    unfold dmap in I. apply in_map_iff in I. destruct I as ([k' o'] & E & _). injection E as _ <-. reflexivity.
Qed.

Lemma add_archive_strip archs i : dmap strip_arch (add_archive archs i) = add_archive (dmap strip_arch archs) (ce i).
Proof.
  unfold add_archive. cbn [ce set_symbols i_archive i_size]. rewrite dmem_dmap.
  rewrite (dmap_dupd strip_arch _ (fun x => Node (n_abbrev x) (n_size x + i_size i) (n_diff x) (add_object (n_sub x) (ce i)))).
  - destruct (dmem (i_archive i) archs); [reflexivity|]. rewrite dmap_dset. reflexivity.
  - intros x. unfold strip_arch. cbn [n_abbrev n_size n_diff n_sub]. rewrite add_object_strip. reflexivity.
Qed.

Definition strip_asec (s : asection) : asection :=
  ASection (as_name s) (as_addr s) (as_size s) (as_abbrev s) (dmap strip_arch (as_archives s)).

Lemma add_archives_strip s : add_archives (ces s) = strip_asec (add_archives s).
Proof.
  unfold add_archives, strip_asec, ces, set_isecs. cbn [o_name o_addr o_size o_isecs as_name as_addr as_size as_abbrev as_archives]. f_equal.
  assert (G : forall l d, fold_left add_archive (map ce l) (dmap strip_arch d) = dmap strip_arch (fold_left add_archive l d)).
  { induction l as [|i l IH]; intros d; [reflexivity|]. cbn [map fold_left]. rewrite <- add_archive_strip. apply IH. }
  apply (G (o_isecs s) []).
Qed.

Lemma add_section_strip ext sorted m s :
  add_section ext sorted (dmap strip_type m) (strip_asec s) = dmap strip_type (add_section ext sorted m s).
Proof.
  unfold add_section. change (route ext sorted (strip_asec s)) with (route ext sorted s).
  destruct (route ext sorted s) as [[alias ov]|]; [|reflexivity]. symmetry.
  apply dmap_dupd. intros T. unfold strip_type. cbn [t_size t_size_diff t_used t_used_diff t_sections strip_asec as_size as_name as_abbrev as_archives].
  rewrite dmap_dset. reflexivity.
Qed.

Lemma add_regions_strip types regions : dmap strip_type (add_regions types regions) = add_regions types regions.
Proof.
  assert (A : forall t T, dget t (add_regions types regions) = Some T -> t_sections T = []).
  { intros t T E. unfold add_regions in E. destruct (regions_fold types regions) as (_ & _ & _ & R). rewrite (R _ _ E). reflexivity. }
  assert (W : wf_dict (add_regions types regions)) by (unfold add_regions; apply regions_fold).
  revert A W. generalize (add_regions types regions). clear. intros d. induction d as [|[k T] d IH]; intros A W; [reflexivity|].
  cbn [dmap map fst snd]. inversion W as [|? ? N W']; subst. f_equal.
  - f_equal. specialize (A k T). cbn [dget] in A. rewrite keq_refl in A. specialize (A eq_refl). destruct T as [a b c e s]. cbn in A. subst. reflexivity.
  - apply IH; [|exact W']. intros t T' E. apply (A t T'). cbn [dget]. destruct (keqP t k) as [->|]; [|exact E].
    exfalso. apply N. apply dget_In in E. apply (in_map fst) in E. exact E.
Qed.

Lemma map_strip types regions l :
  get_mem_type_map types regions (map strip_asec l) = dmap strip_type (get_mem_type_map types regions l).
Proof.
  unfold get_mem_type_map. rewrite <- (add_regions_strip types regions) at 1. generalize (add_regions types regions).
  induction l as [|s l IH]; intros m; [reflexivity|]. cbn [map fold_left]. rewrite add_section_strip. apply IH.
Qed.

Lemma withsyms_same e l out : add_symbols_to_sections e l = Ok out -> Forall2 same_osec l out.
Proof. destruct e as [e|]; intros E; [apply (symbols_placed e _ _ E)|apply (own_names _ _ E)]. Qed.

Lemma build_strip types e regions sections img m :
  build true types e regions sections = Ok (img, m) ->
  build false types e regions sections = Ok (img, dmap strip_type m).
Proof.
  unfold build. intros E.
  destruct (split_memory_regions (region_fuel types) (filter_memory_regions regions) types) as [parts|]; cbn [bind] in *; [|discriminate E].
  set (kp := filter_map_sections sections (get_elf_sections_headers e)) in *.
  destruct (add_symbols_to_sections e kp) as [ws|] eqn:Ew; cbn [bind] in *; [|discriminate E].
  apply withsyms_same, same_map_ces in Ew. rewrite clear_ces, Ew, split_map_ces.
  destruct (split_map_sections (section_fuel parts) ws parts) as [cut|]; cbn [bind rmap] in *; [|discriminate E].
  injection E as <- <-. f_equal. f_equal. rewrite <- map_strip. f_equal. unfold add_archives_to_sections. rewrite !map_map.
  apply map_ext. intros s. apply add_archives_strip.
Qed.

(** C30 *)
Lemma get_strip w ud ma ea m mf :
  get w true ud ma ea = Ok (m, mf) -> get w false ud ma ea = Ok (strip_map m, mf).
Proof.
  unfold get. intros E.
  destruct (load_mapfile ma (w_mapfile w)) as [f|]; cbn [bind] in *; [|discriminate E].
  destruct (w_elf w) as [e|]; cbn [bind] in *; [|discriminate E].
  destruct (pick_target (w_proj_desc w) f) as [t|]; cbn [bind] in *; [|discriminate E].
  destruct (w_memory_types w t) as [types|]; cbn [bind] in *; [|discriminate E].
  match type of E with bind (build _ _ _ _ ?s) _ = _ => set (secs := s) in *; clearbody secs end.
  destruct (build true types e (mf_regions f) secs) as [[img d]|] eqn:B; cbn [bind] in E; [|discriminate E].
  rewrite (build_strip _ _ _ _ _ _ B). cbn [bind fst snd] in *. injection E as <- <-. reflexivity.
Qed.
