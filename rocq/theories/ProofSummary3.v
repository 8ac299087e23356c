From Coq Require Import Ascii String List ZArith Lia Bool Permutation.
From Verif Require Import Base MemMap SpecTree SpecOps ProofDiff ProofOps ProofTrim Fixtures ProofSummary ProofSummary2.
Import ListNotations.
Open Scope list_scope.
Open Scope Z_scope.

(** ** totals, whatever names coincide *)

Lemma zsumf_one_key {V} (f : str -> V -> Z) t (d : dict str V) :
  wf_dict d -> (forall k v, k <> t -> f k v = 0) ->
  zsumf (fun kv => f (fst kv) (snd kv)) d = match dget t d with Some v => f t v | None => 0 end.
Proof.
  unfold wf_dict. intros W Z. induction d as [|[k v] d IH]; [reflexivity|].
  inversion W as [|? ? N W']; subst. rewrite zsumf_cons, IH by assumption. simpl. destruct (keqP t k) as [->|Ne].
  - destruct (dget k d) eqn:E; [|lia]. exfalso. apply N. eapply dget_Some_key; eauto.
  - rewrite (Z k v) by congruence. lia.
Qed.

Lemma zsumf_walk m d (F : list str -> entry -> Z) t :
  wf_map m -> depth_len d <> 0%nat ->
  zsumf (fun w => if fst (w_type w) =?= t
                  then match w_entry w with Some e => F (w_path w) e | None => 0 end else 0) (walk m d) =
  match dget t (m_types m) with
  | Some T => zsumf (fun pe => F (fst pe) (snd pe)) (at_len (depth_len d) (ents_type T))
  | None => 0
  end.
Proof.
  intros [W _] D.
  set (G := fun q : str * (list str * option entry) =>
    if fst q =?= t then match snd (snd q) with Some e => F (fst (snd q)) e | None => 0 end else 0).
  transitivity (zsumf G (map (fun w => (fst (w_type w), (w_path w, w_entry w))) (walk m d))).
  { rewrite zsumf_map. reflexivity. }
  rewrite walk_items, zsumf_flat_map.
  rewrite (zsumf_ext _ (fun tT => if fst tT =?= t then zsumf (fun pe => F (fst pe) (snd pe)) (at_len (depth_len d) (ents_type (snd tT))) else 0)).
  - pose proof (zsumf_one_key (fun k T => if k =?= t then zsumf (fun pe => F (fst pe) (snd pe)) (at_len (depth_len d) (ents_type T)) else 0)
      t (m_types m) W) as H. cbv beta in H. rewrite H.
    + destruct (dget t (m_types m)); [|reflexivity]. rewrite keq_refl. reflexivity.
    + intros k v N. destruct (keqP k t); [contradiction|reflexivity].
  - intros [k T] _. rewrite zsumf_map. unfold G. cbn [fst snd]. destruct (k =?= t).
    + unfold items_at. destruct (depth_len d); [contradiction|]. rewrite zsumf_map. reflexivity.
    + apply zsumf_zero. reflexivity.
Qed.

Lemma zsumf_if_filter {A} (p : A -> bool) (f : A -> Z) l : zsumf (fun a => if p a then f a else 0) l = zsumf f (filter p l).
Proof. symmetry. apply zsumf_filter. Qed.

Lemma colon2 x o : colon [x; o] = x ++ ":" ++ o.
Proof. unfold colon. simpl. rewrite app_nil_r. reflexivity. Qed.
Lemma colon3 x o y : colon [x; o; y] = x ++ ":" ++ o ++ ":" ++ y.
Proof. unfold colon. simpl. rewrite app_nil_r. reflexivity. Qed.

Definition pobj (u : bool) (n : str) (p : list str) (e : entry) : bool :=
  match p with [s; x; o] => (if u then e_abbrev e else x ++ ":" ++ o) =?= n | _ => false end.
Definition psym (m : memmap) (u : bool) (d t n : str) (p : list str) (e : entry) : bool :=
  match p with
  | [s; x; o; y] =>
    match look m t [s; x] with
    | Some a => (e_abbrev a =?= d) && ((if u then e_abbrev e else x ++ ":" ++ o ++ ":" ++ y) =?= n)
    | None => false
    end
  | _ => false
  end.

Lemma at_len_filter {P : list str -> entry -> bool} k l :
  (forall p e, P p e = true -> length p = k) ->
  filter (fun pe => P (fst pe) (snd pe)) (at_len k l) = filter (fun pe => P (fst pe) (snd pe)) l.
Proof.
  intros H. unfold at_len. rewrite filter_filter. apply filter_ext_in'. intros [p e] _. cbn [fst snd].
  destruct (P p e) eqn:E; [|apply andb_false_r]. apply H in E. rewrite E, keq_refl. reflexivity.
Qed.

Lemma pobj_len u n p e : pobj u n p e = true -> length p = 3%nat.
Proof. destruct p as [|s [|x [|o [|]]]]; simpl; intros H; try discriminate H; reflexivity. Qed.
Lemma psym_len m u d t n p e : psym m u d t n p e = true -> length p = 4%nat.
Proof. destruct p as [|s [|x [|o [|y [|]]]]]; simpl; intros H; try discriminate H; reflexivity. Qed.

Lemma objects_type_sum m u t n (val : entry -> Z) (cval : contrib -> Z) :
  wf_map m ->
  (forall w s x o, w_sect w = Some s -> w_arch w = Some x -> w_obj w = Some o ->
     Forall (fun c => cval c = val (entry_of_node (snd o))) (g_obj u w)) ->
  zsumf cval (filter (of_type n t) (flat_map (g_obj u) (walk m DObjects))) = zsumf val (obj_row m u t n).
Proof.
  intros W Hv. rewrite filter_flat_map, zsumf_flat_map.
  rewrite (zsumf_ext _ (fun w => if fst (w_type w) =?= t then match w_entry w with
     Some e => (fun p e => if pobj u n p e then val e else 0) (w_path w) e | None => 0 end else 0)).
  - pose proof (zsumf_walk m DObjects (fun p e => if pobj u n p e then val e else 0) t W) as Hw. cbv beta in Hw.
    rewrite Hw by discriminate. unfold obj_row. destruct (dget t (m_types m)) as [T|]; [|reflexivity].
    rewrite zsumf_if_filter, (at_len_filter (P := pobj u n)) by apply pobj_len. rewrite zsumf_map. reflexivity.
  - intros w I. apply walk_shape in I. destruct I as (_ & _ & _ & H & _). destruct (H eq_refl) as (s & x & o & Es & Ex & Eo & Ey).
    specialize (Hv w s x o Es Ex Eo). unfold g_obj in *. unfold w_entry, w_path. rewrite Es, Ex, Eo, Ey in *.
    inversion Hv as [|? ? Hc _]; subst. cbn [filter]. unfold of_type. cbn [c_name c_t pobj].
    rewrite <- colon2. cbn [entry_of_node e_abbrev].
    destruct ((if u then n_abbrev (snd o) else colon [fst x; fst o]) =?= n); cbn [andb].
    + destruct (fst (w_type w) =?= t); [|reflexivity]. rewrite zsumf_one. exact Hc.
    + destruct (fst (w_type w) =?= t); reflexivity.
Qed.

Lemma symbols_type_sum m u d t n (val : entry -> Z) (cval : contrib -> Z) :
  wf_map m ->
  (forall w s x o y, w_sect w = Some s -> w_arch w = Some x -> w_obj w = Some o -> w_sym w = Some y ->
     Forall (fun c => cval c = val (entry_of_sym (snd y))) (g_sym u w)) ->
  zsumf cval (filter (of_type n t) (flat_map (g_sym u) (symbols_walk m d))) = zsumf val (sym_row m u d t n).
Proof.
  intros W Hv. rewrite filter_flat_map, zsumf_flat_map. unfold symbols_walk. rewrite zsumf_filter.
  rewrite (zsumf_ext _ (fun w => if fst (w_type w) =?= t then match w_entry w with
     Some e => (fun p e => if psym m u d t n p e then val e else 0) (w_path w) e | None => 0 end else 0)).
  - pose proof (zsumf_walk m DAll (fun p e => if psym m u d t n p e then val e else 0) t W) as Hw. cbv beta in Hw.
    rewrite Hw by discriminate. unfold sym_row. destruct (dget t (m_types m)) as [T|]; [|reflexivity].
    rewrite zsumf_if_filter, (at_len_filter (P := psym m u d t n)) by apply psym_len. rewrite zsumf_map. reflexivity.
  - intros w I. pose proof (walk_chain _ _ _ I) as Ch. apply walk_shape in I. destruct I as (_ & _ & _ & _ & H).
    destruct (H eq_refl) as (s & x & o & y & Es & Ex & Eo & Ey).
    destruct (chain_look_arch m w s x W Ch Es Ex) as [La _].
    specialize (Hv w s x o y Es Ex Eo Ey). unfold g_sym in *. unfold w_entry, w_path. rewrite Es, Ex, Eo, Ey in *.
    inversion Hv as [|? ? Hc _]; subst. cbn [filter]. unfold of_type. cbn [c_name c_t psym].
    rewrite <- colon3. cbn [entry_of_sym e_abbrev].
    destruct (keqP (fst (w_type w)) t) as [<-|N].
    + rewrite La. cbn [entry_of_node e_abbrev]. rewrite andb_true_r.
      destruct (n_abbrev (snd x) =?= d); cbn [andb]; [|reflexivity].
      destruct ((if u then y_abbrev (snd y) else colon [fst x; fst o; fst y]) =?= n); [|reflexivity].
      rewrite zsumf_one. exact Hc.
    + rewrite andb_false_r. destruct (n_abbrev (snd x) =?= d); reflexivity.
Qed.

Lemma totals_generic m l n e (ents : str -> list entry) :
  wf_map m -> Forall (known (get_summary_memory_types m)) l ->
  (forall t, zsumf c_size (filter (of_type n t) l) = zsumf e_size (ents t)) ->
  (forall t, zsumf c_diff (filter (of_type n t) l) = zsumf e_diff (ents t)) ->
  dget n (collect (get_summary_memory_types m) l) = Some e ->
  totals_ok m ents e.
Proof.
  intros W K H1 H2 E. pose proof (summary_mts_zero m W) as Z.
  destruct (collect_total _ _ _ _ Z K E) as [T1 T2].
  destruct (collect_ok (get_summary_memory_types m) l) as [_ C]. specialize (C n). rewrite E in C.
  destruct C as (_ & _ & _ & Kt & Ht).
  split; [|split; [exact T1|split; [exact T2|]]].
  - rewrite Kt, summary_mts by assumption. apply keys_dmap.
  - intros t T D. specialize (Ht t). rewrite D in Ht. destruct (dget t (get_summary_memory_types m)) as [T0|] eqn:D0; [|contradiction].
    destruct Ht as (_ & S1 & S2 & _). destruct Z as [_ Z]. destruct (Z _ _ D0) as (_ & Z1 & Z2 & _).
    rewrite S1, S2, Z1, Z2, H1, H2. lia.
Qed.

Lemma objects_totals m a n e : wf_map m -> dget n (get_object_files_summary m a) = Some e ->
  totals_ok m (fun t => obj_row m (a_unify a) t n) e.
Proof.
  intros W E. unfold get_object_files_summary in E. rewrite rem_unchanged_get in E by (rewrite objects_collect; apply wf_collect).
  destruct (dget n (object_files_summary_raw m a)) as [e'|] eqn:E'; [|discriminate].
  destruct (changed a (se_diff e')); [|discriminate]. injection E as ->. rewrite objects_collect in E'.
  eapply totals_generic; [assumption|apply lobj_known; assumption| | |exact E'];
    intros t; apply objects_type_sum; try assumption; intros w s x o Es Ex Eo; unfold g_obj; rewrite Es, Ex, Eo; repeat constructor.
Qed.

Lemma symbols_totals m a d S0 n e : wf_map m -> a_archive_details a = Some d ->
  get_symbols_summary m a = Ok S0 -> dget n S0 = Some e ->
  totals_ok m (fun t => sym_row m (a_unify a) d t n) e.
Proof.
  intros W A Hs E. unfold get_symbols_summary in Hs. rewrite A in Hs.
  destruct (symbols_walk m d) as [|w0 l0]; [discriminate|]. injection Hs as <-.
  rewrite rem_unchanged_get in E by (rewrite symbols_collect; apply wf_collect).
  destruct (dget n (symbols_summary_raw m a d)) as [e'|] eqn:E'; [|discriminate].
  destruct (changed a (se_diff e')); [|discriminate]. injection E as ->. rewrite symbols_collect in E'.
  eapply totals_generic; [assumption|apply lsym_known; assumption| | |exact E'];
    intros t; apply symbols_type_sum; try assumption; intros w1 s x o y Es Ex Eo Ey; unfold g_sym; rewrite Es, Ex, Eo, Ey; repeat constructor.
Qed.

(** ** names without ':' *)

Lemma split_last_colon (x x' o o' : str) :
  ~ In ":"%char o -> ~ In ":"%char o' -> x ++ ":"%char :: o = x' ++ ":"%char :: o' -> x = x' /\ o = o'.
Proof.
  intros N N'. revert x'. induction x as [|c x IH]; intros x' E.
  - destruct x' as [|c' x']; simpl in E; [injection E; auto|].
    injection E as _ E. exfalso. apply N. rewrite E. apply in_or_app. right. left. reflexivity.
  - destruct x' as [|c' x']; simpl in E.
    + injection E as _ E. exfalso. apply N'. rewrite <- E. apply in_or_app. right. left. reflexivity.
    + injection E as -> E. destruct (IH x' E) as [-> ->]. auto.
Qed.

Lemma inj_objects_colon m :
  (forall t s x o, look m t [s; x; o] <> None -> ~ In ":"%char o) -> inj_objects m.
Proof.
  intros H t s x o t' s' x' o' L L'. rewrite !colon2. intros E. apply split_last_colon; [eapply H; eauto|eapply H; eauto|exact E].
Qed.

Lemma look_prefix_obj m t s x o y : look m t [s; x; o; y] <> None -> look m t [s; x; o] <> None.
Proof.
  unfold look. destruct (dget t (m_types m)) as [T|]; [|auto]. cbn [look_dict].
  destruct (dget s (t_sections T)) as [q|]; [|auto]. unfold look_sect at 1 2. cbn [look_node look_dict].
  destruct (dget x (n_sub q)) as [r|]; [|auto]. unfold look_arch. cbn [look_node look_dict].
  destruct (dget o (n_sub r)) as [z|]; [|auto]. intros _. discriminate.
Qed.

Lemma inj_symbols_colon m :
  (forall t s x o, look m t [s; x; o] <> None -> ~ In ":"%char o) ->
  (forall t s x o y, look m t [s; x; o; y] <> None -> ~ In ":"%char y) -> inj_symbols m.
Proof.
  intros H1 H2 t s x o y t' s' x' o' y' L L'. rewrite !colon3. intros E.
  assert (E1 : (x ++ ":" ++ o) ++ ":"%char :: y = (x' ++ ":" ++ o') ++ ":"%char :: y').
  { rewrite <- !app_assoc. exact E. }
  apply split_last_colon in E1; [|eapply H2; eauto|eapply H2; eauto]. destruct E1 as [E1 ->].
  apply split_last_colon in E1; [tauto|eapply H1; eapply look_prefix_obj; eauto|eapply H1; eapply look_prefix_obj; eauto].
Qed.
