From Coq Require Import Ascii String List ZArith Lia Bool Permutation Sorted.
From Verif Require Import Base MemMap SpecTree Pipeline SpecPipe SpecBuild ProofArch ProofTypes ProofSplit ProofBuild ProofSyms ProofStrip ProofExpand.
Import ListNotations.
Open Scope list_scope.
Open Scope Z_scope.

(** C27 *)
Lemma elf_ignored w ls ud ma e1 e2 : get w ls ud ma e1 = get w ls ud ma e2.
Proof. reflexivity. Qed.

(** ** C33 *)

Lemma split_region_types types r : forall fuel origin len acc out,
  Forall (fun p => In (sr_type p) types) acc -> split_region fuel types r origin len acc = Ok out ->
  Forall (fun p => In (sr_type p) types) out.
Proof.
  induction fuel as [|fuel IH]; intros origin len acc out F E; [discriminate E|]. cbn [split_region] in E.
  destruct (find_type types origin) as [[t b]|] eqn:Ft.
  - assert (It : In t types).
    { clear -Ft. induction types as [|u types IH]; [discriminate Ft|]. cbn [find_type] in Ft. destruct (type_base u origin).
      - injection Ft as <- _. simpl. auto.
      - simpl. auto. }
    match type of E with (if _ then Ok ?x else _) = _ => assert (F' : Forall (fun p => In (sr_type p) types) x) by (apply Forall_app; split; [exact F|constructor; [exact It|constructor]]) end.
    destruct (len - Z.min len (ct_length t - (origin - b)) =? 0); [injection E as <-; exact F'|]. eapply IH; eassumption.
  - destruct (find _ acc) as [s|] eqn:Fi; [|injection E as <-; exact F].
    apply find_some in Fi. destruct Fi as [Is _]. rewrite Forall_forall in F. pose proof (F s Is) as It.
    match type of E with (if _ then Ok ?x else _) = _ => assert (F' : Forall (fun p => In (sr_type p) types) x) by (apply Forall_app; split; [rewrite Forall_forall; exact F|constructor; [exact It|constructor]]) end.
    destruct (len =? 0); [injection E as <-; exact F'|]. eapply IH; eassumption.
Qed.

Lemma split_regions_types fuel types regions parts : split_memory_regions fuel regions types = Ok parts ->
  Forall (fun p => In (sr_type p) types) parts.
Proof.
  unfold split_memory_regions. intros E. assert (G : Forall (fun p : sregion => In (sr_type p) types) []) by constructor.
  revert E G. generalize (@nil sregion). induction regions as [|r l IH]; intros acc E G; cbn [foldM] in E; [injection E as <-; exact G|].
  destruct (split_region fuel types r (r_origin r) (r_length r) acc) as [acc'|] eqn:S; cbn [bind] in E; [|discriminate E].
  eapply IH; [exact E|]. eapply split_region_types; eassumption.
Qed.

Lemma zsumf_pick (ks : list str) al c : NoDup ks -> In al ks -> zsumf (fun t => if al =?= t then c else 0) ks = c.
Proof.
  induction ks as [|k ks IH]; intros N I; [contradiction|]. inversion N as [|? ? Nk N']; subst. rewrite zsumf_cons.
  destruct (keqP al k) as [->|Ne].
  - rewrite zsumf_zero; [lia|]. intros t It. destruct (keqP k t) as [->|]; [contradiction|reflexivity].
  - destruct I as [->|I]; [contradiction|]. rewrite IH by assumption. lia.
Qed.

Lemma map_weight (f : sect -> Z) types regions l :
  Forall (fun r => In (sr_type r) types) regions ->
  (forall t, NoDup (flat_map dest_names (filter (goes_to t) (combine l (dests_of types regions l))))) ->
  zsumf (fun kv => zsumf (fun se => f (snd se)) (t_sections (snd kv))) (get_mem_type_map types regions l) =
  zsumf (fun s => match route (ext_ram_alias types) (py_sorted sr_origin false regions) s with
                  | Some (_, ov) => f (rnode s ov) | None => 0 end) l.
Proof.
  intros H N.
  set (A := fun t => assigned (ext_ram_alias types) (py_sorted sr_origin false regions) t l).
  pose proof (map_wf types regions l) as W.
  rewrite (zsumf_ext _ (fun kv => zsumf (fun se => f (snd se)) (A (fst kv)))).
  2: { intros [t T] I. cbn [fst snd]. apply In_dget in I; [|exact W]. apply map_get in I. cbv zeta in I. rewrite I. cbn [t_sections].
       specialize (N t). rewrite <- assigned_names in N. rewrite dset_all_distinct by exact N. reflexivity. }
  pose proof (zsumf_map (fst : str * mtype -> str) (fun t => zsumf (fun se => f (snd se)) (A t)) (get_mem_type_map types regions l)) as Y.
  rewrite <- Y. clear Y. change (map fst (get_mem_type_map types regions l)) with (keys (get_mem_type_map types regions l)).
  assert (K : forall s al ov, In s l -> route (ext_ram_alias types) (py_sorted sr_origin false regions) s = Some (al, ov) ->
     In al (keys (get_mem_type_map types regions l))).
  { intros s al ov _ R. apply map_keys. eapply route_known; eassumption. }
  unfold wf_dict in W. revert K W. generalize (keys (get_mem_type_map types regions l)). unfold A. clear N A. intros ks K W.
  induction l as [|s l IH].
  - rewrite zsumf_zero; [reflexivity|]. intros. reflexivity.
  - rewrite zsumf_cons, <- IH by (intros; eapply K; [right|]; eassumption). unfold assigned. cbn [flat_map].
    destruct (route (ext_ram_alias types) (py_sorted sr_origin false regions) s) as [[al ov]|] eqn:R; [|reflexivity].
    rewrite <- (zsumf_pick ks al (f (rnode s ov)) W (K s al ov (or_introl eq_refl) R)), <- zsumf_plus. apply zsumf_ext.
    intros t _. rewrite zsumf_app. destruct (al =?= t); [rewrite zsumf_cons|]; rewrite zsumf_nil; cbn [snd]; lia.
Qed.

Lemma archive_size_parts a p ov : archive_size a (rnode (add_archives p) ov) = archive_bytes a (o_isecs p).
Proof.
  unfold archive_size. change (n_sub (rnode (add_archives p) ov)) with (as_archives (add_archives p)).
  destruct (dget a (as_archives (add_archives p))) as [x|] eqn:E.
  - apply archives_totals in E. apply E.
  - unfold archive_bytes. rewrite filter_false; [reflexivity|]. intros i I. destruct (keqP (i_archive i) a) as [<-|]; [|reflexivity].
    destruct (archives_listed p i I) as (x & _ & E' & _). rewrite E' in E. discriminate E.
Qed.

Lemma sect_tiles_sum a b l : sect_tiles a b l -> zsumf o_size l = b - a.
Proof. induction 1 as [|p b l H IH]; [rewrite zsumf_nil; lia|]. rewrite zsumf_cons, IH. lia. Qed.

Lemma zsumf_groups {A B} (f : A -> Z) (g : B -> Z) l gs : Forall2 (fun s ps => zsumf g ps = f s) l gs -> zsumf g (concat gs) = zsumf f l.
Proof. induction 1 as [|s ps l gs H F IH]; [reflexivity|]. cbn [concat]. rewrite zsumf_app, zsumf_cons, H, IH. reflexivity. Qed.

Lemma zsumf_rev {A} (f : A -> Z) l : zsumf f (rev l) = zsumf f l.
Proof. apply zsumf_perm, Permutation_sym, Permutation_rev. Qed.

Lemma archive_bytes_same a s t : same_osec s t -> archive_bytes a (o_isecs t) = archive_bytes a (o_isecs s).
Proof.
  intros (_ & _ & _ & F). unfold archive_bytes. rewrite !zsumf_filter. induction F as [|i j l m (E1 & E2 & E3 & E4 & E5 & E6) F IH]; [reflexivity|].
  rewrite !zsumf_cons, IH, E3, E5. reflexivity.
Qed.

Lemma archive_bytes_nonempty a s : archive_bytes a (o_isecs (nonempty_isecs s)) = archive_bytes a (o_isecs s).
Proof.
  unfold archive_bytes, nonempty_isecs. cbn [o_isecs]. rewrite !zsumf_filter. apply zsumf_ext. intros i _.
  destruct (Z.eqb_spec (i_size i) 0) as [E|]; cbn [negb]; [|reflexivity]. rewrite E. destruct (_ =?= _); reflexivity.
Qed.

Lemma Forall2_rev {A B} (R : A -> B -> Prop) l m : Forall2 R l m -> Forall2 R (rev l) (rev m).
Proof. induction 1; simpl; [constructor|]. apply Forall2_app; [assumption|]. constructor; [assumption|constructor]. Qed.

Lemma build_accounted ls types e regions sections img m :
  build ls types e regions sections = Ok (img, m) ->
  exists keep parts groups dests,
    (forall s, keep s = true <-> kept e s) /\
    Forall (fun r => In (sr_type r) types) parts /\
    Forall2 (section_parts parts) (rev (filter keep sections)) groups /\
    Forall2 (fun p d => dest types parts (add_archives p) d) (concat groups) dests /\
    zsumf (fun kv => t_used (snd kv)) m + zsumf (fun sd => o_size (fst sd)) (filter lost (combine (concat groups) dests)) =
      zsumf o_size (filter keep sections) /\
    ((forall t, NoDup (flat_map dest_names (filter (goes_to t) (combine (map add_archives (concat groups)) dests)))) ->
     forall a, zsumf (fun kv => zsumf (fun se => archive_size a (snd se)) (t_sections (snd kv))) m +
       zsumf (fun sd => archive_bytes a (o_isecs (fst sd))) (filter lost (combine (concat groups) dests)) =
       zsumf (fun s => archive_bytes a (o_isecs s)) (filter keep sections)).
Proof.
  unfold build. intros E.
  destruct (split_memory_regions (region_fuel types) (filter_memory_regions regions) types) as [parts|] eqn:Sr; cbn [bind] in E; [|discriminate E].
  destruct (filter_kept e sections) as (keep & Hk & Ef). rewrite Ef in E.
  set (kp := map nonempty_isecs (filter keep sections)) in *.
  destruct (if ls then add_symbols_to_sections e kp else Ok (clear_symbols kp)) as [ws|] eqn:Ew; cbn [bind] in E; [|discriminate E].
  assert (Sm : Forall2 same_osec kp ws).
  { destruct ls; [eapply withsyms_same; exact Ew|]. injection Ew as <-. clear. induction kp as [|s l IH]; simpl; constructor; [|exact IH].
    repeat split. cbn [set_isecs o_isecs]. induction (o_isecs s); simpl; constructor; [repeat split|assumption]. }
  destruct (split_conserves ws parts) as (groups & Es & G). rewrite Es in E. cbn [bind] in E. injection E as _ <-.
  apply split_regions_types in Sr.
  set (rt := route (ext_ram_alias types) (py_sorted sr_origin false parts)).
  set (dests := map (fun p => rt (add_archives p)) (concat groups)).
  assert (Ed : dests_of types parts (map add_archives (concat groups)) = dests) by (unfold dests_of, dests; rewrite map_map; reflexivity).
  assert (G2 : Forall2 (fun s ps => section_parts parts s ps /\ forall a, zsumf (fun p => archive_bytes a (o_isecs p)) ps = archive_bytes a (o_isecs s)) (rev (filter keep sections)) groups).
  { assert (S2 : Forall2 (fun s t => o_name s = o_name t /\ o_addr s = o_addr t /\ o_size s = o_size t /\ forall a, archive_bytes a (o_isecs t) = archive_bytes a (o_isecs s)) (rev (filter keep sections)) (rev ws)).
    { apply Forall2_rev. clear -Sm. unfold kp in Sm. revert ws Sm. induction (filter keep sections) as [|s l IH]; intros ws Sm; inversion Sm as [|? t ? m H F]; subst; constructor.
      - pose proof H as (H1 & H2 & H3 & _). split; [exact H1|]. split; [exact H2|]. split; [exact H3|]. intros a.
        rewrite (archive_bytes_same a _ _ H). apply archive_bytes_nonempty.
      - apply IH, F. }
    clear -S2 G. revert groups G. induction S2 as [|s t l m (H1 & H2 & H3 & H4) F IH]; intros gs G; inversion G as [|? ps ? gs' K G']; subst; constructor; [|apply IH, G'].
    destruct K as (K1 & _ & K3 & _). split.
    - destruct K1 as [T P]. split; [rewrite H2, H3; exact T|]. eapply Forall_impl; [|exact P]. intros p [P1 P2]. rewrite H1. auto.
    - intros a. rewrite K3. apply H4. }
  exists keep, parts, groups, dests. split; [exact Hk|]. split; [exact Sr|]. split.
  { eapply Forall2_weaken; [|exact G2]. intros s ps [H _]. exact H. }
  split.
  { unfold dests. clear. induction (concat groups) as [|p l IH]; simpl; constructor; [apply route_dest|exact IH]. }
  assert (Split : forall f : osection -> Z, zsumf (fun sd => f (fst sd)) (filter lost (combine (concat groups) dests)) =
     zsumf (fun p => if is_some (rt (add_archives p)) then 0 else f p) (concat groups)).
  { intros f. unfold dests. rewrite combine_map, zsumf_filter, zsumf_map. apply zsumf_ext. intros p _. unfold lost. cbn [fst snd].
    destruct (is_some _); reflexivity. }
  split.
  - rewrite (Split o_size). unfold add_archives_to_sections.
    rewrite (map_total types parts _ (dests_of types parts (map add_archives (concat groups))) Sr (dests_ok _ _ _)).
    unfold dests_of. rewrite combine_map, zsumf_filter, !zsumf_map. fold rt. rewrite <- zsumf_plus. cbn [fst snd].
    rewrite <- zsumf_rev with (l := filter keep sections).
    etransitivity; [|apply (zsumf_groups o_size o_size)].
    + apply zsumf_ext. intros p _. cbn [add_archives as_size]. destruct (is_some _); lia.
    + eapply Forall2_weaken; [|exact G2]. intros s ps [[T _] _]. rewrite (sect_tiles_sum _ _ _ T). lia.
  - intros N a. rewrite (Split (fun p => archive_bytes a (o_isecs p))). unfold add_archives_to_sections.
    rewrite (map_weight (archive_size a) types parts _ Sr) by (rewrite Ed; exact N). fold rt.
    rewrite zsumf_map, <- zsumf_plus. rewrite <- zsumf_rev with (l := filter keep sections).
    etransitivity; [|apply (zsumf_groups (fun s => archive_bytes a (o_isecs s)) (fun p => archive_bytes a (o_isecs p)))].
    + apply zsumf_ext. intros p _. destruct (rt (add_archives p)) as [[al ov]|]; cbn [is_some]; [rewrite archive_size_parts|]; lia.
    + eapply Forall2_weaken; [|exact G2]. intros s ps [_ H]. apply H.
Qed.

Lemma keep_name_size e s t : o_name s = o_name t -> o_size s = o_size t -> kept e s -> kept e t.
Proof. unfold kept. intros -> ->. auto. Qed.

Lemma expand_same_header syms s : o_name (expand_osec syms s) = o_name s /\ o_addr (expand_osec syms s) = o_addr s /\ o_size (expand_osec syms s) = o_size s.
Proof. repeat split. Qed.

Lemma load_of w ma mf : map_file_of w ma mf -> load_mapfile ma (w_mapfile w) = Ok mf.
Proof. destruct ma as [f|]; cbn; intros H; [congruence|]. rewrite H. reflexivity. Qed.

Lemma wants_flag ud w b : wants_dwarf ud w b <-> dwarf_flag ud w = b.
Proof. unfold wants_dwarf, dwarf_flag. destruct ud; split; [intros [E|[E _]]; congruence|intros ->; now left|intros [E|[_ E]]; congruence|right; auto]. Qed.

Lemma get_accounted w ls ud ma ea m mf' mf e :
  get w ls ud ma ea = Ok (m, mf') -> map_file_of w ma mf -> w_elf w = Ok e ->
  exists types keep parts groups dests,
    w_memory_types w (m_target m) = Ok types /\
    (forall s, keep s = true <-> kept e s) /\
    Forall (fun r => In (sr_type r) types) parts /\
    Forall2 (section_parts parts) (rev (filter keep (mf_sections mf))) groups /\
    Forall2 (fun p d => dest types parts (add_archives p) d) (concat groups) dests /\
    total_used m + zsumf (fun sd => o_size (fst sd)) (filter lost (combine (concat groups) dests)) =
      zsumf o_size (filter keep (mf_sections mf)) /\
    (wants_dwarf ud w false ->
     (forall t, NoDup (flat_map dest_names (filter (goes_to t) (combine (map add_archives (concat groups)) dests)))) ->
     forall a, map_archive_bytes a m +
       zsumf (fun sd => archive_bytes a (o_isecs (fst sd))) (filter lost (combine (concat groups) dests)) =
       zsumf (fun s => archive_bytes a (o_isecs s)) (filter keep (mf_sections mf))).
Proof.
  intros E Lm Le. unfold get in E. rewrite (load_of _ _ _ Lm), Le in E. cbn [bind] in E.
  destruct (pick_target (w_proj_desc w) mf) as [t|]; cbn [bind] in *; [|discriminate E].
  destruct (w_memory_types w t) as [types|] eqn:Ty; cbn [bind] in *; [|discriminate E].
  match type of E with bind (build _ _ _ _ ?s) _ = _ => set (secs := s) in * end.
  assert (Hs : exists f, secs = map f (mf_sections mf) /\ (forall s, o_name (f s) = o_name s /\ o_addr (f s) = o_addr s /\ o_size (f s) = o_size s) /\
             (dwarf_flag ud w = false -> forall s, f s = s)).
  { assert (Id : exists f, mf_sections mf = map f (mf_sections mf) /\ (forall s, o_name (f s) = o_name s /\ o_addr (f s) = o_addr s /\ o_size (f s) = o_size s) /\
             (dwarf_flag ud w = false -> forall s, f s = s)) by (exists (fun s => s); rewrite map_id; repeat split).
    unfold secs. destruct (dwarf_flag ud w); [|exact Id]. destruct (w_proj_desc w) as [pd|]; [|exact Id]. destruct e as [ef|]; [|exact Id].
    eexists. split; [reflexivity|]. split; [intros; apply expand_same_header|discriminate]. }
  clearbody secs. destruct Hs as (f & -> & Hf & Hd).
  destruct (build ls types e (mf_regions mf) (map f (mf_sections mf))) as [[img d]|] eqn:B; cbn [bind fst snd] in E; [|discriminate E].
  injection E as <- _. destruct (build_accounted _ _ _ _ _ _ _ B) as (keep & parts & groups & dests & H1 & H2 & H3 & H4 & H5 & H6).
  assert (Ff : filter keep (map f (mf_sections mf)) = map f (filter keep (mf_sections mf))).
  { clear -H1 Hf. induction (mf_sections mf) as [|s l IH]; [reflexivity|]. cbn [map filter].
    assert (X : keep (f s) = keep s).
    { apply eq_true_iff_eq. rewrite !H1. destruct (Hf s) as (N & _ & Sz). split; apply keep_name_size; auto. }
    rewrite X. destruct (keep s); [cbn [map]; f_equal|]; exact IH. }
  rewrite Ff in *. exists types, keep, parts, groups, dests. cbn [m_target]. split; [exact Ty|]. split; [exact H1|]. split; [exact H2|]. split; [|split; [exact H4|split]].
  - rewrite <- map_rev in H3. clear -H3 Hf. revert groups H3. induction (rev (filter keep (mf_sections mf))) as [|s l IH]; intros gs H; inversion H as [|? ps ? gs' K F]; subst; constructor; [|apply IH, F].
    destruct (Hf s) as (N1 & N2 & N3). destruct K as [T P]. split; [rewrite <- N2, <- N3; exact T|]. rewrite N1 in P. exact P.
  - unfold total_used. cbn [m_types]. rewrite H5, zsumf_map. apply zsumf_ext. intros s _. apply Hf.
  - intros D N a. apply wants_flag in D. unfold map_archive_bytes. cbn [m_types]. rewrite (H6 N a), zsumf_map. apply zsumf_ext. intros s _. rewrite (Hd D s). reflexivity.
Qed.

(** ** C32 *)

Lemma drop_empty_twice s : drop_empty (drop_empty s) = drop_empty s.
Proof. unfold drop_empty. cbn. f_equal. rewrite filter_filter. apply filter_ext_in'. intros i _. destruct (_ =? _); reflexivity. Qed.

Lemma keep_drop h s : keep_section h (drop_empty s) = keep_section h s.
Proof. reflexivity. Qed.

Lemma filter_after h h2 l : filter_map_sections (after_filter h l) h2 = filter_map_sections l h2.
Proof.
  unfold filter_map_sections, after_filter. induction l as [|s l IH]; [reflexivity|]. cbn [map filter].
  destruct (keep_section h s).
  - rewrite keep_drop. destruct (keep_section h2 s); cbn [map]; rewrite IH, ?drop_empty_twice; reflexivity.
  - destruct (keep_section h2 s); cbn [map]; rewrite IH; reflexivity.
Qed.

Lemma build_after ls types e regions h l : build ls types e regions (after_filter h l) = build ls types e regions l.
Proof. unfold build. rewrite filter_after. reflexivity. Qed.

Lemma after_twice h l : after_filter h (after_filter h l) = after_filter h l.
Proof.
  unfold after_filter. rewrite map_map. apply map_ext. intros s. destruct (keep_section h s) eqn:K; [|rewrite K; reflexivity].
  rewrite keep_drop, K. apply drop_empty_twice.
Qed.

(** the map computed by a later call does not depend on the earlier one *)
Lemma get_again w ls ud mf ea m mf' w2 ls2 ud2 ea2 :
  get w ls ud (Some mf) ea = Ok (m, mf') -> dwarf_flag ud w = false -> dwarf_flag ud2 w2 = false ->
  rmap fst (get w2 ls2 ud2 (Some mf') ea2) = rmap fst (get w2 ls2 ud2 (Some mf) ea2).
Proof.
  intros E D1 D2. unfold get in *. cbn [load_mapfile bind] in *. rewrite D1 in E. rewrite D2.
  destruct (w_elf w) as [e|]; cbn [bind] in E; [|discriminate E].
  destruct (pick_target (w_proj_desc w) mf) as [t|]; cbn [bind] in *; [|discriminate E].
  destruct (w_memory_types w t) as [types|]; cbn [bind] in *; [|discriminate E].
  destruct (build _ _ _ _ _) as [r|]; cbn [bind] in E; [|discriminate E]. injection E as _ <-.
  destruct (w_elf w2) as [e2|]; cbn [bind]; [|reflexivity].
  replace (pick_target (w_proj_desc w2) (MapFile (mf_target mf) (mf_regions mf) (after_filter (get_elf_sections_headers e) (mf_sections mf)))) with (pick_target (w_proj_desc w2) mf) by reflexivity.
  destruct (pick_target (w_proj_desc w2) mf) as [t2|]; cbn [bind]; [|reflexivity].
  destruct (w_memory_types w2 t2) as [types2|]; cbn [bind]; [|reflexivity]. cbn [mf_sections mf_regions mf_target].
  rewrite build_after. destruct (build ls2 types2 e2 (mf_regions mf) (mf_sections mf)) as [r2|]; reflexivity.
Qed.

Lemma get_history mf cs mf' : history mf cs mf' -> Forall (fun c => wants_dwarf (c_dwarf c) (c_world c) false) cs ->
  forall c, wants_dwarf (c_dwarf c) (c_world c) false -> rmap fst (do_call c mf') = rmap fst (do_call c mf).
Proof.
  induction 1 as [mf|mf c0 m mf1 cs mf2 E H IH]; intros F c D; [reflexivity|]. inversion F as [|? ? D0 F']; subst.
  rewrite (IH F' c D). unfold do_call in *. apply wants_flag in D, D0. eapply get_again; eassumption.
Qed.
