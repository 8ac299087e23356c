From Coq Require Import Ascii String List ZArith Lia Bool Permutation Sorted.
From Verif Require Import Base MemMap SpecTree Pipeline SpecPipe SpecBuild SpecBytes ProofOps ProofArch ProofTypes ProofSplit ProofBuild ProofSyms ProofStrip ProofExpand ProofGet ProofBytes.
Import ListNotations.
Open Scope list_scope.
Open Scope Z_scope.

Definition same_header (s t : osection) : Prop := o_name s = o_name t /\ o_addr s = o_addr t /\ o_size s = o_size t.

Definition group_of (parts : list sregion) (s : osection) (ps : list osection) : Prop :=
  split_section (section_fuel parts) parts s = Ok ps /\ parts_of parts s ps.

Lemma split_groups sections regions out : split_map_sections (section_fuel regions) sections regions = Ok out ->
  exists groups, out = concat groups /\ Forall2 (group_of regions) (rev sections) groups.
Proof.
  unfold split_map_sections. intros E. destruct (mapM _ _) as [gs|] eqn:M; cbn [bind] in E; [|discriminate E]. injection E as <-.
  exists gs. split; [reflexivity|]. revert gs M. induction (rev sections) as [|s l IH]; intros gs M; cbn [mapM] in M; [injection M as <-; constructor|].
  destruct (split_section _ _ s) as [ps|] eqn:S1; cbn [bind] in M; [|discriminate M].
  destruct (mapM _ l) as [gs'|] eqn:M'; cbn [bind] in M; [|discriminate M]. injection M as <-. constructor; [|apply IH; reflexivity].
  split; [exact S1|]. destruct (split_section_ok regions (section_fuel regions) s (section_fuel_enough _ _)) as (ps' & E1 & H).
  rewrite S1 in E1. injection E1 as <-. exact H.
Qed.

Lemma build_known ls types e regions sections img m :
  build ls types e regions sections = Ok (img, m) ->
  exists keep parts ws groups,
    (forall s, keep s = true <-> kept e s) /\
    split_memory_regions (region_fuel types) (filter_memory_regions regions) types = Ok parts /\
    Forall2 same_osec (map nonempty_isecs (filter keep sections)) ws /\
    Forall2 (group_of parts) (rev ws) groups /\
    m = get_mem_type_map types parts (map add_archives (concat groups)).
Proof.
  unfold build. intros E.
  destruct (split_memory_regions (region_fuel types) (filter_memory_regions regions) types) as [parts|] eqn:Sr; cbn [bind] in E; [|discriminate E].
  destruct (filter_kept e sections) as (keep & Hk & Ef). rewrite Ef in E.
  set (kp := map nonempty_isecs (filter keep sections)) in *.
  destruct (if ls then add_symbols_to_sections e kp else Ok (clear_symbols kp)) as [ws|] eqn:Ew; cbn [bind] in E; [|discriminate E].
  assert (Sm : Forall2 same_osec kp ws).
  { destruct ls; [eapply withsyms_same; exact Ew|]. injection Ew as <-. clear. induction kp as [|s l IH]; simpl; constructor; [|exact IH].
    repeat split. cbn [set_isecs o_isecs]. induction (o_isecs s); simpl; constructor; [repeat split|assumption]. }
  destruct (split_map_sections (section_fuel parts) ws parts) as [out|] eqn:Es; cbn [bind] in E; [|discriminate E].
  destruct (split_groups _ _ _ Es) as (groups & -> & G). injection E as _ <-.
  exists keep, parts, ws, groups. split; [exact Hk|]. split; [reflexivity|]. split; [exact Sm|]. split; [exact G|reflexivity].
Qed.

Lemma get_known w ls ud ma ea m mf' mf e :
  get w ls ud ma ea = Ok (m, mf') -> map_file_of w ma mf -> w_elf w = Ok e ->
  exists types keep parts ws groups,
    w_memory_types w (m_target m) = Ok types /\
    (forall s, keep s = true <-> kept e s) /\
    split_memory_regions (region_fuel types) (filter_memory_regions (mf_regions mf)) types = Ok parts /\
    Forall2 same_header (filter keep (mf_sections mf)) ws /\
    (dwarf_flag ud w = false -> Forall2 same_osec (map nonempty_isecs (filter keep (mf_sections mf))) ws) /\
    Forall2 (group_of parts) (rev ws) groups /\
    m_types m = get_mem_type_map types parts (map add_archives (concat groups)).
Proof.
  intros E Lm Le. unfold get in E. rewrite (load_of _ _ _ Lm), Le in E. cbn [bind] in E.
  destruct (pick_target (w_proj_desc w) mf) as [t|]; cbn [bind] in *; [|discriminate E].
  destruct (w_memory_types w t) as [types|] eqn:Ty; cbn [bind] in *; [|discriminate E].
  match type of E with bind (build _ _ _ _ ?s) _ = _ => set (secs := s) in * end.
  assert (Hs : exists f, secs = map f (mf_sections mf) /\ (forall s, same_header s (f s)) /\
             (dwarf_flag ud w = false -> forall s, f s = s)).
  { assert (Id : exists f, mf_sections mf = map f (mf_sections mf) /\ (forall s, same_header s (f s)) /\
             (dwarf_flag ud w = false -> forall s, f s = s)) by (exists (fun s => s); rewrite map_id; repeat split).
    unfold secs. destruct (dwarf_flag ud w); [|exact Id]. destruct (w_proj_desc w) as [pd|]; [|exact Id]. destruct e as [ef|]; [|exact Id].
    eexists. split; [reflexivity|]. split; [intros; repeat split|discriminate]. }
  clearbody secs. destruct Hs as (f & -> & Hf & Hd).
  destruct (build ls types e (mf_regions mf) (map f (mf_sections mf))) as [[img d]|] eqn:B; cbn [bind fst snd] in E; [|discriminate E].
  injection E as <- _. destruct (build_known _ _ _ _ _ _ _ B) as (keep & parts & ws & groups & H1 & H2 & H3 & H4 & H5).
  assert (Ff : filter keep (map f (mf_sections mf)) = map f (filter keep (mf_sections mf))).
  { clear -H1 Hf. induction (mf_sections mf) as [|s l IH]; [reflexivity|]. cbn [map filter].
    assert (X : keep (f s) = keep s).
    { apply eq_true_iff_eq. rewrite !H1. destruct (Hf s) as (N & _ & Sz). split; apply keep_name_size; auto. }
    rewrite X. destruct (keep s); [cbn [map]; f_equal|]; exact IH. }
  rewrite Ff in *. exists types, keep, parts, ws, groups. cbn [m_target m_types]. split; [exact Ty|]. split; [exact H1|]. split; [exact H2|].
  split; [|split; [|split; [exact H4|exact H5]]].
  - clear -H3 Hf. revert ws H3. induction (filter keep (mf_sections mf)) as [|s l IH]; intros ws H; inversion H as [|? t ? l' K F]; subst; constructor; [|apply IH, F].
    destruct (Hf s) as (N1 & N2 & N3). destruct K as (K1 & K2 & K3 & _). cbn [nonempty_isecs o_name o_addr o_size] in *. repeat split; congruence.
  - intros D. assert (X : map f (filter keep (mf_sections mf)) = filter keep (mf_sections mf)) by (erewrite map_ext; [apply map_id|exact (Hd D)]). rewrite X in H3. exact H3.
Qed.

(** the bytes of adjacent parts *)
Lemma tiles_bytes P a b ps : sect_tiles a b ps -> Forall (fun p => 0 < o_size p) ps ->
  zsumf (fun p => bytes_with P (o_addr p) (o_size p)) ps = bytes_with P a (b - a).
Proof.
  induction 1 as [a|p b l T IH]; intros F; [rewrite zsumf_nil, bytes_none by lia; reflexivity|]. inversion F as [|? ? Fp Fl]; subst.
  rewrite zsumf_cons, (IH Fl). pose proof (sect_tiles_le _ _ _ T Fl). rewrite <- bytes_app by lia. f_equal. lia.
Qed.

Lemma cut_keeps_pos : cut_keeps (fun s => 0 < o_size s).
Proof. intros cut s C _. cbn [cut_section fst snd o_size]. lia. Qed.

Section Given.
  Variables (types : list chip_type) (regions : list region) (parts : list sregion).
  Variable d : str -> Z -> str -> bool.
  Hypothesis Sep : windows_separate types.
  Hypothesis PF : parts_fact regions types parts.
  Hypothesis Hd : forall n a T, d n a T = true <-> byte_goes types n a T.

  Definition rt := route (ext_ram_alias types) (py_sorted sr_origin false parts).
  Definition to_type (T : str) (p : osection) : bool := goes_to T (add_archives p, rt (add_archives p)).

  Lemma part_known s ps p : 0 < o_size s -> section_mapped regions types s -> group_of parts s ps -> In p ps ->
    exists T, rt (add_archives p) = Some (T, false) /\ 0 < o_size p /\ o_name p = o_name s /\
      forall a, byte_of p a -> forall T', d (o_name s) a T' = true <-> T' = T.
  Proof.
    intros Pos M [G (G1 & G2 & G3)] I. pose proof (G3 _ cut_keeps_pos Pos) as Pp. pose proof G1 as [T0 Fn]. rewrite Forall_forall in Fn.
    destruct (sect_tiles_in _ _ _ _ T0 Pp I) as [B1 B2].
    destruct (part_type regions types parts s ps p Sep PF M G1 Pp I B1 B2) as (T & D & B).
    exists T. split; [eapply dest_unique; [apply route_dest|exact D]|]. split; [rewrite Forall_forall in Pp; exact (Pp p I)|].
    split; [apply Fn, I|]. intros a Ha T'. rewrite Hd. apply B, Ha.
  Qed.

  Lemma part_bytes s ps p T : 0 < o_size s -> section_mapped regions types s -> group_of parts s ps -> In p ps ->
    (if to_type T p then o_size p else 0) = bytes_with (fun a => d (o_name s) a T) (o_addr p) (o_size p).
  Proof.
    intros Pos M G I. destruct (part_known s ps p Pos M G I) as (Tp & R & Pp & _ & B). unfold to_type, goes_to. cbn [snd]. rewrite R.
    rewrite (bytes_const _ (Tp =?= T)); [destruct (Tp =?= T); lia|lia|]. intros a Ha. apply eq_true_iff_eq. rewrite B by exact Ha.
    destruct (keqP Tp T); split; congruence.
  Qed.

  Lemma group_bytes s ps T : 0 < o_size s -> section_mapped regions types s -> group_of parts s ps ->
    zsumf (fun p => if to_type T p then o_size p else 0) ps = bytes_with (fun a => d (o_name s) a T) (o_addr s) (o_size s).
  Proof.
    intros Pos M G. rewrite (zsumf_ext _ (fun p => bytes_with (fun a => d (o_name s) a T) (o_addr p) (o_size p))).
    - destruct G as [G (G1 & G2 & G3)]. rewrite (tiles_bytes _ _ _ _ (proj1 G1) (G3 _ cut_keeps_pos Pos)). f_equal. lia.
    - intros p I. eapply part_bytes; eassumption.
  Qed.

  Lemma used_bytes ws groups T t : Forall (fun s => 0 < o_size s /\ section_mapped regions types s) ws ->
    Forall2 (group_of parts) (rev ws) groups ->
    dget T (get_mem_type_map types parts (map add_archives (concat groups))) = Some t ->
    t_used t = zsumf (fun s => bytes_with (fun a => d (o_name s) a T) (o_addr s) (o_size s)) ws.
  Proof.
    intros F G E. rewrite (map_used _ _ _ _ _ _ (dests_ok _ _ _) E). unfold dests_of. rewrite combine_map, zsumf_filter, !zsumf_map.
    rewrite <- (zsumf_rev _ ws). apply Forall_rev in F. cbn [fst].
    etransitivity; [|apply (zsumf_groups _ (fun p => if to_type T p then o_size p else 0))].
    - apply zsumf_ext. intros p _. reflexivity.
    - clear E. induction G as [|s ps l gs G0 G IH]; constructor; inversion F as [|? ? F0 F']; subst.
      + apply group_bytes; tauto.
      + apply IH, F'.
  Qed.
End Given.

Lemma header_mapped regions types s t : same_header s t -> section_mapped regions types s -> section_mapped regions types t.
Proof. unfold section_mapped, byte_of. intros (-> & -> & ->). auto. Qed.

Lemma get_used_bytes w ls ud ma ea m mf' mf e types keep (d : str -> Z -> str -> bool) :
  get w ls ud ma ea = Ok (m, mf') -> map_file_of w ma mf -> w_elf w = Ok e -> w_memory_types w (m_target m) = Ok types ->
  windows_separate types -> Forall (fun r => 0 <= r_length r) (mf_regions mf) ->
  (forall s, keep s = true <-> kept e s) -> (forall n a T, d n a T = true <-> byte_goes types n a T) ->
  Forall (fun s => kept e s -> 0 <= o_size s /\ section_mapped (mf_regions mf) types s) (mf_sections mf) ->
  forall T t, dget T (m_types m) = Some t ->
    t_used t = zsumf (fun s => bytes_with (fun a => d (o_name s) a T) (o_addr s) (o_size s)) (filter keep (mf_sections mf)).
Proof.
  intros E Lm Le Ty Sep Rl Hk Hd F T t Et.
  destruct (get_known _ _ _ _ _ _ _ _ _ E Lm Le) as (types' & keep' & parts & ws & groups & Ty' & Hk' & Sr & Sh & _ & G & Em).
  rewrite Ty in Ty'. injection Ty' as <-. rewrite Em in Et.
  assert (Ek : filter keep (mf_sections mf) = filter keep' (mf_sections mf)).
  { apply filter_ext. intros s. apply eq_true_iff_eq. rewrite Hk, Hk'. reflexivity. }
  rewrite Ek.
  assert (Fw : Forall (fun s => 0 < o_size s /\ section_mapped (mf_regions mf) types s) ws).
  { assert (Fk : Forall (fun s => 0 < o_size s /\ section_mapped (mf_regions mf) types s) (filter keep' (mf_sections mf))).
    { rewrite Forall_forall in *. intros s I. apply filter_In in I. destruct I as [I K]. apply Hk' in K. destruct (F s I K) as [P M].
      split; [|exact M]. destruct K as [K _]. lia. }
    clear -Sh Fk. induction Sh as [|s t l l' H Sh IH]; constructor; inversion Fk as [|? ? [F1 F2] Fk']; subst.
    - split; [destruct H as (_ & _ & <-); exact F1|eapply header_mapped; eassumption].
    - apply IH, Fk'. }
  rewrite (used_bytes types (mf_regions mf) parts d Sep (parts_fact_split _ _ _ _ Rl Sr) Hd ws groups T t Fw G Et).
  clear -Sh. induction Sh as [|s t l l' (H1 & H2 & H3) Sh IH]; [reflexivity|]. rewrite !zsumf_cons, IH, H1, H2, H3. reflexivity.
Qed.
