From Coq Require Import Ascii String List ZArith Lia Bool Permutation Sorted.
From Verif Require Import Base MemMap SpecTree Pipeline SpecPipe SpecBuild SpecBytes SpecSyms ProofOps ProofArch ProofTypes ProofSplit ProofBuild ProofSyms ProofStrip ProofExpand ProofGet ProofRegions ProofBytes ProofBytes2 ProofBytes3 ProofSyms2 ProofSyms3.
Import ListNotations.
Open Scope list_scope.
Open Scope Z_scope.

Lemma get_known_syms w ud ma ea m mf' mf e :
  get w true ud ma ea = Ok (m, mf') -> map_file_of w ma mf -> w_elf w = Ok e -> dwarf_flag ud w = false ->
  exists types keep parts ws groups,
    w_memory_types w (m_target m) = Ok types /\
    (forall s, keep s = true <-> kept e s) /\
    split_memory_regions (region_fuel types) (filter_memory_regions (mf_regions mf)) types = Ok parts /\
    Forall2 same_osec (map nonempty_isecs (filter keep (mf_sections mf))) ws /\
    add_symbols_to_sections e (map nonempty_isecs (filter keep (mf_sections mf))) = Ok ws /\
    Forall2 (group_of parts) (rev ws) groups /\
    m_types m = get_mem_type_map types parts (map add_archives (concat groups)).
Proof.
  intros E Lm Le D. unfold get in E. rewrite (load_of _ _ _ Lm), Le, D in E. cbn [bind] in E.
  destruct (pick_target (w_proj_desc w) mf) as [t|]; cbn [bind] in *; [|discriminate E].
  destruct (w_memory_types w t) as [types|] eqn:Ty; cbn [bind] in *; [|discriminate E].
  destruct (build true types e (mf_regions mf) (mf_sections mf)) as [[img d]|] eqn:B; cbn [bind fst snd] in E; [|discriminate E].
  injection E as <- _. cbn [m_target m_types]. unfold build in B.
  destruct (split_memory_regions (region_fuel types) (filter_memory_regions (mf_regions mf)) types) as [parts|] eqn:Sr; cbn [bind] in B; [|discriminate B].
  destruct (filter_kept e (mf_sections mf)) as (keep & Hk & Ef). rewrite Ef in B.
  set (kp := map nonempty_isecs (filter keep (mf_sections mf))) in *.
  destruct (add_symbols_to_sections e kp) as [ws|] eqn:Ew; cbn [bind] in B; [|discriminate B].
  pose proof (withsyms_same _ _ _ Ew) as Sm.
  destruct (split_map_sections (section_fuel parts) ws parts) as [out|] eqn:Es; cbn [bind] in B; [|discriminate B].
  destruct (split_groups _ _ _ Es) as (groups & -> & G). injection B as _ <-.
  exists types, keep, parts, ws, groups. repeat (split; [first [assumption|reflexivity]|]). reflexivity.
Qed.

(** the symbols of an input section lie in it *)
Lemma isec_symbols_inside ys i : match ys with Some l => Forall (fun y => 0 <= st_symsize y) l | None => True end -> 0 <= i_size i ->
  (forall l, ys = Some l -> Forall (fun y => starts_in i y -> sym_inside i y) (filter wanted l)) ->
  Forall (symbol_inside i) (isec_symbols ys i).
Proof.
  intros Ns Hs Hi. unfold isec_symbols, symbols_at. destruct (Z.eqb_spec (i_size i) 0) as [|Nz]; [constructor|].
  assert (Own : Forall (symbol_inside i) [Symbol (i_name i) (i_addr i) (i_size i)]) by (constructor; [unfold symbol_inside; cbn; lia|constructor]).
  destruct ys as [ys|]; [|exact Own]. destruct (filter (begins _ _) _) as [|y g] eqn:Ef; [destruct (existsb _ _); [exact Own|constructor]|].
  rewrite <- Ef. apply Forall_map, Forall_forall. intros z Iz. apply filter_In in Iz. destruct Iz as [Iz Bz]. apply begins_iff in Bz.
  specialize (Hi _ eq_refl). rewrite Forall_forall in Hi, Ns. specialize (Hi z Iz Bz). apply filter_In in Iz. specialize (Ns z (proj1 Iz)).
  unfold symbol_inside, sym_inside, shown in *. cbn [sy_addr sy_size]. lia.
Qed.

Lemma attached_inside e sections out : add_symbols_to_sections e sections = Ok out ->
  Forall (fun i => 0 <= i_size i) (all_isecs sections) -> match e with Some e => Forall (fun y => 0 <= st_symsize y) (elf_symbols e) | None => True end ->
  Forall within (all_isecs out).
Proof.
  intros E Po Ns. destruct e as [e|].
  - destruct (symbols_told _ _ _ E) as (S & G & sk & F & P & _). pose proof (same_all_isecs _ _ S) as Si. apply Forall_forall. intros j Ij.
    assert (Hz : 0 <= i_size j) by (destruct (f2_In_r _ _ _ _ Si Ij) as (i & Ii & (_ & _ & <- & _)); rewrite Forall_forall in Po; auto).
    destruct (f2_In_l _ _ _ _ F Ij) as (g & Ig & [[Hi Ho] _]). unfold within. destruct Ho as [->|[_ ->]].
    + apply Forall_map, Forall_forall. intros y Iy. rewrite Forall_forall in Hi, Ns. specialize (Hi y Iy).
      assert (Iw : In y (filter wanted (elf_symbols e))) by (eapply Permutation_in; [exact P|]; apply in_or_app; left; apply in_concat; eauto).
      apply filter_In in Iw. specialize (Ns y (proj1 Iw)). unfold symbol_inside, sym_inside, shown in *. cbn [sy_addr sy_size]. lia.
    + constructor; [unfold symbol_inside; cbn; lia|constructor].
  - destruct (own_names _ _ E) as [S F]. pose proof (same_all_isecs _ _ S) as Si. rewrite Forall_forall in *. intros j Ij. unfold within. rewrite (F j Ij).
    assert (Hz : 0 <= i_size j) by (destruct (f2_In_r _ _ _ _ Si Ij) as (i & Ii & (_ & _ & <- & _)); auto).
    constructor; [unfold symbol_inside; cbn; lia|constructor].
Qed.

Section Given.
  Variables (types : list chip_type) (regions : list region) (parts : list sregion).
  Variable d : str -> Z -> str -> bool.
  Hypothesis Sep : windows_separate types.
  Hypothesis PF : parts_fact regions types parts.
  Hypothesis Hd : forall n a T, d n a T = true <-> byte_goes types n a T.
  Notation to_type := (to_type types parts).
  Notation rt := (rt types parts).

  Variables (s : osection) (ps : list osection) (T : str).
  Hypothesis Pos : 0 < o_size s.
  Hypothesis M : section_mapped regions types s.
  Hypothesis G : group_of parts s ps.
  Hypothesis U : unbroken regions types s.
  Notation dT := (fun a => d (o_name s) a T).
  Hypothesis Fin : filled_in s.

  Lemma symbol_bytes_in q i z : In q ps -> In i (o_isecs q) -> In z (i_symbols i) -> bytes_with dT (sy_addr z) (sy_size z) = if to_type T q then sy_size z else 0.
  Proof.
    intros Iq Ii Iz. pose proof G as [G0 (G1 & G2 & G3)]. pose proof (G3 _ cut_keeps_filled Fin) as Pi. rewrite Forall_forall in Pi.
    specialize (Pi q Iq). unfold filled_in in Pi. rewrite Forall_forall in Pi. specialize (Pi i Ii). destruct Pi as (P1 & P2 & P3 & P4 & P5).
    unfold within in P5. rewrite Forall_forall in P5. specialize (P5 z Iz). unfold symbol_inside in P5.
    destruct (part_known types regions parts d Sep PF Hd s ps q Pos M G Iq) as (Tq & R & _ & _ & B).
    unfold ProofBytes2.to_type, goes_to. cbn [snd]. rewrite R. rewrite (bytes_const _ (Tq =?= T)); [reflexivity|lia|].
    intros a Ha. apply eq_true_iff_eq. rewrite B by (unfold byte_of; lia). destruct (keqP Tq T); split; congruence.
  Qed.

  Let sel a o (i : isection) := (i_archive i =?= a) && (i_object i =?= o).
  Lemma object_sum a o P y l : zsumf (fun z => bytes_with P (sy_addr z) (sy_size z)) (filter (named y) (symbols_of_object a o l)) = zsumf (fun i => if sel a o i then named_bytes P y i else 0) l.
  Proof.
    unfold symbols_of_object, isecs_of_object. rewrite filter_flat, zsumf_flat, <- (zsumf_filter (sel a o) (named_bytes P y)). reflexivity.
  Qed.

  Lemma parts_symbols a o y :
    zsumf (fun q => if to_type T q then zsumf sy_size (filter (named y) (symbols_of_object a o (o_isecs q))) else 0) ps =
    zsumf (fun z => bytes_with dT (sy_addr z) (sy_size z)) (filter (named y) (symbols_of_object a o (o_isecs s))).
  Proof.
    pose proof G as [G0 (G1 & G2 & G3)]. rewrite object_sum.
    rewrite <- (G2 (fun i => if sel a o i then named_bytes dT y i else 0)); [|apply additive_if; [|apply additive_named]].
    - apply zsumf_ext. intros q Iq. rewrite <- object_sum. destruct (to_type T q) eqn:Hq.
      + apply zsumf_ext. intros z Iz. apply filter_In in Iz. destruct Iz as [Iz _]. apply in_flat_map in Iz. destruct Iz as (i & Ii & Iz).
        apply filter_In in Ii. rewrite (symbol_bytes_in q i z Iq (proj1 Ii) Iz), Hq. reflexivity.
      + symmetry. apply zsumf_zero. intros z Iz. apply filter_In in Iz. destruct Iz as [Iz _]. apply in_flat_map in Iz. destruct Iz as (i & Ii & Iz).
        apply filter_In in Ii. rewrite (symbol_bytes_in q i z Iq (proj1 Ii) Iz), Hq. reflexivity.
    - intros cut i j J. apply split_isec_fields in J. destruct J as (H1 & H2 & _). unfold sel. rewrite H1, H2. reflexivity.
  Qed.

  Lemma part_symbol p a o y : In p ps -> to_type T p = true ->
    zsumf sy_size (filter (named y) (symbols_of_object a o (o_isecs p))) =
    zsumf (fun z => bytes_with dT (sy_addr z) (sy_size z)) (filter (named y) (symbols_of_object a o (o_isecs s))).
  Proof.
    intros I H. rewrite <- parts_symbols.
    rewrite (only_part types regions parts d Sep PF Hd s ps T Pos M G U p I H (fun q => zsumf sy_size (filter (named y) (symbols_of_object a o (o_isecs q))))). reflexivity.
  Qed.
  Lemma no_part_symbol a o y : (forall p, In p ps -> to_type T p = false) ->
    zsumf (fun z => bytes_with dT (sy_addr z) (sy_size z)) (filter (named y) (symbols_of_object a o (o_isecs s))) = 0.
  Proof. intros H. rewrite <- parts_symbols. apply zsumf_zero. intros p I. rewrite H by exact I. reflexivity. Qed.
End Given.

Lemma get_symbol_bytes w ud ma ea m mf' mf e types keep (d : str -> Z -> str -> bool) :
  get w true ud ma ea = Ok (m, mf') -> map_file_of w ma mf -> w_elf w = Ok e -> w_memory_types w (m_target m) = Ok types ->
  dwarf_flag ud w = false ->
  windows_separate types -> Forall (fun r => 0 <= r_length r) (mf_regions mf) ->
  (forall s, keep s = true <-> kept e s) -> (forall n a T, d n a T = true <-> byte_goes types n a T) ->
  NoDup (map o_name (filter keep (mf_sections mf))) ->
  Forall (fun s => kept e s -> 0 <= o_size s /\ section_mapped (mf_regions mf) types s /\ unbroken (mf_regions mf) types s /\ isecs_in s) (mf_sections mf) ->
  match e with Some e => Forall (fun y => 0 <= st_symsize y) (elf_symbols e) | None => True end ->
  ForallOrdPairs disjoint (flat_map (fun s => filter (fun i => negb (i_size i =? 0)) (o_isecs s)) (filter keep (mf_sections mf))) ->
  (forall s a o, In s (mf_sections mf) -> kept e s -> NoDup (map sy_name (symbols_in (option_map elf_symbols e) a o s))) ->
  forall T t, dget T (m_types m) = Some t ->
    forall s, In s (mf_sections mf) -> kept e s -> lists_symbols d (option_map elf_symbols e) T s (dget (o_name s) (t_sections t)).
Proof.
  intros E Lm Le Ty D Sep Rl Hk Hd N F Ns Dj Nd T t Et.
  destruct (get_known_syms _ _ _ _ _ _ _ _ E Lm Le D) as (types' & keep' & parts & ws & groups & Ty' & Hk' & Sr & Sm & As & G & Em).
  rewrite Ty in Ty'. injection Ty' as <-. rewrite Em in Et.
  assert (Ek : filter keep (mf_sections mf) = filter keep' (mf_sections mf)).
  { apply filter_ext. intros s. apply eq_true_iff_eq. rewrite Hk, Hk'. reflexivity. }
  rewrite <- Ek in Sm, As. clear keep' Hk' Ek. pose proof (parts_fact_split _ _ _ _ Rl Sr) as PF.
  assert (Ea : all_isecs (map nonempty_isecs (filter keep (mf_sections mf))) = flat_map (fun s => filter (fun i => negb (i_size i =? 0)) (o_isecs s)) (filter keep (mf_sections mf))).
  { clear. unfold all_isecs. induction (filter keep (mf_sections mf)) as [|s l IH]; [reflexivity|]. cbn [map flat_map]. rewrite IH. reflexivity. }
  assert (Po : Forall (fun i => 0 < i_size i) (all_isecs (map nonempty_isecs (filter keep (mf_sections mf))))).
  { rewrite Ea. apply Forall_forall. intros i Ii. apply in_flat_map in Ii. destruct Ii as (s & Is & Ii). apply filter_In in Is, Ii. destruct Is as [Is K], Ii as [Ii Nz].
    rewrite Forall_forall in F. apply Hk in K. destruct (F s Is K) as (_ & _ & _ & Fi). unfold isecs_in in Fi. rewrite Forall_forall in Fi. specialize (Fi i Ii).
    apply negb_true_iff, Z.eqb_neq in Nz. lia. }
  assert (At : Forall (fun j => Permutation (i_symbols j) (isec_symbols (option_map elf_symbols e) j)) (all_isecs ws)).
  { eapply symbols_attached; [exact As|rewrite Ea; exact Dj|exact Po]. }
  assert (Wi : Forall within (all_isecs ws)).
  { eapply attached_inside; [exact As| |exact Ns]. eapply Forall_impl; [|exact Po]. cbv beta. lia. }
  assert (Nw : NoDup (map o_name ws)).
  { replace (map o_name ws) with (map o_name (filter keep (mf_sections mf))); [exact N|]. clear -Sm. revert ws Sm.
    induction (filter keep (mf_sections mf)) as [|s l IH]; intros ws H; inversion H as [|? u ? l' K F]; subst; [reflexivity|].
    cbn [map]. rewrite (IH _ F). destruct K as (K & _). cbn [nonempty_isecs o_name] in K. rewrite K. reflexivity. }
  assert (Fw : forall s', In s' ws -> exists s, In s (mf_sections mf) /\ kept e s /\ same_osec (nonempty_isecs s) s' /\
     0 < o_size s' /\ section_mapped (mf_regions mf) types s' /\ unbroken (mf_regions mf) types s' /\ isecs_in s').
  { intros s' I. destruct (f2_In_r _ _ _ _ Sm I) as (n & In0 & S0). apply List.in_map_iff in In0. destruct In0 as (s & <- & Is).
    apply filter_In in Is. destruct Is as [Is K]. apply Hk in K. exists s. rewrite Forall_forall in F. destruct (F s Is K) as (F1 & F2 & F3 & F4).
    split; [exact Is|]. split; [exact K|]. split; [exact S0|]. pose proof S0 as (S1 & S2 & S3 & _). cbn [nonempty_isecs o_name o_addr o_size] in *.
    split; [destruct K as [K _]; lia|]. split; [eapply header_mapped; [|exact F2]; repeat split; assumption|].
    split; [|eapply same_isecs_in; eassumption]. unfold unbroken, byte_of in *. rewrite <- S1, <- S2, <- S3. exact F3. }
  assert (Fg : forall p, In p (concat groups) -> exists s' ps, In s' ws /\ In p ps /\ group_of parts s' ps).
  { intros p I. apply in_concat in I. destruct I as (ps & Ig & Ip). destruct (f2_In_r _ _ _ _ G Ig) as (s' & Is & R). apply in_rev in Is. eauto. }
  assert (Fk : forall p s' ps, In s' ws -> In p ps -> group_of parts s' ps -> exists Tp, rt types parts (add_archives p) = Some (Tp, false) /\ o_name p = o_name s').
  { intros p s' ps Is Ip R. destruct (Fw s' Is) as (s & _ & _ & _ & W1 & W2 & _).
    destruct (part_known types _ parts d Sep PF Hd s' ps p W1 W2 R Ip) as (Tp & R1 & _ & R2 & _). eauto. }
  assert (Sx : forall n x, dget n (t_sections t) = Some x -> exists s' ps p, In s' ws /\ group_of parts s' ps /\ In p ps /\ o_name s' = n /\
     to_type types parts T p = true /\ reported (add_archives p) false x).
  { intros n x Ex. pose proof (map_sections _ _ _ _ _ n Et) as Ms. rewrite Ex in Ms. destruct Ms as (l1 & q & l2 & ov & El & Dq & Nq & Rq & _).
    assert (Iq : In q (map add_archives (concat groups))) by (rewrite El; apply in_or_app; right; left; reflexivity).
    apply List.in_map_iff in Iq. destruct Iq as (p & <- & Ip). destruct (Fg p Ip) as (s' & ps & Is & Ips & R).
    destruct (Fk p s' ps Is Ips R) as (Tp & R1 & R2).
    pose proof (dest_unique _ _ _ _ _ (route_dest types parts (add_archives p)) Dq) as X. unfold rt in R1. rewrite R1 in X. injection X as -> <-.
    exists s', ps, p. repeat (split; [first [assumption | symmetry; rewrite Nq; exact R2]|]). split; [|exact Rq].
    unfold to_type, goes_to, rt. cbn [snd]. rewrite R1. apply keq_refl. }
  intros s Is K.
  assert (Ik : In (nonempty_isecs s) (map nonempty_isecs (filter keep (mf_sections mf)))).
  { apply List.in_map, filter_In. split; [exact Is|]. apply Hk, K. }
  destruct (f2_In_l _ _ _ _ Sm Ik) as (s' & Is' & S0).
  destruct (Fw s' Is') as (_ & _ & _ & _ & W1 & W2 & W3 & W4).
  destruct (f2_In_l _ _ _ s' G) as (ps & Ips & R); [apply -> in_rev; exact Is'|].
  assert (En : o_name s = o_name s') by apply S0.
  assert (In_all : forall j, In j (o_isecs s') -> In j (all_isecs ws)) by (intros j J; apply in_flat_map; eauto).
  assert (Ps : forall a o, Permutation (symbols_of_object a o (o_isecs s')) (symbols_in (option_map elf_symbols e) a o s)).
  { intros a o. apply symbols_of_same; [exact S0|]. rewrite Forall_forall in *. auto. }
  assert (Fi : filled_in s').
  { unfold filled_in, isecs_in in *. rewrite Forall_forall in *. intros j J. specialize (W4 j J). specialize (Wi j (In_all j J)). tauto. }
  assert (Nd' : forall a o, distinct_in a o s').
  { intros a o. unfold distinct_in. eapply Permutation_NoDup; [apply Permutation_map, Permutation_sym, Ps|]. apply Nd; assumption. }
  assert (Es : forall a o y, symbol_bytes_with (fun z => d (o_name s) z T) (option_map elf_symbols e) a o y s =
     zsumf (fun z => bytes_with (fun a => d (o_name s') a T) (sy_addr z) (sy_size z)) (filter (named y) (symbols_of_object a o (o_isecs s')))).
  { intros a o y. rewrite En. unfold symbol_bytes_with. apply zsumf_perm, filter_perm, Permutation_sym, Ps. }
  rewrite En. destruct (dget (o_name s') (t_sections t)) as [x|] eqn:Ex.
  - destruct (Sx _ _ Ex) as (s2 & ps2 & p & Is2 & R2 & Ip & Nm & Tp & Rp).
    assert (s2 = s') by (eapply (NoDup_names_eq o_name); eassumption). subst s2.
    assert (ps2 = ps) by (destruct R as [R _], R2 as [R2 _]; congruence). subst ps2.
    pose proof Rp as (_ & _ & Sub & _).
    assert (Pk : forall P, cut_keeps P -> P s' -> P p).
    { intros P C H. destruct R as [_ (_ & _ & G3)]. specialize (G3 P C H). rewrite Forall_forall in G3. auto. }
    split.
    + intros a o y. rewrite Es. transitivity (symbol_size a o y (Some (rnode (add_archives p) false))); [unfold symbol_size; rewrite Sub; reflexivity|].
      rewrite symbol_size_part by (apply (Pk _ (cut_keeps_distinct a o)), Nd').
      apply (part_symbol types _ parts d Sep PF Hd s' ps T W1 W2 R W3 Fi p a o y Ip Tp).
    + intros x' a arc o b y z [= <-] E1 E2 E3. rewrite Sub in E1. pose proof (symbol_listed_part a o y p arc b z E1 E2 E3) as I.
      eapply Permutation_in; [apply Permutation_map, (Ps a o)|].
      eapply (Pk _ (cut_keeps_names a o (map sy_name (symbols_of_object a o (o_isecs s'))))); [intros u Hu; exact Hu|exact I].
  - split; [|intros; discriminate]. intros a o y. rewrite Es. cbn [symbol_size]. symmetry.
    apply (no_part_symbol types _ parts d Sep PF Hd s' ps T W1 W2 R Fi). intros p Ip.
    pose proof (map_sections _ _ _ _ _ (o_name s') Et) as Ms. rewrite Ex in Ms.
    destruct (Fk p s' ps Is' Ip R) as (Tp & R1 & R2). unfold to_type, goes_to. cbn [snd]. rewrite R1.
    destruct (keqP Tp T) as [->|]; [|reflexivity]. exfalso. eapply (Ms (add_archives p) false).
    + apply List.in_map, in_concat. eauto.
    + unfold rt in R1. pose proof (route_dest types parts (add_archives p)) as X. rewrite R1 in X. exact X.
    + exact R2.
Qed.

Lemma symbol_bytes_ok w ud ma ea m mf' mf e types :
  get w true ud ma ea = Ok (m, mf') -> map_file_of w ma mf -> w_elf w = Ok e -> w_memory_types w (m_target m) = Ok types ->
  wants_dwarf ud w false -> windows_separate types -> Forall (fun r => 0 <= r_length r) (mf_regions mf) ->
  Forall (fun s => kept e s -> 0 <= o_size s /\ section_mapped (mf_regions mf) types s /\ unbroken (mf_regions mf) types s /\ isecs_in s) (mf_sections mf) ->
  match e with Some e => Forall (fun y => 0 <= st_symsize y) (elf_symbols e) | None => True end ->
  exists keep d, (forall s, keep s = true <-> kept e s) /\ (forall n a T, d n a T = true <-> byte_goes types n a T) /\
    (NoDup (map o_name (filter keep (mf_sections mf))) ->
     ForallOrdPairs isecs_apart (flat_map (fun s => filter (fun i => negb (i_size i =? 0)) (o_isecs s)) (filter keep (mf_sections mf))) ->
     (forall s a o, In s (mf_sections mf) -> kept e s -> NoDup (map sy_name (symbols_in (option_map elf_symbols e) a o s))) ->
     forall T t, dget T (m_types m) = Some t ->
      forall s, In s (mf_sections mf) -> kept e s -> lists_symbols d (option_map elf_symbols e) T s (dget (o_name s) (t_sections t))).
Proof.
  intros E Lm Le Ty D Sep Rl F Ns. apply wants_flag in D. destruct (goes_decided types) as (d & Hd).
  exists (keep_section (get_elf_sections_headers e)), d. split; [intros; apply keep_spec|]. split; [exact Hd|].
  intros N Dj Nd. eapply get_symbol_bytes; try eassumption. intros; apply keep_spec.
Qed.

(** no listed symbol leaves its input section *)
Lemma symbols_inside_ok w ud ma ea m mf' mf e keep :
  get w true ud ma ea = Ok (m, mf') -> map_file_of w ma mf -> w_elf w = Ok e -> dwarf_flag ud w = false ->
  (forall s, keep s = true <-> kept e s) ->
  Forall (fun s => kept e s -> isecs_in s) (mf_sections mf) ->
  match e with Some e => Forall (fun y => 0 <= st_symsize y) (elf_symbols e) | None => True end ->
  ForallOrdPairs isecs_apart (flat_map (fun s => filter (fun i => negb (i_size i =? 0)) (o_isecs s)) (filter keep (mf_sections mf))) ->
  forall s, In s (mf_sections mf) -> kept e s -> Forall (fun i => Forall (symbol_inside i) (isec_symbols (option_map elf_symbols e) i)) (o_isecs s).
Proof.
  intros E Lm Le D Hk F Ns Dj.
  destruct (get_known_syms _ _ _ _ _ _ _ _ E Lm Le D) as (types' & keep' & parts & ws & groups & _ & Hk' & _ & Sm & As & _ & _).
  assert (Ek : filter keep (mf_sections mf) = filter keep' (mf_sections mf)).
  { apply filter_ext. intros s. apply eq_true_iff_eq. rewrite Hk, Hk'. reflexivity. }
  rewrite <- Ek in Sm, As. clear keep' Hk' Ek.
  assert (Ea : all_isecs (map nonempty_isecs (filter keep (mf_sections mf))) = flat_map (fun s => filter (fun i => negb (i_size i =? 0)) (o_isecs s)) (filter keep (mf_sections mf))).
  { clear. unfold all_isecs. induction (filter keep (mf_sections mf)) as [|s l IH]; [reflexivity|]. cbn [map flat_map]. rewrite IH. reflexivity. }
  assert (Po : Forall (fun i => 0 < i_size i) (all_isecs (map nonempty_isecs (filter keep (mf_sections mf))))).
  { rewrite Ea. apply Forall_forall. intros i Ii. apply in_flat_map in Ii. destruct Ii as (s & Is & Ii). apply filter_In in Is, Ii. destruct Is as [Is K], Ii as [Ii Nz].
    rewrite Forall_forall in F. apply Hk in K. pose proof (F s Is K) as Fi. unfold isecs_in in Fi. rewrite Forall_forall in Fi. specialize (Fi i Ii).
    apply negb_true_iff, Z.eqb_neq in Nz. lia. }
  assert (At : Forall (fun j => Permutation (i_symbols j) (isec_symbols (option_map elf_symbols e) j)) (all_isecs ws)).
  { eapply symbols_attached; [exact As|rewrite Ea; exact Dj|exact Po]. }
  assert (Wi : Forall within (all_isecs ws)).
  { eapply attached_inside; [exact As| |exact Ns]. eapply Forall_impl; [|exact Po]. cbv beta. lia. }
  intros s Is K. apply Forall_forall. intros i Ii.
  destruct (Z.eqb_spec (i_size i) 0) as [Z0|Nz]. { unfold isec_symbols, symbols_at. rewrite Z0. constructor. }
  assert (Ik : In (nonempty_isecs s) (map nonempty_isecs (filter keep (mf_sections mf)))).
  { apply List.in_map, filter_In. split; [exact Is|]. apply Hk, K. }
  destruct (f2_In_l _ _ _ _ Sm Ik) as (s' & Is' & _ & _ & _ & S0).
  destruct (f2_In_l _ _ _ i S0) as (j & Ij & Sj). { cbn [nonempty_isecs o_isecs]. apply filter_In. split; [exact Ii|]. apply negb_true_iff, Z.eqb_neq, Nz. }
  assert (Ia : In j (all_isecs ws)) by (apply in_flat_map; eauto).
  rewrite Forall_forall in At, Wi. specialize (At j Ia). specialize (Wi j Ia). rewrite (same_isec_symbols _ _ _ Sj).
  apply Forall_forall. intros z Iz. apply (Permutation_in _ (Permutation_sym At)) in Iz. unfold within in Wi. rewrite Forall_forall in Wi. specialize (Wi z Iz).
  destruct Sj as (_ & Ej1 & Ej2 & _). unfold symbol_inside in *. rewrite Ej1, Ej2. exact Wi.
Qed.

Lemma symbols_inside_flag w ud ma ea m mf' mf e keep :
  get w true ud ma ea = Ok (m, mf') -> map_file_of w ma mf -> w_elf w = Ok e -> wants_dwarf ud w false ->
  (forall s, keep s = true <-> kept e s) ->
  Forall (fun s => kept e s -> isecs_in s) (mf_sections mf) ->
  match e with Some e => Forall (fun y => 0 <= st_symsize y) (elf_symbols e) | None => True end ->
  ForallOrdPairs isecs_apart (flat_map (fun s => filter (fun i => negb (i_size i =? 0)) (o_isecs s)) (filter keep (mf_sections mf))) ->
  forall s, In s (mf_sections mf) -> kept e s -> Forall (fun i => Forall (symbol_inside i) (isec_symbols (option_map elf_symbols e) i)) (o_isecs s).
Proof. intros E Lm Le D. apply wants_flag in D. eapply symbols_inside_ok; eassumption. Qed.
