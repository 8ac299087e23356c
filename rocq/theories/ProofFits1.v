(** * Putting symbols into input sections succeeds exactly if they fit *)
From Coq Require Import Ascii String List ZArith Lia Bool Permutation Sorted.
From Verif Require Import Base MemMap Pipeline SpecBuild ProofBuild PyStr MapFile SpecMap ElfRead Project SpecProject SpecEnd ProofEnd Chips Table SpecTable Formats Main SpecMain SpecCommand SpecFail SpecReport SpecSymbols SpecFits.
Import ListNotations.
Open Scope list_scope.
Open Scope Z_scope.

(** ** the geometry of input sections *)
Definition geo (c : slot) : Z * Z := (i_addr (snd c), i_size (snd c)).
Definition gend (g : Z * Z) : Z := fst g + snd g.
Definition glow (S : list (Z * Z)) (v : Z) (g : Z * Z) : Prop := In g S /\ v < gend g /\ forall h, In h S -> v < gend h -> fst g <= fst h.
Lemma geo_close c : geo (close_slot c) = geo c.
Proof. unfold close_slot, geo. destruct (i_symbols (snd c)); reflexivity. Qed.

Lemma advance_result v : forall rest cur done, (exists c, In c (cur :: rest) /\ v < gend (geo c)) ->
  exists pre c rest' done', advance v cur rest done = Ok (c, rest', done') /\ cur :: rest = pre ++ c :: rest' /\ Forall (fun c => gend (geo c) <= v) pre /\ v < gend (geo c).
Proof.
  induction rest as [|n rest IH]; intros cur done (c & I & L); cbn [advance]; change (i_addr (snd cur) + i_size (snd cur)) with (gend (geo cur)).
  - destruct I as [<-|[]]. destruct (Z.leb_spec (gend (geo cur)) v); [lia|]. exists [], cur, [], done. repeat split; auto.
  - destruct (Z.leb_spec (gend (geo cur)) v) as [Le|Gt].
    + destruct (IH n (done ++ [close_slot cur])) as (pre & c' & rest' & done' & E & Eq & F & L').
      { destruct I as [<-|I]; [lia|]. eauto. }
      exists (cur :: pre), c', rest', done'. split; [exact E|]. split; [cbn; now rewrite Eq|]. split; [now constructor|exact L'].
    + exists [], cur, (n :: rest), done. repeat split; auto.
Qed.
Lemma advance_error v : forall rest cur done, (forall c, In c (cur :: rest) -> gend (geo c) <= v) -> advance v cur rest done = Err MemMapException.
Proof.
  induction rest as [|n rest IH]; intros cur done H; cbn [advance]; change (i_addr (snd cur) + i_size (snd cur)) with (gend (geo cur));
    (destruct (Z.leb_spec (gend (geo cur)) v) as [Le|Gt]; [|specialize (H cur (or_introl eq_refl)); lia]); [reflexivity|].
  apply IH. intros c I. apply H. now right.
Qed.

Section Place.
Variable S : list (Z * Z).
Hypothesis So : StronglySorted (fun g h => fst g <= fst h) S.
Definition inv (v : option Z) (st : slot * list slot * list slot) : Prop :=
  let '(cur, rest, _) := st in exists pre, S = pre ++ map geo (cur :: rest) /\ Forall (fun g => match v with Some v => gend g <= v | None => False end) pre.
Lemma inv_up v z st : (match v with Some w => w <= z | None => True end) -> inv v st -> inv (Some z) st.
Proof.
  destruct st as [[cur rest] done]. intros H (pre & E & F). exists pre. split; [exact E|]. eapply Forall_impl; [|exact F]. intros g Hg. destruct v; [lia|contradiction].
Qed.
Lemma sorted_mid (l1 l2 : list (Z * Z)) g : StronglySorted (fun g h => fst g <= fst h) (l1 ++ g :: l2) -> Forall (fun h => fst g <= fst h) l2.
Proof. induction l1 as [|y l1 IH]; intros H; inversion H; subst; auto. Qed.

(** what happens to a symbol *)
Lemma place_result y st : inv (Some (st_value y)) st ->
  (exists c, glow S (st_value y) c /\
     ((st_value y + st_symsize y <= gend c /\ exists st', place_symbol st y = Ok st' /\ inv (Some (st_value y)) st') \/
      (gend c < st_value y + st_symsize y /\ place_symbol st y = Err MemMapException))) \/
  ((forall g, In g S -> gend g <= st_value y) /\ place_symbol st y = Err MemMapException).
Proof.
  destruct st as [[cur rest] done]. intros (pre & E & F). set (v := st_value y) in *.
  destruct (existsb (fun c => v <? gend (geo c)) (cur :: rest)) eqn:X.
  - left. apply existsb_exists in X. destruct X as (c0 & I0 & L0). apply Z.ltb_lt in L0.
    destruct (advance_result v rest cur done) as (pre' & c & rest' & done' & Ea & Eq & F' & L); [eauto|].
    assert (Es : S = (pre ++ map geo pre') ++ geo c :: map geo rest') by (rewrite E, Eq, map_app, <- app_assoc; reflexivity).
    assert (Fp : Forall (fun g => gend g <= v) (pre ++ map geo pre')) by (apply Forall_app; split; [exact F|now apply Forall_map]).
    exists (geo c). split.
    + split; [rewrite Es; apply in_or_app; right; now left|]. split; [exact L|]. intros h Ih Lh. rewrite Es in Ih, So. apply in_app_or in Ih. destruct Ih as [Ih|[<-|Ih]].
      * rewrite Forall_forall in Fp. specialize (Fp h Ih). lia.
      * lia.
      * apply sorted_mid in So. rewrite Forall_forall in So. now apply So.
    + unfold place_symbol. fold v. rewrite Ea. cbn [bind]. change (i_addr (snd c) + i_size (snd c)) with (gend (geo c)).
      destruct (Z.ltb_spec (gend (geo c)) (v + st_symsize y)) as [Lt|Ge]; [right; split; [exact Lt|reflexivity]|]. left. split; [exact Ge|].
      assert (Iv : forall c', geo c' = geo c -> inv (Some v) (c', rest', done')).
      { intros c' Ec. exists (pre ++ map geo pre'). split; [cbn [map]; rewrite Ec; exact Es|exact Fp]. }
      destruct (v <? i_addr (snd c)); eexists; (split; [reflexivity|]); apply Iv; reflexivity.
  - right. assert (H : forall c, In c (cur :: rest) -> gend (geo c) <= v).
    { intros c Ic. rewrite <- not_true_iff_false, existsb_exists in X. destruct (Z.le_gt_cases (gend (geo c)) v); [assumption|]. exfalso. apply X. exists c. split; [exact Ic|]. now apply Z.ltb_lt. }
    split.
    + intros g Ig. rewrite E in Ig. apply in_app_or in Ig. destruct Ig as [Ig|Ig]; [rewrite Forall_forall in F; now apply F|]. apply List.in_map_iff in Ig. destruct Ig as (c & <- & Ic). now apply H.
    + unfold place_symbol. fold v. now rewrite (advance_error v rest cur done H).
Qed.

Definition gfits (y : elfsym) : Prop := (exists g, In g S /\ st_value y < gend g) /\ forall g, glow S (st_value y) g -> st_value y + st_symsize y <= gend g.
Definition gmisfits (y : elfsym) : Prop := forall g, glow S (st_value y) g -> gend g < st_value y + st_symsize y.
Lemma fold_fits : forall zs v st, StronglySorted (ordered st_value false) zs -> (forall z, In z zs -> match v with Some w => w <= st_value z | None => True end) ->
  inv v st -> Forall gfits zs -> exists st', foldM place_symbol st zs = Ok st'.
Proof.
  induction zs as [|z zs IH]; intros v st Sz Hv Iv F; cbn [foldM]; [eauto|]. inversion Sz as [|? ? Sz' Fz]; subst. inversion F as [|? ? Fi F']; subst.
  destruct (place_result z st (inv_up v _ _ (Hv z (or_introl eq_refl)) Iv)) as [(c & G & [(_ & st' & E & I')|(L & _)])|(H & _)].
  - rewrite E. cbn [bind]. apply (IH (Some (st_value z)) st' Sz'); [|exact I'|exact F'].
    intros w Iw. rewrite Forall_forall in Fz. exact (Fz w Iw).
  - destruct Fi as (_ & Fi). specialize (Fi c G). lia.
  - destruct Fi as ((g & Ig & L) & _). specialize (H g Ig). lia.
Qed.
Lemma fold_misfits : forall zs v st, StronglySorted (ordered st_value false) zs -> (forall z, In z zs -> match v with Some w => w <= st_value z | None => True end) ->
  inv v st -> Exists gmisfits zs -> foldM place_symbol st zs = Err MemMapException.
Proof.
  induction zs as [|z zs IH]; intros v st Sz Hv Iv F; cbn [foldM]; [inversion F|]. inversion Sz as [|? ? Sz' Fz]; subst.
  destruct (place_result z st (inv_up v _ _ (Hv z (or_introl eq_refl)) Iv)) as [(c & G & [(L & st' & E & I')|(_ & E)])|(_ & E)]; rewrite E; cbn [bind]; [|reflexivity|reflexivity].
  apply (IH (Some (st_value z)) st' Sz'); [|exact I'|].
  - intros w Iw. rewrite Forall_forall in Fz. exact (Fz w Iw).
  - inversion F as [? ? Hz|? ? Hz]; subst; [|exact Hz]. specialize (Hz c G). lia.
Qed.
End Place.

(** ** all of them *)
Definition geos (sections : list osection) : list (Z * Z) := map (fun i => (i_addr i, i_size i)) (flat_map o_isecs sections).
Lemma slots_geo sections : map geo (all_slots sections) = geos sections.
Proof.
  unfold all_slots, geos. cbv zeta. set (l := flat_map _ sections). assert (E : map (fun i => (i_addr i, i_size i)) l = map (fun i => (i_addr i, i_size i)) (flat_map o_isecs sections)).
  { unfold l. clear. induction sections as [|s r IH]; [reflexivity|]. cbn [flat_map]. rewrite !map_app, IH, map_map. reflexivity. }
  rewrite <- E. clear E. generalize 0%nat. clearbody l. induction l as [|i l IH]; intros n; [reflexivity|]. cbn [List.length seq combine map]. now rewrite IH.
Qed.
Lemma sorted_geo (l : list slot) : StronglySorted (ordered (fun c : slot => i_addr (snd c)) false) l -> StronglySorted (fun g h => fst g <= fst h) (map geo l).
Proof.
  induction 1 as [|c l H IH F]; [constructor|]. cbn [map]. constructor; [exact IH|]. apply Forall_map. eapply Forall_impl; [|exact F]. intros c' O. exact O.
Qed.
Lemma sorted_slots sections : exists S, Permutation (geos sections) S /\ StronglySorted (fun g h => fst g <= fst h) S /\
  map geo (py_sorted (fun c => i_addr (snd c)) false (all_slots sections)) = S.
Proof.
  exists (map geo (py_sorted (fun c => i_addr (snd c)) false (all_slots sections))). split; [|split; [|reflexivity]].
  - rewrite <- slots_geo. apply Permutation_map, py_sorted_perm.
  - apply sorted_geo. apply (py_sorted_sorted (fun c : slot => i_addr (snd c)) false).
Qed.
Lemma glow_perm S S' v g : Permutation S S' -> glow S v g <-> glow S' v g.
Proof.
  intros P. assert (E : forall h, In h S <-> In h S') by (intros h; split; apply Permutation_in; [exact P|now apply Permutation_sym]).
  unfold glow. rewrite E. split; intros (A & B & C); (split; [exact A|]); (split; [exact B|]); intros h Ih; apply C; now apply E.
Qed.

Lemma wanted_eq' l : wanted_symbols l = filter wanted (py_sorted st_value false l).
Proof. reflexivity. Qed.
Lemma filter_sorted {A} (R : A -> A -> Prop) p l : StronglySorted R l -> StronglySorted R (filter p l).
Proof.
  induction 1 as [|x l H IH F]; [constructor|]. cbn [filter]. destruct (p x); [|exact IH]. constructor; [exact IH|].
  apply Forall_forall. intros y I. apply filter_In in I. rewrite Forall_forall in F. now apply F.
Qed.
Lemma in_wanted y l : In y (wanted_symbols l) <-> In y l /\ wanted y = true.
Proof. rewrite wanted_eq', filter_In, (py_sorted_In st_value false). reflexivity. Qed.

Lemma added e sections : geos sections <> [] -> (forall y, In y (elf_symbols e) -> wanted y = true -> gfits (geos sections) y) ->
  exists r, add_symbols_to_sections (Some e) sections = Ok r.
Proof.
  intros N H. destruct (sorted_slots sections) as (S & P & So & E). unfold add_symbols_to_sections.
  destruct (py_sorted (fun c => i_addr (snd c)) false (all_slots sections)) as [|cur rest].
  { exfalso. cbn in E. subst S. apply Permutation_sym, Permutation_nil in P. contradiction. }
  destruct (fold_fits S So (wanted_symbols (elf_symbols e)) None (cur, rest, [])) as (((c & r) & dn) & Ef).
  - rewrite wanted_eq'. apply filter_sorted, py_sorted_sorted.
  - auto.
  - exists []. split; [now rewrite <- E|constructor].
  - apply Forall_forall. intros y I. apply in_wanted in I. destruct (H y (proj1 I) (proj2 I)) as ((g & Ig & L) & F). split.
    + exists g. split; [now apply (Permutation_in _ P)|exact L].
    + intros g' G. apply F. now apply (glow_perm _ _ _ _ P).
  - rewrite Ef. cbn [bind]. eauto.
Qed.
Lemma refused e sections y : geos sections <> [] -> In y (elf_symbols e) -> wanted y = true -> gmisfits (geos sections) y ->
  add_symbols_to_sections (Some e) sections = Err MemMapException.
Proof.
  intros N I W H. destruct (sorted_slots sections) as (S & P & So & E). unfold add_symbols_to_sections.
  destruct (py_sorted (fun c => i_addr (snd c)) false (all_slots sections)) as [|cur rest].
  { exfalso. cbn in E. subst S. apply Permutation_sym, Permutation_nil in P. contradiction. }
  rewrite (fold_misfits S So (wanted_symbols (elf_symbols e)) None (cur, rest, [])); [reflexivity| |auto| |].
  - rewrite wanted_eq'. apply filter_sorted, py_sorted_sorted.
  - exists []. split; [now rewrite <- E|constructor].
  - apply Exists_exists. exists y. split; [now apply in_wanted|]. intros g G. apply H. now apply (glow_perm _ _ _ _ P).
Qed.

Lemma none_there e sections : geos sections = [] -> add_symbols_to_sections (Some e) sections = Err IndexError.
Proof.
  intros G. destruct (sorted_slots sections) as (S & P & _ & E). unfold add_symbols_to_sections. rewrite G in P. apply Permutation_nil in P. rewrite P in E.
  destruct (py_sorted (fun c => i_addr (snd c)) false (all_slots sections)) as [|cur rest]; [reflexivity|discriminate E].
Qed.

(** ** the input sections of a project *)
Lemma geos_items im e l g : elf_matches im e ->
  In g (geos (filter_map_sections (map printed_section l) (get_elf_sections_headers e))) <-> exists i, placed im l i /\ g = (it_addr i, it_size i).
Proof.
  intros M. unfold geos. rewrite List.in_map_iff. split.
  - intros (i & <- & I). apply in_flat_map in I. destruct I as (s & Is & Ii). unfold filter_map_sections in Is. apply List.in_map_iff in Is. destruct Is as (s' & <- & Is).
    apply filter_In in Is. destruct Is as (Is & Ks). apply keep_spec in Ks. apply List.in_map_iff in Is. destruct Is as (o & <- & Io).
    cbn [drop_empty o_isecs printed_section] in Ii. apply filter_In in Ii. destruct Ii as (Ii & Nz). apply List.in_map_iff in Ii. destruct Ii as (it & <- & Ii).
    exists it. split; [|reflexivity]. exists o. split; [exact Io|]. split; [now apply (kept_counted im e o M)|]. split; [exact Ii|].
    cbn [item_section i_size] in Nz. now apply negb_true_iff, Z.eqb_neq in Nz.
  - intros (i & (o & Io & Co & Ii & Nz) & ->). exists (item_section i). split; [reflexivity|]. apply in_flat_map. exists (drop_empty (printed_section o)). split.
    + unfold filter_map_sections. apply List.in_map. apply filter_In. split; [now apply List.in_map|]. apply keep_spec. now apply (kept_counted im e o M).
    + cbn [drop_empty o_isecs printed_section]. apply filter_In. split; [now apply List.in_map|]. apply negb_true_iff, Z.eqb_neq. exact Nz.
Qed.
Section Items.
Variables (im : option (list (str * xshdr))) (e : option elf) (l : list printed).
Hypothesis M : elf_matches im e.
Let secs := filter_map_sections (map printed_section l) (get_elf_sections_headers e).
Lemma geos_some : (exists i, placed im l i) -> geos secs <> [].
Proof.
  intros (i & C) E. assert (I : In (it_addr i, it_size i) (geos secs)) by (apply (geos_items im e l _ M); eauto). rewrite E in I. exact I.
Qed.
Lemma glow_item y g : glow (geos secs) (st_value y) g <-> exists i, next_item im l y i /\ g = (it_addr i, it_size i).
Proof.
  unfold glow. unfold secs. rewrite (geos_items im e l _ M). split.
  - intros ((i & C & ->) & L & H). exists i. split; [|reflexivity]. split; [exact C|]. split; [exact L|]. intros j Cj Lj.
    apply (H (it_addr j, it_size j)); [|exact Lj]. apply (geos_items im e l _ M). eauto.
  - intros (i & (C & L & H) & ->). split; [eauto|]. split; [exact L|]. intros h Ih Lh. apply (geos_items im e l _ M) in Ih. destruct Ih as (j & Cj & ->). exact (H j Cj Lh).
Qed.
Lemma fits_geo y : symbol_fits im l y -> gfits (geos secs) y.
Proof.
  intros ((i & C & L) & F). split.
  - exists (it_addr i, it_size i). split; [|exact L]. apply (geos_items im e l _ M). eauto.
  - intros g G. apply glow_item in G. destruct G as (j & N & ->). exact (F j N).
Qed.
Lemma misfits_geo y : symbol_misfits im l y -> gmisfits (geos secs) y.
Proof. intros F g G. apply glow_item in G. destruct G as (j & N & ->). exact (F j N). Qed.
End Items.
