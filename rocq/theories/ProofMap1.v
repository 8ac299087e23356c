(** * Proofs about the map file parser: memory regions, locations, cross references *)
From Coq Require Import Ascii String List ZArith Bool Lia.
From Verif Require Import Base MemMap Pipeline PyStr MapFile SpecMap ProofPyStr.
Import ListNotations.
Open Scope list_scope.
Open Scope Z_scope.

(** ** Memory Configuration *)

Lemma script_words l s : words l s -> prefix "Linker script and memory map" s -> (5 <= List.length l)%nat.
Proof.
  intros W (r & ->). apply split_words in W. unfold split in W. rewrite app_length in W.
  change (list_ascii_of_string "Linker script and memory map" ++ r) with
    ([] ++ list_ascii_of_string "Linker" ++ ([" "%char] ++ list_ascii_of_string "script" ++
      ([" "%char] ++ list_ascii_of_string "and" ++ ([" "%char] ++ list_ascii_of_string "memory" ++ (list_ascii_of_string " map" ++ r))))) in W.
  change (List.length (list_ascii_of_string "Linker script and memory map")) with 28%nat in W.
  assert (B : blank [" "%char]) by (repeat constructor; unfold ws; cbn; tauto).
  assert (SP : forall x, sep (" "%char :: x)) by (intro x; right; exists " "%char, x; split; [reflexivity|unfold ws; cbn; tauto]).
  assert (WD : forall w, forallb (fun c => negb (is_space c)) w = true -> w <> [] -> word w).
  { intros w F N. split; auto. rewrite forallb_forall in F. apply Forall_forall. intros c I C.
    specialize (F c I). rewrite (is_space_ws _ C) in F. discriminate. }
  replace (28 + List.length r)%nat with (S (S (S (S (S (23 + List.length r))))))%nat in W by lia.
  rewrite split_max_word in W; [|constructor|apply WD; [reflexivity|discriminate]|apply SP].
  rewrite split_max_word in W; [|exact B|apply WD; [reflexivity|discriminate]|apply SP].
  rewrite split_max_word in W; [|exact B|apply WD; [reflexivity|discriminate]|apply SP].
  rewrite split_max_word in W; [|exact B|apply WD; [reflexivity|discriminate]|apply SP].
  subst l. cbn [List.length].
  cbn [split_max]. rewrite (lstrip_blank [" "%char] (list_ascii_of_string "map" ++ r) B : lstrip (list_ascii_of_string " map" ++ r) = _).
  rewrite lstrip_begins by (exists "m"%char, (list_ascii_of_string "ap" ++ r); split; [reflexivity|unfold ws; cbn; intuition discriminate]).
  cbn [list_ascii_of_string app]. destruct (span_word _). cbn [List.length]. lia.
Qed.

Lemma region_line_script rs s : region_line rs s -> sw "Linker script and memory map" s = false.
Proof.
  intro H. apply sw_false. intro P. destruct H.
  - destruct P as (r & ->). inversion H; subst. revert H2. unfold ws. cbn. intuition discriminate.
  - apply (script_words _ _ H1) in P. cbn in P. lia.
  - apply (script_words _ _ H1) in P. cbn in P. lia.
Qed.

Lemma region_line_row rs s : region_line rs s ->
  exists r, region_row s = Ok r /\ forall acc, match r with Some r => acc ++ [r] | None => acc end = acc ++ rs.
Proof.
  intros []; unfold region_row.
  - exists None. split; [|intro; now rewrite app_nil_r].
    rewrite (split_words [] s0) by now constructor. reflexivity.
  - eexists. rewrite (split_words _ _ H1). cbv beta iota. rewrite (number_int _ _ H), (number_int _ _ H0).
    split; [reflexivity|]. reflexivity.
  - eexists. rewrite (split_words _ _ H1). cbv beta iota. rewrite (number_int _ _ H), (number_int _ _ H0).
    split; [reflexivity|]. reflexivity.
Qed.

Lemma prefix_excl (a b : string) s : sw a (list_ascii_of_string b) = false -> sw b (list_ascii_of_string a) = false ->
  prefix a s -> prefix b s -> False.
Proof.
  intros A B (x & ->) (y & E).
  apply (f_equal (fun l => sw a l)) in E.
  assert (H : sw a (list_ascii_of_string a ++ x) = true) by (apply sw_true; exists x; reflexivity).
  revert A B E H. unfold sw. generalize (list_ascii_of_string a) (list_ascii_of_string b). clear.
  intros a b A B E H. rewrite H in E. clear H.
  assert (L : forall a b y, startswith a (b ++ y) = true -> startswith a b = true \/ startswith b a = true).
  { clear. induction a; intros b y H; [now left|]. destruct b as [|c b]; [now right|]. cbn in *.
    apply andb_true_iff in H as [H1 H2]. destruct (keqP a c); [subst|discriminate]. rewrite keq_refl. cbn.
    destruct (IHa _ _ H2); auto. }
  symmetry in E. destruct (L _ _ _ E); congruence.
Qed.

Lemma loop_before pre rest prev h acc :
  Forall (fun s => not_script s /\ ~ prefix "Memory Configuration" s) pre ->
  exists prev', regions_loop (pre ++ rest) prev false h acc = regions_loop rest prev' false h acc.
Proof.
  intro F. revert prev. induction F as [|s pre [A B] _ IH]; intro prev; cbn [app regions_loop]; eauto.
  rewrite (sw_false _ _ A). cbn [negb]. rewrite (sw_false _ _ B). apply IH.
Qed.
Lemma loop_mid mid rest prev acc :
  Forall (fun s => not_script s /\ ~ prefix "Name" s) mid ->
  exists prev', regions_loop (mid ++ rest) prev true false acc = regions_loop rest prev' true false acc.
Proof.
  intro F. revert prev. induction F as [|s pre [A B] _ IH]; intro prev; cbn [app regions_loop]; eauto.
  rewrite (sw_false _ _ A). cbn [negb]. rewrite (sw_false _ _ B). apply IH.
Qed.
Lemma loop_rows rows lines rest prev acc :
  Forall2 region_line rows lines ->
  exists prev', regions_loop (lines ++ rest) prev true true acc = regions_loop rest prev' true true (acc ++ List.concat rows).
Proof.
  intro F. revert prev acc. induction F as [|rs s rows lines A _ IH]; intros prev acc; cbn [app regions_loop List.concat].
  - rewrite app_nil_r. eauto.
  - rewrite (region_line_script _ _ A). cbn [negb]. destruct (region_line_row _ _ A) as (r & -> & R).
    cbn [bind]. rewrite R, app_assoc. apply IH.
Qed.

Lemma regions_ok rs tbl ls post : region_table rs tbl -> prefix "Linker script and memory map" ls ->
  get_memory_regions (tbl ++ ls :: post) = Ok (rs, ls :: post).
Proof.
  intros [pre mc mid nm rows lines A B C D E] L. unfold get_memory_regions.
  rewrite <- app_assoc. destruct (loop_before pre ((mc :: mid ++ nm :: lines) ++ ls :: post) [] false [] A) as [p1 ->].
  cbn [app regions_loop].
  rewrite (sw_false "Linker script and memory map" mc) by (intro P; exact (prefix_excl "Linker script and memory map" "Memory Configuration" mc eq_refl eq_refl P B)).
  cbn [negb]. rewrite (sw_true _ _ B).
  rewrite <- app_assoc. destruct (loop_mid mid ((nm :: lines) ++ ls :: post) [mc] [] C) as [p2 ->].
  cbn [app regions_loop].
  rewrite (sw_false "Linker script and memory map" nm) by (intro P; exact (prefix_excl "Linker script and memory map" "Name" nm eq_refl eq_refl P D)).
  cbn [negb]. rewrite (sw_true _ _ D).
  destruct (loop_rows rows lines (ls :: post) [nm] [] E) as [p3 ->].
  cbn [regions_loop]. rewrite (sw_true _ _ L). reflexivity.
Qed.

(** ** locations *)

Lemma archive_join s ar ob : get_archive_object_file s = (ar, ob) ->
  (In "("%char s -> (exists r, s = r ++ [")"%char]) -> member_text ar ob = s) /\
  (~ In "("%char s -> ar = list_ascii_of_string "(exe)" /\ ob = s).
Proof.
  unfold get_archive_object_file. pose proof (cut_at_spec "("%char s) as C.
  destruct (cut_at "("%char s) as [[a b]|].
  - destruct C as [E N]. intro H. injection H as <- <-. split.
    + intros _ (r & R). unfold member_text. rewrite E. f_equal. f_equal.
      destruct b as [|b0 b1] eqn:B.
      * rewrite R in E. apply app_inj_tail in E as [_ E]. discriminate.
      * assert (NE : b <> []) by (subst; discriminate). rewrite <- B in *. clear B.
        rewrite (app_removelast_last "x"%char NE). f_equal. rewrite removelast_last. f_equal.
        pose proof (app_removelast_last "x"%char NE) as L. rewrite L in E.
        change ("("%char :: removelast b ++ [last b "x"%char]) with (("("%char :: removelast b) ++ [last b "x"%char]) in E.
        rewrite app_assoc, R in E. apply app_inj_tail in E as [_ E]. now rewrite E.
    + intro H. exfalso. apply H. rewrite E. apply in_or_app. right. now left.
  - intro H. injection H as <- <-. split; [contradiction|auto].
Qed.

(** ** cross reference table *)

Definition put_entry (t : crt_table) (e : entry) : crt_table := dset (en_symbol e) (en_def e :: en_refs e) t.

Lemma dget_dset_same {V} y (v : V) (d : dict str V) : dget y (dset y v d) = Some v.
Proof. induction d as [|[k w] d IH]; cbn [dset dget]; [now rewrite keq_refl|]. destruct (keqP y k); cbn [dget]; [subst; now rewrite keq_refl|]. destruct (keqP y k); [contradiction|]. exact IH. Qed.
Lemma dset_dset {V} y (v w : V) (d : dict str V) : dset y w (dset y v d) = dset y w d.
Proof. induction d as [|[k x] d IH]; cbn [dset]; [now rewrite keq_refl|]. destruct (keqP y k) as [E|E]; cbn [dset]; destruct (keqP y k); try contradiction; auto. now rewrite IH. Qed.

Lemma strip_strip s : strip (strip s) = strip s.
Proof.
  destruct (lstrip_begins_or s) as [E|B].
  - unfold strip. rewrite E. reflexivity.
  - assert (T : strip s = [] \/ trimmed (strip s)).
    { unfold strip. destruct (lstrip_begins_or (rev (lstrip s))) as [E|B2]; [left; now rewrite E|]. right. split.
      - destruct B as (c & r & E & H). rewrite E. cbn [rev].
        assert (forall l, begins (rev (lstrip (rev l ++ [c])))) as X; [|rewrite <- (rev_involutive r) at 1; rewrite rev_involutive; apply X].
        intro l. induction (rev l) as [|x m IH]; cbn [app lstrip].
        + rewrite is_space_not by auto. exists c, []. auto.
        + destruct (is_space x); auto. cbn [rev app]. rewrite rev_app_distr. cbn [rev app]. exists c, (rev m ++ [x]). auto.
      - destruct B2 as (c & r' & -> & H). cbn [rev]. exists (rev r'), c. auto. }
    destruct T as [->|T]; [reflexivity|]. now apply strip_idem.
Qed.

Lemma crt_refs_loop refs lines rest found y t l :
  dget y t = Some l ->
  Forall2 (fun r s => exists c t p q, (c = " "%char \/ c = "009"%char) /\ trimmed t /\ blank p /\ blank q /\
               location (fst r) (snd r) t /\ s = c :: p ++ t ++ q) refs lines ->
  crt_loop (lines ++ rest) true found (Some y) t =
  match found with true => crt_loop rest true true (Some y) (dset y (l ++ refs) t) | false => crt_loop (lines ++ rest) true found (Some y) t end.
Proof.
  destruct found; auto. intros G F. revert t l G.
  induction F as [|r s refs lines (c & tx & p & q & C & T & P & Q & LO & ->) _ IH]; intros t l G; cbn [app].
  - rewrite app_nil_r. f_equal. clear -G. induction t as [|[k w] t IH]; cbn in *; [discriminate|].
    destruct (keqP y k); [injection G as ->; reflexivity|]. now rewrite <- IH.
  - cbn [crt_loop]. cbn [negb andb].
    assert (X : (c =?= " "%char) || (c =?= tab) = true).
    { destruct C as [->| ->]; [now rewrite keq_refl|]. rewrite (keq_refl tab). apply orb_true_r. }
    rewrite X. cbn [crt_reference]. rewrite G. cbn [bind]. rewrite strip_strip.
    rewrite (strip_line tx (c :: p) q : trimmed tx -> _ -> _ -> strip (c :: p ++ tx ++ q) = tx); auto.
    2:{ constructor; auto. destruct C as [->| ->]; unfold ws; cbn; tauto. }
    rewrite (location_parse _ _ _ LO). rewrite (IH _ (l ++ [(fst r, snd r)])) by apply dget_dset_same.
    rewrite dset_dset. destruct r. cbn [fst snd]. now rewrite <- app_assoc.
Qed.

Lemma crt_entries_loop es body rest sym t :
  Forall2 entry_lines es body ->
  exists sym', crt_loop (List.concat body ++ rest) true true sym t = crt_loop rest true true sym' (fold_left put_entry es t).
Proof.
  intro F. revert sym t. induction F as [|e ls es body E _ IH]; intros sym t; cbn [List.concat app fold_left]; eauto.
  destruct E as [g d refs W G B LO R]. rewrite <- app_assoc. cbn [app].
  destruct (word_begins _ W) as (c & r & EC & NC). rewrite EC. cbn [app crt_loop negb andb].
  assert (X : (c =?= " "%char) || (c =?= tab) = false).
  { destruct (keqP c " "%char); [subst; exfalso; apply NC; unfold ws; cbn; tauto|].
    destruct (keqP c tab); [subst; exfalso; apply NC; unfold ws; cbn; tauto|]. reflexivity. }
  rewrite X. change (c :: r ++ g ++ d) with ((c :: r) ++ g ++ d). rewrite <- EC. unfold crt_entry.
  assert (SM : split_max 1 (en_symbol e ++ g ++ d) = en_symbol e :: split_max 0 (g ++ d)).
  { apply (split_max_word 0 [] (en_symbol e) (g ++ d)); auto using sep_gap. constructor. }
  rewrite SM.
  rewrite split_max_rest by (auto; apply G). cbn [bind].
  rewrite (location_parse _ _ _ LO).
  rewrite (crt_refs_loop _ _ _ true _ _ [(fst (en_def e), snd (en_def e))] (dget_dset_same _ _ _) R).
  rewrite dset_dset.
  replace (dset (en_symbol e) ([(fst (en_def e), snd (en_def e))] ++ en_refs e) t) with (put_entry t e).
  2:{ unfold put_entry. destruct (en_def e). reflexivity. }
  apply IH.
Qed.

Lemma stray_loop stray rest t : Forall stray_line stray ->
  crt_loop (stray ++ rest) true true None t = crt_loop rest true true None t.
Proof.
  induction 1 as [|s stray (c & r & C & ->) _ IH]; cbn [app]; auto. cbn [crt_loop negb andb].
  assert (X : (c =?= " "%char) || (c =?= tab) = true).
  { destruct C as [->| ->]; [now rewrite keq_refl|]. rewrite (keq_refl tab). apply orb_true_r. }
  now rewrite X.
Qed.

Lemma crt_ok es lines : crt_lines es lines ->
  get_cross_reference_table lines = Ok (match fold_left put_entry es [] with [] => None | t => Some t end).
Proof.
  intros [h mid sy stray es' body post H M SY ST E P]. unfold get_cross_reference_table.
  cbn [crt_loop]. rewrite (sw_true _ _ H). cbn [negb andb].
  assert (X : forall rest, crt_loop (mid ++ rest) true false None [] = crt_loop rest true false None []).
  { intro rest. clear -M. induction M as [|s mid N _ IH]; cbn [app crt_loop negb andb]; auto. now rewrite (sw_false _ _ N). }
  rewrite X. cbn [crt_loop negb andb]. rewrite (sw_true _ _ SY).
  rewrite stray_loop by auto.
  destruct (crt_entries_loop _ _ post None [] E) as [sym' ->].
  destruct P as [->|[p ->]]; cbn [crt_loop negb andb bind]; now destruct (fold_left put_entry es' []).
Qed.

(** the table has exactly the last entry of each symbol *)
Lemma put_entries_get es y : forall t v,
  dget y (fold_left put_entry es t) = Some v <->
  (last_entry es y v \/ (dget y t = Some v /\ forall e, In e es -> en_symbol e <> y)).
Proof.
  induction es as [|e es IH]; intros t v; cbn [fold_left].
  - split; [intro H; right; split; [exact H|intros e []]|]. intros [(l1 & e & l2 & E & _)|[H _]]; [destruct l1; discriminate|exact H].
  - rewrite IH. split.
    + intros [(l1 & e' & l2 & -> & Y & V & N)|[G N]].
      * left. exists (e :: l1), e', l2. auto.
      * unfold put_entry in G. destruct (keqP (en_symbol e) y) as [EY|NY].
        -- subst y. rewrite dget_dset_same in G. injection G as <-. left. exists [], e, es. auto.
        -- right. split.
           ++ clear -G NY. induction t as [|[k w] t IHt]; cbn [dset dget] in *.
              ** destruct (keqP y (en_symbol e)); [subst; contradiction|discriminate].
              ** destruct (keqP (en_symbol e) k) as [EK|EK].
                 --- subst k. cbn [dget] in G. destruct (keqP y (en_symbol e)); [subst; contradiction|]. exact G.
                 --- cbn [dget] in G. destruct (keqP y k); [exact G|]. auto.
           ++ intros e' [<-|I]; auto.
    + intros [(l1 & e' & l2 & E & Y & V & N)|[G N]].
      * destruct l1 as [|x l1].
        -- injection E as <- <-. right. split; [|exact N]. unfold put_entry. subst y v. apply dget_dset_same.
        -- injection E as <- ->. left. exists l1, e', l2. auto.
      * right. split; [|intros e' I; apply N; now right].
        assert (NY : en_symbol e <> y) by (apply N; now left).
        unfold put_entry. clear -G NY. induction t as [|[k w] t IHt]; cbn [dset dget] in *; [discriminate|].
        destruct (keqP (en_symbol e) k) as [EK|EK].
        -- subst k. cbn [dget]. destruct (keqP y (en_symbol e)); [subst; contradiction|]. exact G.
        -- cbn [dget]. destruct (keqP y k); [exact G|]. auto.
Qed.

Lemma filter_filter' {A} (f g : A -> bool) l : filter f (filter g l) = filter (fun x => f x && g x) l.
Proof. induction l as [|x l IH]; cbn [filter]; auto. destruct (g x) eqn:G; cbn [filter]; rewrite IH; [rewrite andb_true_r|rewrite andb_false_r]; reflexivity. Qed.

Lemma dset_keys (y : str) (v : list (str * str)) (t : crt_table) :
  map fst (dset y v t) = if existsb (fun k => k =?= y) (map fst t) then map fst t else map fst t ++ [y].
Proof.
  induction t as [|[k w] t IH]; cbn [dset map fst existsb]; auto.
  destruct (keqP y k) as [->|N].
  - rewrite keq_refl. reflexivity.
  - destruct (keqP k y); [subst; contradiction|]. cbn [orb map fst]. rewrite IH. now destruct (existsb _ _).
Qed.

Lemma put_entries_keys es : forall t, 
  map fst (fold_left put_entry es t) =
  map fst t ++ filter (fun y => negb (existsb (fun k => k =?= y) (map fst t))) (distinct (map en_symbol es)).
Proof.
  induction es as [|e es IH]; intro t; cbn [fold_left map distinct filter].
  - now rewrite app_nil_r.
  - rewrite IH. unfold put_entry at 1 2. rewrite dset_keys.
    destruct (existsb (fun k => k =?= en_symbol e) (map fst t)) eqn:E; cbn [negb].
    + f_equal. rewrite filter_filter'. apply filter_ext. intro y.
      destruct (keqP y (en_symbol e)) as [->|]; cbn [negb andb]; [now rewrite E|]. now rewrite andb_true_r.
    + rewrite <- app_assoc. cbn [app]. f_equal. f_equal. rewrite filter_filter'. apply filter_ext. intro y.
      rewrite existsb_app. cbn [existsb]. rewrite orb_false_r, negb_orb. f_equal.
      destruct (keqP y (en_symbol e)); destruct (keqP (en_symbol e) y); congruence.
Qed.
