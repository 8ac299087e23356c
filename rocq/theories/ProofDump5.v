(** * Listings: different numbers have different names; offsets of abbreviations *)
From Coq Require Import Ascii String List ZArith Bool Lia.
From Verif Require Import Base ElfRead Dwarf Names Table Dump SpecMap SpecTable SpecElf SpecDwarf SpecDebug SpecDump ProofElf1 ProofTable ProofDump1.
Import ListNotations.
Open Scope list_scope.
Open Scope Z_scope.

(** ** different names *)
Fixpoint all_new (l : list str) : bool := match l with [] => true | a :: r => negb (mem a r) && all_new r end.
Definition begins_unknown (s : str) : bool := firstn 8 s =?= Dump.tx "UNKNOWN ".
Definition distinct_check (names : dict Z str) : bool := all_new (map snd names) && forallb (fun kv => negb (begins_unknown (snd kv))) names.
Lemma all_new_ok (names : dict Z str) : all_new (map snd names) = true -> forall z z' s, In (z, s) names -> In (z', s) names -> z = z'.
Proof.
  induction names as [|(k, v) names IH]; intros H z z' s I J; [destruct I|]. cbn [map all_new snd] in H. apply andb_true_iff in H. destruct H as (N & H). apply negb_true_iff in N.
  assert (Q : forall z s, In (z, s) names -> s <> v). { intros z0 s0 K ->. apply (List.in_map snd) in K. cbn [snd] in K. apply mem_In in K. congruence. }
  destruct I as [I|I], J as [J|J].
  - congruence.
  - injection I as -> ->. now destruct (Q z' s J).
  - injection J as -> ->. now destruct (Q z s I).
  - now apply (IH H _ _ s).
Qed.
Lemma name_unknown_inj names z z' : distinct_check names = true -> name_or_unknown names z = name_or_unknown names z' -> z = z'.
Proof.
  unfold distinct_check, name_or_unknown. rewrite andb_true_iff, forallb_forall. intros (A & B) E.
  assert (U : forall k s x, dget k names = Some s -> s = Dump.tx "UNKNOWN " ++ show_Z x -> False).
  { intros k s x G ->. apply dget_In, B in G. discriminate G. }
  destruct (dget z names) as [s|] eqn:G, (dget z' names) as [s'|] eqn:G'.
  - subst s'. apply dget_In in G, G'. exact (all_new_ok names A _ _ s G G').
  - now destruct (U z s z' G).
  - now destruct (U z' s' z G').
  - apply app_inv_head in E. apply (f_equal py_int10) in E. rewrite !show_Z_read in E. now injection E.
Qed.
Lemma name_error_inj names z z' s : distinct_check names = true -> name_or_error names z = Ok s -> name_or_error names z' = Ok s -> z = z'.
Proof.
  unfold distinct_check, name_or_error. rewrite andb_true_iff. intros (A & _) E E'.
  destruct (dget z names) as [t|] eqn:G; [|discriminate E]. destruct (dget z' names) as [t'|] eqn:G'; [|discriminate E']. injection E as ->. injection E' as ->.
  apply dget_In in G, G'. exact (all_new_ok names A _ _ s G G').
Qed.
Lemma tag_inj z z' : get_tag_name z = get_tag_name z' -> z = z'. Proof. apply name_unknown_inj. vm_compute. reflexivity. Qed.
Lemma attr_inj z z' : get_attr_name z = get_attr_name z' -> z = z'. Proof. apply name_unknown_inj. vm_compute. reflexivity. Qed.
Lemma form_inj z z' : get_form_name z = get_form_name z' -> z = z'. Proof. apply name_unknown_inj. vm_compute. reflexivity. Qed.
Lemma sht_inj z z' : get_sht_name z = get_sht_name z' -> z = z'. Proof. apply name_unknown_inj. vm_compute. reflexivity. Qed.
Lemma type_inj y y' s : type_name y = Ok s -> type_name y' = Ok s -> x_stinfo y mod 16 = x_stinfo y' mod 16.
Proof. unfold type_name. rewrite !type_mod16. apply name_error_inj. vm_compute. reflexivity. Qed.
Lemma bind_inj y y' s : bind_name y = Ok s -> bind_name y' = Ok s -> x_stinfo y / 16 = x_stinfo y' / 16.
Proof. unfold bind_name. rewrite !bind_div16. apply name_error_inj. vm_compute. reflexivity. Qed.
Lemma vis_inj y y' s : visibility_name y = Ok s -> visibility_name y' = Ok s -> x_stother y mod 4 = x_stother y' mod 4.
Proof. unfold visibility_name. rewrite !vis_mod4. apply name_error_inj. vm_compute. reflexivity. Qed.
Lemma vis_always y : exists s, visibility_name y = Ok s /\ shown_name STV_CONSTANTS (x_stother y mod 4) s.
Proof. unfold visibility_name. rewrite vis_mod4. exact (check_error _ _ _ stv_ok (vis_named y)). Qed.

(** ** every table of abbreviations has offsets *)
Definition strip (a : located) : abbrev := Abbrev (l_code a) (l_tag a) (l_children a) (map snd (l_attrs a)).
Lemma attrs_place b l : abattrs_enc b l -> forall off, exists c, attrs_at off c l /\ map snd c = b.
Proof.
  induction 1 as [la lf A F|a l b r N E H IH]; intros off; [exists [(off, AbAttr 0 0 None)]; split; [now constructor|reflexivity]|].
  destruct (IH (off + blen l)) as (c & C & <-). exists ((off, a) :: c). split; [now constructor|reflexivity].
Qed.
Lemma abbrevs_place tbl l : abbrevs_enc tbl l -> forall off, exists t, abbrevs_at off t l /\ map strip t = tbl.
Proof.
  induction 1 as [l U|a r lc lt la lr C LC LT CH LA LR IH]; intros off; [exists []; split; [now constructor|reflexivity]|].
  destruct (attrs_place _ _ LA (off + blen lc + blen lt + 1)) as (b & B & EB). destruct (IH (off + blen lc + blen lt + 1 + blen la)) as (t & T & <-).
  exists (Located off (ab_code a) (ab_tag a) (ab_children a) b :: t). split; [|destruct a; cbn in *; unfold strip; cbn; now rewrite EB].
  exact (la_more off (Located off (ab_code a) (ab_tag a) (ab_children a) b) t lc lt la lr eq_refl C LC LT CH B T).
Qed.
