(** * FixDebug: the debugging information of the file of FixElf, and smaller files *)
From Coq Require Import Ascii String List ZArith Bool Lia.
From Verif Require Import Base ElfRead Dwarf SpecElf ProofElf1 ProofElf2 SpecDwarf SpecDebug FixElf.
Import ListNotations.
Open Scope list_scope.
Open Scope Z_scope.

(** ** Tactics for encodings of given values *)
Ltac small := vm_compute; split; [discriminate | reflexivity].
Lemma uleb1 n : 0 <= n < 128 -> uleb_enc n [n]. Proof. exact (ue_last n). Qed.
Lemma uleb2 n : 0 <= n < 16384 -> uleb_enc n [n mod 128 + 128; n / 128].
Proof.
  intros H. rewrite (Z_div_mod_eq_full n 128) at 1. rewrite Z.add_comm. apply ue_more; [apply Z.mod_pos_bound; lia|].
  apply ue_last. split; [apply Z.div_pos; lia | apply Z.div_lt_upper_bound; lia].
Qed.
Ltac uleb := match goal with |- uleb_enc ?n _ => first [exact (uleb1 n ltac:(small)) | exact (uleb2 n ltac:(small))] end.
Ltac class_tac big c :=
  match goal with
  | |- class_enc _ _ FAddr (DInt ?v) _ => exact (ce_addr big c v ltac:(numbers))
  | |- class_enc _ _ FOffset (DInt ?v) _ => exact (ce_off big c v ltac:(numbers))
  | |- class_enc _ _ (FFixed ?n) (DInt ?v) _ => exact (ce_fixed big c n v ltac:(numbers))
  | |- class_enc _ _ FUleb (DInt ?v) _ => apply ce_uleb; uleb
  | |- class_enc _ _ FBlockU (DBytes ?b) _ => exact (ce_blocku big c b [blen b] (uleb1 (blen b) ltac:(small)))
  | |- class_enc _ _ FString (DBytes ?b) _ => refine (ce_string big c b _); repeat constructor; discriminate
  | |- class_enc _ _ FNothing _ _ => apply ce_nothing
  end.
(** an attribute whose value is the one in the bytes, or comes from the abbreviation *)
Ltac attr_tac big c := unfold vstr, vaddr; cbn [fst snd];
  match goal with
  | |- attr_enc _ _ _ ?v _ => eexists _, v; split; [reflexivity|]; split; [class_tac big c | reflexivity]
  | |- attr_enc _ _ _ ?v _ => eexists _, DNone; split; [reflexivity|]; split; [class_tac big c | reflexivity]
  end.
Ltac unroll := match goal with |- ab_attrs _ = _ => cbn; reflexivity end.
Ltac nodup := repeat constructor; cbn; intros H; repeat destruct H as [H|H]; try discriminate H; try contradiction.

Definition specs_of (a : abbrev) : list abattr := removelast (ab_attrs a).
Lemma tok' big c tbl a cb vals kids : In a tbl -> 1 <= ab_code a -> uleb_enc (ab_code a) cb ->
  ab_attrs a = specs_of a ++ [AbAttr 0 0 None] -> Forall (fun s => aa_attr s <> 0) (specs_of a) ->
  NoDup (map aa_attr (specs_of a)) ->
  Forall2 (fun s v => attr_enc big c s (fst v) (snd v)) (specs_of a) vals ->
  (ab_children a = 0 -> kids = []) -> Forall (tree_ok big c tbl) kids -> tree_ok big c tbl (Tree a cb vals kids).
Proof. intros. econstructor; eassumption. Qed.
Ltac node big c :=
  apply tok'; [cbn; auto 10 | cbn; lia | apply uleb1; small | reflexivity | cbv; repeat (apply Forall_cons; [discriminate|]); apply Forall_nil | cbv; nodup
              | unfold specs_of; cbn; repeat apply Forall2_cons; try apply Forall2_nil; cbn [fst snd] | try reflexivity; try discriminate | ].

Lemma uleb_tbl : forall tbl, forallb (fun a => (1 <=? ab_code a) && (ab_code a <? 128) && (0 <=? ab_tag a) && (ab_tag a <? 128) &&
    (0 <=? ab_children a) && (ab_children a <? 256) &&
    forallb (fun s => (1 <=? aa_attr s) && (aa_attr s <? 128) && (1 <=? aa_form s) && (aa_form s <? 128) &&
       match aa_value s with Some v => (aa_form s =? 33) && (0 <=? v) && (v <? 64) | None => negb (aa_form s =? 33) end)
      (removelast (ab_attrs a)) && match last (ab_attrs a) (attr 1 1) with AbAttr 0 0 None => true | _ => false end) tbl = true ->
  abbrevs_enc tbl (abbrevs_bytes tbl).
Proof.
  assert (T : forall l, forallb (fun s => (1 <=? aa_attr s) && (aa_attr s <? 128) && (1 <=? aa_form s) && (aa_form s <? 128) &&
       match aa_value s with Some v => (aa_form s =? 33) && (0 <=? v) && (v <? 64) | None => negb (aa_form s =? 33) end) l = true ->
       abattrs_enc (l ++ [no_more]) (flat_map abattr_bytes (l ++ [no_more]))).
  { induction l as [|s l IH]; intros H; [exact (aes_end [0] [0] (uleb1 0 ltac:(lia)) (uleb1 0 ltac:(lia)))|].
    cbn [forallb] in H. rewrite !andb_true_iff in H. destruct H as [[[[[A1 A2] F1] F2] V] H].
    apply Z.leb_le in A1, F1. apply Z.ltb_lt in A2, F2. cbn [app flat_map]. apply aes_more; [lia | | exact (IH H)].
    exists [aa_attr s], [aa_form s], (match aa_value s with Some v => [v] | None => [] end).
    split; [reflexivity|]. split; [apply uleb1; lia|]. split; [apply uleb1; lia|].
    destruct (aa_value s) as [v|].
    - rewrite !andb_true_iff, Z.eqb_eq, Z.leb_le, Z.ltb_lt in V. destruct V as [[V1 V2] V3]. split; [exact V1|].
      assert (Q : sleb_enc (if v <? 64 then v else v - 128) [v]) by (apply se_last; lia).
      rewrite (proj2 (Z.ltb_lt v 64) V3) in Q. exact Q.
    - apply negb_true_iff in V. apply Z.eqb_neq in V. auto. }
  induction tbl as [|a tbl IH]; intros H; [exact (abs_end [0] (uleb1 0 ltac:(lia)))|].
  cbn [forallb] in H. rewrite !andb_true_iff in H.
  destruct H as [[[[[[[[C1 C2] T1] T2] H1] H2] AS] LA] H].
  apply Z.leb_le in C1, T1, H1. apply Z.ltb_lt in C2, T2, H2. assert (LA' : last (ab_attrs a) (attr 1 1) = no_more) by (destruct (last (ab_attrs a) (attr 1 1)) as [[|?|?] [|?|?] [?|]]; try discriminate LA; reflexivity); clear LA; rename LA' into LA.
  assert (NE : ab_attrs a <> []) by (intros E; rewrite E in LA; discriminate).
  pose proof (app_removelast_last (attr 1 1) NE) as SP. rewrite LA in SP.
  unfold abbrevs_bytes. cbn [flat_map]. unfold abbrev_bytes at 1. rewrite <- !app_assoc.
  apply (abs_more a tbl [ab_code a] [ab_tag a] (flat_map abattr_bytes (ab_attrs a)) (abbrevs_bytes tbl)).
  - exact C1.
  - apply uleb1; lia.
  - apply uleb1; lia.
  - lia.
  - rewrite SP. apply T. exact AS.
  - apply IH, H.
Qed.

Lemma numbered_ok : forall tbl, map ab_code tbl = map (fun i => Z.of_nat i + 1) (seq 0 (length tbl)) -> numbered tbl.
Proof.
  intros tbl E i a N. assert (L : (i < length tbl)%nat) by (apply nth_error_Some; congruence).
  pose proof (map_nth_error ab_code i tbl N) as M. rewrite E in M.
  rewrite (map_nth_error (fun i => Z.of_nat i + 1) i (seq 0 (length tbl)) (d := i)) in M; [congruence|].
  rewrite (nth_error_nth' _ 0%nat) by (rewrite seq_length; exact L). now rewrite seq_nth.
Qed.
Lemma readable_ok : forall tbl, forallb (fun a => forallb (fun s => negb (existsb (Z.eqb (aa_form s)) (32 :: unsupported))) (ab_attrs a)) tbl = true ->
  readable tbl.
Proof.
  intros tbl H a s A I. rewrite forallb_forall in H. specialize (H a A). rewrite forallb_forall in H. specialize (H s I).
  apply negb_true_iff in H. cbn [existsb] in H. apply orb_false_iff in H. destruct H as [H1 H2]. apply Z.eqb_neq in H1.
  split; [|exact H1]. intros X. enough (existsb (Z.eqb (aa_form s)) unsupported = true) by congruence.
  apply existsb_exists. exists (aa_form s). split; [exact X | apply Z.eqb_refl].
Qed.

(** sections and their names, decided *)
Definition named_b (e : xelf) (names : list str) : bool :=
  match nth_error (xe_shdrs e) (Z.to_nat (e_shstrndx (xe_ehdr e))) with
  | None => false
  | Some t => let data := slice (xe_file e) (x_offset t) (x_size t) in
              occursb (xe_file e) (x_offset t) data && (x_size t =? blen data) && (length (xe_shdrs e) =? length names)%nat &&
              forallb (fun p => forallb (fun b => negb (b =? 0)) (text (snd p)) && utf8_ok (text (snd p)) &&
                                occursb data (x_name (fst p)) (text (snd p) ++ [0])) (combine (xe_shdrs e) names)
  end.
Lemma named_ok e names : named_b e names = true -> named_sections e names.
Proof.
  unfold named_b, named_sections. destruct (nth_error _ _) as [t|]; [|discriminate]. rewrite !andb_true_iff.
  intros [[[O L] LN] H]. exists t. split; [reflexivity|]. apply Z.eqb_eq in L. apply occursb_ok in O. apply Nat.eqb_eq in LN.
  revert names LN H. induction (xe_shdrs e) as [|s ss IH]; intros [|n ns] LN H; try discriminate; constructor.
  - cbn [combine forallb] in H. rewrite !andb_true_iff in H. destruct H as [[[P U] Q] _]. split.
    + apply plain_ok. cbn [snd] in *. now rewrite P, U.
    + eexists. split; [exact O|]. split; [exact L|]. apply occursb_ok. exact Q.
  - apply IH; [cbn in LN; congruence|]. cbn [combine forallb] in H. rewrite !andb_true_iff in H. apply H.
Qed.
Fixpoint first_named (name : str) (names : list str) (i : nat) : option nat :=
  match names with [] => None | n :: r => if n =?= name then Some i else first_named name r (S i) end.
Lemma first_named_ok : forall name names i j, first_named name names i = Some j ->
  exists k, j = (i + k)%nat /\ nth_error names k = Some name /\ forall m, (m < k)%nat -> nth_error names m <> Some name.
Proof.
  intros name names. induction names as [|n r IH]; intros i j H; cbn in H; [discriminate|].
  destruct (keqP n name) as [->|N].
  - injection H as <-. exists 0%nat. split; [lia|]. split; [reflexivity|]. intros m M. lia.
  - destruct (IH _ _ H) as (k & -> & A & B). exists (S k). split; [lia|]. split; [exact A|].
    intros [|m] M; cbn; [congruence | apply B; lia].
Qed.
Definition section_b (e : xelf) (names : list str) (name : str) (data : list Z) : bool :=
  match first_named name names 0 with
  | None => false
  | Some i => match nth_error (xe_shdrs e) i with
              | None => false
              | Some s => occursb (xe_file e) (x_offset s) data && (x_size s =? blen data)
              end
  end.
Lemma section_ok e names name data : section_b e names name data = true -> section_is e names name data.
Proof.
  unfold section_b. destruct (first_named name names 0) as [i|] eqn:F; [|discriminate].
  destruct (first_named_ok _ _ _ _ F) as (k & -> & A & B). cbn [Nat.add]. destruct (nth_error (xe_shdrs e) k) as [s|] eqn:N; [|discriminate].
  rewrite andb_true_iff, Z.eqb_eq. intros [O L]. exists k, s. repeat split; auto. now apply occursb_ok.
Qed.

(** ** The file of FixElf *)
Definition fx_elf (is64 big : bool) : xelf :=
  XElf (fx_file is64 big) is64 big (fx_ehdr is64 big) (map (phdr_read is64) fx_phdrs) (fx_shdrs is64 big).
Definition fx_u1 (is64 big : bool) : funit := FUnit (fx_cu1 is64 big) fx_tbl1 (fx_tree1 is64 big) [].
Definition fx_u2 (is64 big : bool) : funit := FUnit (fx_cu2 is64 big) fx_tbl2 (fx_tree2 is64 big) [0; 0].
Definition fx_units (is64 big : bool) : list funit := [fx_u1 is64 big; fx_u2 is64 big].

Lemma fx_tree1_ok : forall is64 big, tree_ok big (fx_cu1 is64 big) fx_tbl1 (fx_tree1 is64 big).
Proof.
  intros [|] [|]; unfold fx_tree1.
  all: lazymatch goal with |- tree_ok ?b ?c _ _ =>
    node b c; [attr_tac b c .. | repeat apply Forall_cons; try apply Forall_nil; (node b c; [attr_tac b c .. | apply Forall_nil])] end.
Qed.
Lemma fx_tree2_ok : forall is64 big, tree_ok big (fx_cu2 is64 big) fx_tbl2 (fx_tree2 is64 big).
Proof.
  intros [|] [|]; unfold fx_tree2.
  all: lazymatch goal with |- tree_ok ?b ?c _ _ =>
    node b c; [attr_tac b c | repeat apply Forall_cons; try apply Forall_nil];
    [ node b c; [attr_tac b c | repeat apply Forall_cons; try apply Forall_nil; node b c; [attr_tac b c | apply Forall_nil]]
    | node b c; [exists (FFixed 4), (DInt 18); split; [reflexivity|]; split; [class_tac b c | reflexivity] | attr_tac b c | apply Forall_nil] .. ] end.
Qed.

Lemma fx_debug_image : forall is64 big, debug_image (fx_elf is64 big) fx_names (fx_units is64 big).
Proof.
  intros is64 big. split; [apply named_ok; destruct is64, big; vm_compute; reflexivity|].
  exists (fx_info is64 big), fx_abbrev.
  split; [apply section_ok; destruct is64, big; vm_compute; reflexivity|].
  split; [apply section_ok; destruct is64, big; vm_compute; reflexivity|]. split.
  - unfold fx_info, fx_units. cbn [map u_cu u_tree u_pad fx_u1 fx_u2 fx_elf xe_big]. rewrite app_nil_r.
    apply us_cons; [reflexivity | |].
    + unfold fx_unit1. apply (ue_unit big (fx_cu1 is64 big) (tbytes (fx_tree1 is64 big)) (fx_hdr1 is64 big)).
      * apply uh_full. auto.
      * destruct is64; auto.
      * numbers.
      * destruct is64, big; vm_compute; reflexivity.
      * destruct is64, big; numbers.
      * reflexivity.
      * destruct is64, big; vm_compute; reflexivity.
    + rewrite <- (app_nil_r (fx_unit2 is64 big)). apply us_cons; [destruct is64, big; vm_compute; reflexivity | | apply us_nil].
      unfold fx_unit2. apply (ue_unit big (fx_cu2 is64 big) (tbytes (fx_tree2 is64 big) ++ [0; 0]) (fx_hdr2 is64 big)).
      * apply uh_old. cbn; lia.
      * destruct is64; auto.
      * numbers.
      * destruct is64, big; vm_compute; reflexivity.
      * destruct is64, big; numbers.
      * reflexivity.
      * destruct is64, big; vm_compute; reflexivity.
  - apply Forall_cons; [split | apply Forall_cons; [split | apply Forall_nil]].
    + right. left. reflexivity.
    + apply fx_tree1_ok.
    + exists (abbrevs_bytes fx_tbl1). split; [apply uleb_tbl; vm_compute; reflexivity | apply occursb_ok; vm_compute; reflexivity].
    + apply numbered_ok. reflexivity.
    + apply readable_ok. reflexivity.
    + left. reflexivity.
    + apply fx_tree2_ok.
    + exists (abbrevs_bytes fx_tbl2). split; [apply uleb_tbl; vm_compute; reflexivity | apply occursb_ok; vm_compute; reflexivity].
    + apply numbered_ok. reflexivity.
    + apply readable_ok. reflexivity.
Qed.

(** ** entries, decided *)
Definition attrs_of (k : Z) (d : die) : list dattr := map snd (filter (fun p => fst p =? k) (d_attrs d)).
Lemma attrs_of_ok d k (f : dattr -> bool) : forallb f (attrs_of k d) = true -> forall a, has_attr d k a -> f a = true.
Proof.
  intros H a I. rewrite forallb_forall in H. apply H. unfold attrs_of. apply (List.in_map snd) with (x := (k, a)).
  apply filter_In. split; [exact I | cbn; apply Z.eqb_refl].
Qed.
Definition entry_b (e : xelf) (us : list funit) (d : die) : bool :=
  (negb (d_tag d =? 46) || forallb (fun a => negb (inexact (at_form a) (at_value a)) && match at_value a with DInt _ => true | _ => false end) (attrs_of 17 d)) &&
  (negb (d_tag d =? 52) || forallb (fun a => (at_form a =? 24) &&
      match at_value a with
      | DBytes (x :: r) => negb (x =? 3) || (let z := fst (get_address e r 0) in (r =?= address_bytes e z) && (0 <=? z) && (z <? 256 ^ 4))
      | _ => false
      end) (attrs_of 2 d)) &&
  forallb (fun a => negb (inexact (at_form a) (at_value a)) &&
      match at_value a with DInt z => existsb (fun q => z =? d_off (fst q)) (entries us) | _ => false end) (attrs_of 49 d).
Lemma entry_b_ok e us d : entry_b e us d = true -> entry_ok e us d.
Proof.
  unfold entry_b. rewrite !andb_true_iff, !orb_true_iff, !negb_true_iff, !Z.eqb_neq. intros [[A B] C]. split.
  - intros T a I. destruct A as [A|A]; [contradiction|]. pose proof (attrs_of_ok _ _ _ A a I) as F. cbn beta in F.
    rewrite andb_true_iff, negb_true_iff in F. destruct F as [F1 F2]. split; [exact F1|]. destruct (at_value a); try discriminate. eauto.
  - intros T a I. destruct B as [B|B]; [contradiction|]. pose proof (attrs_of_ok _ _ _ B a I) as F. cbn beta in F.
    rewrite andb_true_iff, Z.eqb_eq in F. destruct F as [F1 F2]. right. split; [exact F1|].
    destruct (at_value a) as [|[|x r]| |]; try discriminate. exists (x :: r). split; [reflexivity|].
    rewrite orb_true_iff, negb_true_iff, Z.eqb_neq, !andb_true_iff, Z.leb_le, Z.ltb_lt in F2.
    destruct (Z.eq_dec x 3) as [->|N]; [|now apply eo_other]. destruct F2 as [F2|[[E L] H]]; [contradiction|].
    apply keq_eq in E. rewrite E. apply eo_addr. unfold address_fits, fits. destruct (xe_is64 e); lia.
  - intros a I. pose proof (attrs_of_ok _ _ _ C a I) as F. cbn beta in F. rewrite andb_true_iff, negb_true_iff in F. destruct F as [F1 F2].
    split; [exact F1|]. destruct (at_value a) as [z| | |]; try discriminate. apply existsb_exists in F2. destruct F2 as (q & Q & E).
    apply Z.eqb_eq in E. exists q. subst z. auto.
Qed.
Lemma entries_b_ok e us : forallb (fun p => entry_b e us (fst p)) (entries us) = true ->
  forall d u, In (d, u) (entries us) -> entry_ok e us d.
Proof. rewrite forallb_forall. intros H d u I. apply entry_b_ok. exact (H (d, u) I). Qed.

Lemma fx_ordinary : forall is64 big, ordinary (fx_elf is64 big) fx_names (fx_units is64 big).
Proof.
  intros is64 big. split.
  - intros u [<-|[<-|[]]]; (split; [reflexivity|]).
    + exists (tx "main.c"). eexists _, _, _. split; [reflexivity|]. split; [left; reflexivity|].
      refine (tv_strp _ _ _ _ 14 (tx ".debug_str") fx_str 1 _ _ _ _ _ _).
      * left. split; reflexivity.
      * reflexivity.
      * reflexivity.
      * apply section_ok. destruct is64, big; vm_compute; reflexivity.
      * apply occursb_ok. vm_compute. reflexivity.
      * apply plain_ok. reflexivity.
    + exists (tx "log.c"). eexists _, _, _. split; [reflexivity|]. split; [left; reflexivity|].
      apply tv_string; [reflexivity | reflexivity | apply accepted_utf8; reflexivity].
  - apply entries_b_ok. destruct is64, big; vm_compute; reflexivity.
Qed.

(** ** A file from its sections (name, type, content); the names are in the first section *)
Definition sec := (string * Z * list Z)%type.
Fixpoint mini_shdrs (noff off : Z) (l : list sec) : list xshdr :=
  match l with
  | [] => []
  | (n, ty, d) :: r => XShdr noff ty 0 0 off (blen d) 0 0 1 0 :: mini_shdrs (noff + blen (bz n)) (off + blen d) r
  end.
Definition mini (l : list sec) : xelf :=
  let shstr := flat_map (fun s => bz (fst (fst s))) l in
  let l := match l with (n, ty, _) :: r => (n, ty, shstr) :: r | [] => [] end in
  XElf (flat_map snd l) false false
    (Ehdr [127; 69; 76; 70; 1; 1; 1; 0; 0; 0; 0; 0; 0; 0; 0; 0] 2 243 1 0 0 0 0 52 32 0 40 (Z.of_nat (length l)) 0)
    [] (mini_shdrs 0 0 l).
Definition mini_names (l : list sec) : list str := map (fun s => tx (fst (fst s))) l.
(** a file with one unit and one symbol *)
Definition unit_bytes (u : funit) (hdr : list Z) : list Z :=
  unit_length_bytes false false (cu_length (u_cu u)) ++ hdr ++ tbytes (u_tree u) ++ u_pad u.
Definition one_unit (tbl : list abbrev) (info : list Z) (more : list sec) : list sec :=
  [(".shstrtab"%string, 3, []); (".symtab"%string, 2, sym_bytes false false (XSym 0 0 4096 40 18 0 7));
   (".debug_abbrev"%string, 1, abbrevs_bytes tbl); (".debug_info"%string, 1, info)] ++ more.
Definition hdr_v5 (ut : Z) : list Z := int_enc false 2 5 ++ [ut] ++ [4] ++ int_enc false 4 0.
Definition cu_v5 (ut : Z) (t : tree) : cu := Cu 0 4 (8 + blen (tbytes t)) false 5 (Some ut) 4 0 12.

Lemma one_unit_image : forall ut tbl t more, ut = 1 \/ ut = 3 ->
  let u := FUnit (cu_v5 ut t) tbl t [] in
  let s := one_unit tbl (unit_bytes u (hdr_v5 ut)) more in
  (named_b (mini s) (mini_names s) = true) ->
  (section_b (mini s) (mini_names s) (tx ".debug_info") (unit_bytes u (hdr_v5 ut)) = true) ->
  (section_b (mini s) (mini_names s) (tx ".debug_abbrev") (abbrevs_bytes tbl) = true) ->
  blen (tbytes t) < 1000000 -> unit_ok false (abbrevs_bytes tbl) u -> debug_image (mini s) (mini_names s) [u].
Proof.
  intros ut tbl t more UT u s A B C L O. split; [now apply named_ok|]. exists (unit_bytes u (hdr_v5 ut)), (abbrevs_bytes tbl).
  split; [now apply section_ok|]. split; [now apply section_ok|]. split; [|constructor; [exact O | constructor]].
  cbn [map u_cu u_tree u_pad u]. rewrite <- (app_nil_r (unit_bytes u (hdr_v5 ut))).
  apply us_cons; [reflexivity | | apply us_nil]. unfold unit_bytes. cbn [u_cu u_tree u_pad u]. pose proof (blen_nonneg (tbytes t)).
  apply (ue_unit false (cu_v5 ut t) (tbytes t ++ []) (hdr_v5 ut)).
  - apply uh_full. exact UT.
  - auto.
  - split; [discriminate | reflexivity].
  - rewrite app_nil_r. reflexivity.
  - cbn [cu_length cu_is64 cu_v5]. lia.
  - reflexivity.
  - reflexivity.
Qed.

(** a partial unit (tag 60) with a function at the address of the symbol *)
Definition pu_tbl : list abbrev := [Abbrev 1 60 1 [attr 3 8; no_more]; Abbrev 2 46 0 [attr 3 8; attr 17 1; no_more]].
Definition pu_tree : tree :=
  Tree (Abbrev 1 60 1 [attr 3 8; no_more]) [1] [vstr "main.c"]
    [Tree (Abbrev 2 46 0 [attr 3 8; attr 17 1; no_more]) [2] [vstr "app_main"; vaddr false false 4096] []].
Definition pu_unit : funit := FUnit (cu_v5 3 pu_tree) pu_tbl pu_tree [].
Definition pu_secs : list sec := one_unit pu_tbl (unit_bytes pu_unit (hdr_v5 3)) [].
Lemma pu_image : debug_image (mini pu_secs) (mini_names pu_secs) [pu_unit].
Proof.
  refine (one_unit_image 3 pu_tbl pu_tree [] _ _ _ _ _ _); try (vm_compute; reflexivity); [now right|]. split.
  - right. now right.
  - unfold pu_tree. cbn [u_tree u_cu u_tbl]. set (c := cu_v5 3 pu_tree). node false c; [attr_tac false c|].
    apply Forall_cons; [|apply Forall_nil]. node false c; [attr_tac false c | attr_tac false c | apply Forall_nil].
  - exists (abbrevs_bytes pu_tbl). split; [apply uleb_tbl; reflexivity | apply occursb_ok; reflexivity].
  - apply numbered_ok. reflexivity.
  - apply readable_ok. reflexivity.
Qed.

(** a compile unit with a variable that has an empty location expression: it was optimised away *)
Definition ev_tbl : list abbrev :=
  [Abbrev 1 17 1 [attr 3 8; no_more]; Abbrev 2 46 0 [attr 3 8; attr 17 1; no_more]; Abbrev 3 52 0 [attr 3 8; attr 2 24; no_more]].
Definition ev_tree : tree :=
  Tree (Abbrev 1 17 1 [attr 3 8; no_more]) [1] [vstr "main.c"]
    [Tree (Abbrev 2 46 0 [attr 3 8; attr 17 1; no_more]) [2] [vstr "app_main"; vaddr false false 4096] [];
     Tree (Abbrev 3 52 0 [attr 3 8; attr 2 24; no_more]) [3] [vstr "gone"; (DBytes [], [0])] []].
Definition ev_unit : funit := FUnit (cu_v5 1 ev_tree) ev_tbl ev_tree [].
Definition ev_secs : list sec := one_unit ev_tbl (unit_bytes ev_unit (hdr_v5 1)) [].
Lemma ev_image : debug_image (mini ev_secs) (mini_names ev_secs) [ev_unit].
Proof.
  refine (one_unit_image 1 ev_tbl ev_tree [] _ _ _ _ _ _); try (vm_compute; reflexivity); [now left|]. split.
  - right. now left.
  - unfold ev_tree. cbn [u_tree u_cu u_tbl]. set (c := cu_v5 1 ev_tree). node false c; [attr_tac false c|].
    repeat apply Forall_cons; try apply Forall_nil; (node false c; [attr_tac false c | attr_tac false c | apply Forall_nil]).
  - exists (abbrevs_bytes ev_tbl). split; [apply uleb_tbl; reflexivity | apply occursb_ok; reflexivity].
  - apply numbered_ok. reflexivity.
  - apply readable_ok. reflexivity.
Qed.

(** a name of form strx (26): entry 0 of the table of offsets, which begins after its header *)
Definition sx_secs : list sec :=
  [(".shstrtab"%string, 3, []); (".debug_str"%string, 1, bz "" ++ bz "main.c");
   (".debug_str_offsets"%string, 1, int_enc false 4 8 ++ [5; 0; 0; 0] ++ int_enc false 4 1)].
