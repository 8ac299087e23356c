From Coq Require Import Ascii String List ZArith Lia Bool.
From Verif Require Import Base MemMap SpecTree PyStr SpecMap ProofPyStr Pipeline SpecPipe Table SpecTable ProofTable SpecBytes Chips SpecChips.
Import ListNotations.
Open Scope list_scope.
Open Scope Z_scope.

(** ** tokens *)
Definition plain (c : ascii) : Prop := is_blank c = false /\ is_op c = None.
Definition separated (s : str) : Prop := match s with [] => True | c :: _ => is_blank c = true \/ exists t, is_op c = Some t end.

Lemma tokens_word w : Forall plain w -> forall s acc, tokens (w ++ s) acc = tokens s (rev w ++ acc).
Proof.
  induction 1 as [|c w [B O] F IH]; intros s acc; [reflexivity|]. cbn [app tokens rev]. rewrite B, O, IH, <- app_assoc. reflexivity.
Qed.

Lemma tokens_end s w l : separated s -> tokens s [] = Ok l -> tokens s w = end_word w l.
Proof.
  destruct s as [|c s]; cbn [tokens separated].
  - intros _ [= <-]. reflexivity.
  - intros [B|(t & O)] E.
    + rewrite B in *. destruct (tokens s []) as [l'|]; cbn [bind] in *; [|discriminate E]. cbn [end_word] in E. injection E as <-. reflexivity.
    + assert (B : is_blank c = false).
      { unfold is_blank, is_op in *. destruct (keqP c "+"%char) as [->|]; [reflexivity|]. destruct (keqP c "-"%char) as [->|]; [reflexivity|].
        destruct (keqP c "*"%char) as [->|]; [reflexivity|]. discriminate O. }
      rewrite B, O in *. destruct (tokens s []) as [l'|]; cbn [bind] in *; [|discriminate E]. cbn [end_word] in E. injection E as <-. reflexivity.
Qed.

Lemma blanks_skip a : blanks a -> forall s, tokens (a ++ s) [] = tokens s [].
Proof.
  induction 1 as [|c a H F IH]; intros s; [reflexivity|]. cbn [app tokens].
  assert (B : is_blank c = true) by (destruct H as [->| ->]; reflexivity). rewrite B, IH. cbn [end_word].
  destruct (tokens s []); reflexivity.
Qed.

Lemma op_skip c t : is_op c = Some t -> forall s, tokens (c :: s) [] = (do l <- tokens s []; Ok (t :: l)).
Proof.
  intros O s. cbn [tokens].
  assert (B : is_blank c = false).
  { unfold is_blank, is_op in *. destruct (keqP c "+"%char) as [->|]; [reflexivity|]. destruct (keqP c "-"%char) as [->|]; [reflexivity|].
    destruct (keqP c "*"%char) as [->|]; [reflexivity|]. discriminate O. }
  rewrite B, O. reflexivity.
Qed.

Lemma separated_op a c t s : blanks a -> is_op c = Some t -> separated (a ++ c :: s).
Proof. intros B O. destruct B as [|d a H F]; cbn; [right; eauto|]. left. destruct H as [->| ->]; reflexivity. Qed.

Definition op_free (c : ascii) : bool := negb (is_blank c) && match is_op c with None => true | Some _ => false end.
Lemma op_free_plain c : op_free c = true -> plain c.
Proof. unfold op_free, plain. destruct (is_blank c), (is_op c); cbn; intros H; try discriminate H; auto. Qed.

Lemma hex_digit_plain c d : SpecMap.hex_digit c d -> plain c.
Proof.
  intros [H0 H]. apply op_free_plain.
  assert (L : (Z.to_nat d < 16)%nat) by (apply (proj1 (nth_error_Some (list_ascii_of_string "0123456789abcdef") _)); rewrite H; discriminate).
  set (n := Z.to_nat d) in *. clearbody n. clear d H0. revert H.
  do 16 (destruct n; [cbn; intro H; injection H as <-; reflexivity|]). lia.
Qed.

Lemma digit_plain c d : digit_is c d -> plain c.
Proof.
  intros [B E]. apply op_free_plain. assert (X : (48 <= nat_of_ascii c <= 57)%nat) by lia. clear -X.
  destruct c as [[|] [|] [|] [|] [|] [|] [|] [|]]; cbn in X; try reflexivity; lia.
Qed.

Lemma decimal_plain s n : decimal s n -> Forall plain s.
Proof.
  induction 1 as [c d H|s n c d D IH H]; [constructor; [eapply digit_plain; exact H|constructor]|].
  apply Forall_app. split; [exact IH|]. constructor; [eapply digit_plain; exact H|constructor].
Qed.

Lemma decimal_unsigned s n : decimal s n -> (forall r, s = "0"%char :: r -> r = []) -> int_unsigned s = Some n.
Proof.
  intros D Z0. pose proof (int_digits_decimal s n D [] 0 true) as X. rewrite app_nil_r in X.
  assert (I : int_digits 10 s 0 true = Some n) by (rewrite X; cbn; f_equal; lia).
  destruct (decimal_head s n D) as (c & d & r & -> & H).
  destruct (keqP c "0"%char) as [->|Ne].
  - rewrite (Z0 r eq_refl) in *. cbn in I. injection I as <-. reflexivity.
  - assert (Y : (48 <= nat_of_ascii c <= 57)%nat) by (destruct H; lia).
    destruct c as [[|] [|] [|] [|] [|] [|] [|] [|]]; try exact I; exfalso; apply Ne; reflexivity.
Qed.

Lemma literal_ok s z : literal s z -> Forall plain s /\ s <> [] /\ int_unsigned s = Some z.
Proof.
  intros [N|[P [(_ & D & Z0)|(Ng & _)]]]; [| |lia].
  - pose proof N as (r & H & ->). assert (F : Forall plain r).
    { induction H as [c d H|r' n c d H' IH H]; [constructor; [eapply hex_digit_plain; exact H|constructor]|].
      apply Forall_app. split; [apply IH; eexists; split; [exact H'|reflexivity]|]. constructor; [eapply hex_digit_plain; exact H|constructor]. }
    split; [repeat (constructor; [split; reflexivity|]); exact F|]. split; [discriminate|].
    apply number_int in N. cbn [list_ascii_of_string app] in *. unfold py_int in N.
    destruct (int_unsigned _); [congruence|discriminate N].
  - split; [eapply decimal_plain; exact D|]. split; [eapply decimal_nonempty; exact D|]. apply decimal_unsigned; assumption.
Qed.

Lemma literal_tokens s z : literal s z -> forall s' l', separated s' -> tokens s' [] = Ok l' -> tokens (s ++ s') [] = Ok (TNum z :: l').
Proof.
  intros L s' l' S E. destruct (literal_ok s z L) as (F & N & I). rewrite (tokens_word s F), (tokens_end _ _ _ S E), app_nil_r.
  unfold end_word. rewrite rev_involutive, I. destruct (rev s) eqn:R; [|reflexivity]. exfalso. apply N.
  rewrite <- (rev_involutive s), R. reflexivity.
Qed.

Lemma product_tokens s z : product s z -> exists l, (forall s' l', separated s' -> tokens s' [] = Ok l' -> tokens (s ++ s') [] = Ok (l ++ l')) /\
  forall l' sum, eval_tokens (l ++ l') true sum 1 1 = eval_tokens l' false sum z 1.
Proof.
  induction 1 as [s z L|s x a b t y P IH Ba Bb L].
  - exists [TNum z]. split; [intros; apply literal_tokens; assumption|]. intros. cbn [app eval_tokens]. f_equal. lia.
  - destruct IH as (l & T & E). exists (l ++ [TStar; TNum y]). split.
    + intros s' l' Sp E'. rewrite <- !app_assoc. cbn [app].
      pose proof (literal_tokens t y L s' l' Sp E') as E2.
      apply T; [apply (separated_op a "*"%char TStar); [exact Ba|reflexivity]|].
      rewrite (blanks_skip a Ba), (op_skip "*"%char TStar eq_refl), <- app_assoc, (blanks_skip b Bb), E2. reflexivity.
    + intros l' sm. rewrite <- app_assoc, E. cbn [app eval_tokens]. f_equal. lia.
Qed.

Lemma sum_tokens s z : sum s z -> exists l, (forall s' l', separated s' -> tokens s' [] = Ok l' -> tokens (s ++ s') [] = Ok (l ++ l')) /\
  exists sm pr, sm + pr = z /\ forall l', eval_tokens (l ++ l') true 0 1 1 = eval_tokens l' false sm pr 1.
Proof.
  induction 1 as [s z P|s x a b t y P IH Ba Bb Q].
  - destruct (product_tokens s z P) as (l & T & E). exists l. split; [exact T|]. exists 0, z. split; [lia|]. intros; apply E.
  - destruct IH as (l & T & sm & pr & X & E). destruct (product_tokens t y Q) as (l2 & T2 & E2). exists (l ++ TPlus :: l2). split.
    + intros s' l' Sp E'. rewrite <- !app_assoc. cbn [app].
      pose proof (T2 s' l' Sp E') as E3.
      apply T; [apply (separated_op a "+"%char TPlus); [exact Ba|reflexivity]|].
      rewrite (blanks_skip a Ba), (op_skip "+"%char TPlus eq_refl), <- app_assoc, (blanks_skip b Bb), E3. reflexivity.
    + exists (sm + pr), y. split; [lia|]. intros l'. rewrite <- app_assoc, E. cbn [app eval_tokens]. apply E2.
Qed.

Lemma denotes_eval x z : denotes x z -> eval_scalar x = Ok z.
Proof.
  intros [n|s z' Sm]; unfold eval_scalar, py_eval.
  - destruct (Z.lt_ge_cases n 0) as [N|N].
    + destruct (show_Z_written n) as [(P & _)|(_ & r & E & D & Z0)]; [lia|]. rewrite E, (op_skip "-"%char TMinus eq_refl).
      assert (L : literal r (- n)) by (right; split; [lia|left; split; [lia|split; [exact D|intros q Q; exfalso; exact (Z0 q Q)]]]).
      pose proof (literal_tokens r (- n) L) as T.
      specialize (T [] [] I eq_refl). rewrite app_nil_r in T. rewrite T. cbn [bind eval_tokens]. f_equal. lia.
    + pose proof (literal_tokens (show_Z n) n (or_intror (conj N (show_Z_written n))) [] [] I eq_refl) as T. rewrite app_nil_r in T. rewrite T.
      cbn [bind eval_tokens]. f_equal. lia.
  - destruct (sum_tokens s z' Sm) as (l & T & sm & pr & X & E). specialize (T [] [] I eq_refl). rewrite !app_nil_r in T. rewrite T. cbn [bind].
    specialize (E []). rewrite app_nil_r in E. rewrite E. cbn [eval_tokens]. f_equal. exact X.
Qed.

Lemma load_types l types : Forall2 describes l types -> mapM load_type l = Ok types.
Proof.
  induction 1 as [|e t l types (H1 & H2 & H3 & H4) F IH]; [reflexivity|]. cbn [mapM]. unfold load_type at 1.
  rewrite (denotes_eval _ _ H1), (denotes_eval _ _ H2). cbn [bind].
  assert (E : match y_secondary e with Some x => eval_scalar x | None => Ok 0 end = Ok (ct_secondary t)).
  { destruct (y_secondary e); [apply denotes_eval, H3|congruence]. }
  rewrite E. cbn [bind]. rewrite IH. cbn [bind]. f_equal. f_equal. destruct t as [n p s le]. cbn [ct_name ct_primary ct_secondary ct_length] in *.
  destruct (y_name e); congruence.
Qed.

Lemma memory_types_ok files target l types : files (target ++ list_ascii_of_string ".yaml") = Some l -> Forall2 describes l types ->
  get_memory_types files target = Ok types.
Proof. intros E F. unfold get_memory_types. rewrite E. apply load_types, F. Qed.

(** ** windows *)
Definition windows_of (t : chip_type) : list (Z * Z) :=
  (ct_primary t, ct_primary t + ct_length t) ::
  (if ct_secondary t =? 0 then [] else [(ct_secondary t, ct_secondary t + ct_length t)]).
Lemma windows_of_ok t lo hi : window t lo hi <-> In (lo, hi) (windows_of t).
Proof.
  unfold window, windows_of. destruct (Z.eqb_spec (ct_secondary t) 0) as [E|E]; cbn [In]; split.
  - intros [[-> ->]|[N _]]; [auto|contradiction].
  - intros [H|[]]. injection H as <- <-. auto.
  - intros [[-> ->]|(N & -> & ->)]; auto.
  - intros [H|[H|[]]]; injection H as <- <-; auto.
Qed.
Definition apart (u v : Z * Z) : bool :=
  ((fst u =? fst v) && (snd u =? snd v)) || (snd u <=? fst v) || (snd v <=? fst u).
Definition separate_b (types : list chip_type) : bool :=
  let ws := flat_map windows_of types in forallb (fun u => forallb (apart u) ws) ws.
Lemma separate_ok types : separate_b types = true -> windows_separate types.
Proof.
  unfold separate_b. cbv zeta. rewrite forallb_forall. intros H t u lo hi lo' hi' It Iu W W'. apply windows_of_ok in W, W'.
  assert (I : In (lo, hi) (flat_map windows_of types)) by (apply in_flat_map; eauto).
  assert (I' : In (lo', hi') (flat_map windows_of types)) by (apply in_flat_map; eauto).
  specialize (H _ I). rewrite forallb_forall in H. specialize (H _ I'). unfold apart in H. cbn [fst snd] in H.
  apply orb_true_iff in H. rewrite orb_true_iff, andb_true_iff, !Z.eqb_eq, !Z.leb_le in H. lia.
Qed.
Definition lengths_b (types : list chip_type) : bool := forallb (fun t => 0 <? ct_length t) types.
Fixpoint nodup_b (l : list str) : bool := match l with [] => true | x :: l' => negb (existsb (fun y => x =?= y) l') && nodup_b l' end.
Lemma nodup_ok l : nodup_b l = true -> NoDup l.
Proof.
  induction l as [|x l IH]; intros H; [constructor|]. cbn [nodup_b] in H. apply andb_true_iff in H. destruct H as [H1 H2]. constructor; [|apply IH, H2].
  intros I. apply negb_true_iff in H1. assert (X : existsb (fun y => x =?= y) l = true) by (apply existsb_exists; exists x; split; [exact I|apply keq_refl]). congruence.
Qed.

Lemma chips_checked : forallb (fun c => match get_memory_types chip_info (fst c) with
  | Ok types => separate_b types && lengths_b types && nodup_b (map ct_name types) && negb (match types with [] => true | _ => false end)
  | Err _ => false end) chip_files = true.
Proof. vm_compute. reflexivity. Qed.

Lemma chip_names c types : get_memory_types chip_info c = Ok types -> In c (map fst chip_files).
Proof.
  unfold get_memory_types. destruct (chip_info _) as [l|] eqn:E; [|discriminate]. intros _. unfold chip_info in E. apply dget_In in E.
  apply List.in_map_iff in E. destruct E as ((k & v) & E & I). cbn [fst snd] in E. injection E as E _. apply app_inv_tail in E. subst k.
  apply List.in_map_iff. exists (c, v). auto.
Qed.

Lemma chips_ok c types : get_memory_types chip_info c = Ok types ->
  windows_separate types /\ Forall (fun t => 0 < ct_length t) types /\ NoDup (map ct_name types) /\ types <> [].
Proof.
  intros E. pose proof (chip_names c types E) as I. pose proof chips_checked as H. rewrite forallb_forall in H.
  apply List.in_map_iff in I. destruct I as ((k & v) & Ek & I). cbn [fst] in Ek. subst k. specialize (H _ I). cbn [fst] in H. rewrite E in H.
  rewrite !andb_true_iff in H. destruct H as (((H1 & H2) & H3) & H4). split; [apply separate_ok, H1|].
  split; [apply Forall_forall; unfold lengths_b in H2; rewrite forallb_forall in H2; intros t It; apply Z.ltb_lt, H2, It|].
  split; [apply nodup_ok, H3|]. intros ->. discriminate H4.
Qed.

Lemma chips_load c : In c (map fst chip_files) -> exists types, get_memory_types chip_info c = Ok types.
Proof.
  intros I. apply List.in_map_iff in I. destruct I as ((k & v) & <- & I). pose proof chips_checked as H. rewrite forallb_forall in H.
  specialize (H _ I). cbn [fst] in *. destruct (get_memory_types chip_info k) as [types|]; [eauto|discriminate H].
Qed.

Lemma chip_unknown c : ~ In c (map fst chip_files) -> get_memory_types chip_info c = Err MemMapException.
Proof.
  intros N. unfold get_memory_types. destruct (chip_info _) as [l|] eqn:E; [|reflexivity]. exfalso. apply N. unfold chip_info in E. apply dget_In in E.
  apply List.in_map_iff in E. destruct E as ((k & v) & E & I). cbn [fst snd] in E. injection E as E _. apply app_inv_tail in E. subst k.
  apply List.in_map_iff. exists (c, v). auto.
Qed.

(** a type whose window no earlier type has is found by address, and the other way round *)
Lemma own_window_reachable types t : windows_separate types -> Forall (fun t => 0 < ct_length t) types ->
  In t types -> reachable types t <-> own_window types t.
Proof.
  intros Sep L It. rewrite Forall_forall in L. split.
  - intros (a & l1 & l2 & E & (lo & hi & W & B) & N). exists l1, l2, lo, hi. split; [exact E|]. split; [exact W|].
    intros u Iu Wu. apply (N u Iu). exists lo, hi. auto.
  - intros (l1 & l2 & lo & hi & E & W & N). exists lo, l1, l2. split; [exact E|].
    assert (Lh : hi = lo + ct_length t) by (destruct W as [[-> ->]|(_ & -> & ->)]; reflexivity). pose proof (L t It).
    split; [exists lo, hi; split; [exact W|lia]|]. intros u Iu (lo' & hi' & W' & B').
    assert (Iu' : In u types) by (rewrite E; apply in_or_app; auto).
    destruct (Sep t u lo hi lo' hi' It Iu' W W') as [[<- <-]|[H1|H1]]; [apply (N u Iu W')| |]; lia.
Qed.
