(** * Proofs about the map file parser: printed sections *)
From Coq Require Import Ascii String List ZArith Bool Lia.
From Verif Require Import Base MemMap Pipeline PyStr MapFile SpecMap ProofPyStr ProofMap1 ProofMap2 ProofMap3.
Import ListNotations.
Open Scope list_scope.
Open Scope Z_scope.

Lemma foldM_app {A St} (f : St -> A -> res St) l1 l2 s : foldM f s (l1 ++ l2) = do s1 <- foldM f s l1; foldM f s1 l2.
Proof. revert s. induction l1 as [|a l1 IH]; intro s; cbn [app foldM bind]; auto. destruct (f s a); cbn [bind]; auto. Qed.

Lemma bind_ok {A B} (m : res A) (f : A -> res B) b : bind m f = Ok b -> exists a, m = Ok a /\ f a = Ok b.
Proof. destruct m; cbn [bind]; [eauto|discriminate]. Qed.

(** ** lines that are not the heading of the cross reference table *)

Lemma not_crt_line t s : line_of t s -> (exists c r, t = c :: r /\ c <> "C"%char) \/ prefix "COMMON" t -> not_crt s.
Proof.
  intros (p & q & P & _ & ->) H (r & E). destruct P as [|c p C P].
  - destruct H as [(c & r' & -> & N)|(r' & ->)]; cbn in E; congruence.
  - injection E as -> _. revert C. unfold ws. cbn. intuition discriminate.
Qed.

Lemma dot_cons s : prefix "." s -> exists r, s = "."%char :: r.
Proof. intros (r & ->). exists r. reflexivity. Qed.

Lemma isec_name_not_crt n r s : isec_name n -> line_of (n ++ r) s -> not_crt s.
Proof.
  intros [_ H] L. apply (not_crt_line _ _ L). destruct H as [H|(x & ->)].
  - apply dot_cons in H as (x & ->). left. exists "."%char, (x ++ r). split; [reflexivity|discriminate].
  - right. exists (x ++ r). reflexivity.
Qed.

Lemma rest_text_zero i t : rest_text i t -> exists r, t = "0"%char :: r.
Proof. intros (sa & g1 & ss & g2 & lo & A & _ & _ & _ & _ & _ & ->). destruct (number_head _ _ A) as (r & ->). cbn. eauto. Qed.

Lemma item_head_not_crt i h : item_head i h -> Forall not_crt h.
Proof.
  intros [g r s N G R L|r s1 s2 N L1 R L2].
  - constructor; [|constructor]. eapply isec_name_not_crt; eauto.
  - constructor; [|constructor; [|constructor]].
    + eapply (isec_name_not_crt _ []); eauto. now rewrite app_nil_r.
    + apply (not_crt_line _ _ L2). left. destruct (rest_text_zero _ _ R) as (x & ->). exists "0"%char, x. split; [reflexivity|discriminate].
Qed.

Lemma pad_line_not_crt p s : pad_line p s -> not_crt s.
Proof.
  intros [a n sa g1 sn g2 s' A N G1 G2 L|n a k v g1 g2 g3 sa sn s' A N K V G1 G2 G3 L|s' I].
  - apply (not_crt_line _ _ L). left. eexists _, _. split; [reflexivity|discriminate].
  - apply (not_crt_line _ _ L). left. destruct (number_head _ _ A) as (x & ->). eexists _, _. split; [reflexivity|discriminate].
  - apply I.
Qed.

Lemma Forall2_Forall_r {A B} (R : A -> B -> Prop) (P : B -> Prop) l l' : (forall x y, R x y -> P y) -> Forall2 R l l' -> Forall P l'.
Proof. intros H F. induction F; constructor; eauto. Qed.

Lemma item_lines_not_crt i ls : item_lines i ls -> Forall not_crt ls.
Proof.
  intros [h pads ls' H _ F]. apply Forall_app. split; [eapply item_head_not_crt; eauto|].
  eapply Forall2_Forall_r; [|exact F]. apply pad_line_not_crt.
Qed.

Lemma section_head_not_crt o h : section_head o h -> Forall not_crt h.
Proof.
  assert (X : forall r, osec_name (pr_name o) -> not_crt (pr_name o ++ r)).
  { intros r [_ D] (x & E). apply dot_cons in D as (y & Y). rewrite Y in E. discriminate. }
  intros []; repeat constructor; auto.
  apply (not_crt_line _ _ H4). left. destruct (number_head _ _ H0) as (x & ->). eexists _, _. split; [reflexivity|discriminate].
Qed.

Lemma section_lines_not_crt o ls : section_lines o ls -> Forall not_crt ls.
Proof.
  intros [h ig body z H I B Z]. repeat (apply Forall_app; split).
  - eapply section_head_not_crt; eauto.
  - eapply Forall_impl; [|exact I]. intros s [N _]. exact N.
  - induction B; cbn [List.concat]; [constructor|]. apply Forall_app. split; auto. eapply item_lines_not_crt; eauto.
  - constructor; [|constructor]. intros (r & ->). inversion Z; subst. revert H2. unfold ws. cbn. intuition discriminate.
Qed.

Lemma script_lines_not_crt l ls : script_lines l ls -> Forall not_crt ls.
Proof.
  induction 1 as [ls F|ls o so l sl F S _ IH].
  - eapply Forall_impl; [|exact F]. intros s [N _]. exact N.
  - repeat (apply Forall_app; split); auto.
    + eapply Forall_impl; [|exact F]. intros s [N _]. exact N.
    + eapply section_lines_not_crt; eauto.
Qed.

Lemma sections_loop_run ls rest : Forall not_crt ls -> forall prev st, exists prev',
  sections_loop (ls ++ rest) prev st = (do st1 <- foldM sections_line st ls; sections_loop rest prev' st1) /\
  (prev' = prev \/ exists l, In l ls /\ prev' = [l]).
Proof.
  induction 1 as [|l ls N _ IH]; intros prev st; cbn [app sections_loop foldM].
  - exists prev. auto.
  - rewrite (sw_false _ _ N). destruct (sections_line st l) as [st1|] eqn:E; cbn [bind].
    + destruct (IH [l] st1) as (p & -> & Q). exists p. split; auto. right.
      destruct Q as [->|(x & I & ->)]; [exists l; split; [now left|reflexivity]|]. exists x. split; [now right|reflexivity].
    + exists prev. auto.
Qed.

(** ** padding lines *)

Definition pad_apply (i : pisec) (p : pad) : pisec :=
  match p with
  | Fill a n =>
    let i1 := if (match pi_addr i with Some ia => ia =? a | None => false end) then set_isize 0 i else i in
    set_ifill (pi_fill i1 + n) i1
  | Data n => set_ifill (pi_fill i + n) i
  end.
Definition last_fill (z : option Z) (l : list pad) : option Z :=
  fold_left (fun z p => match p with Fill _ n => Some n | Data _ => z end) l z.

Lemma kind_word k : data_kind k -> word k.
Proof.
  unfold data_kind. cbn. intro H.
  repeat destruct H as [<-|H]; try contradiction; (split; [discriminate|]; repeat constructor; unfold ws; cbn; intuition discriminate).
Qed.
Lemma kind_existsb k : data_kind k -> existsb (fun b => k =?= list_ascii_of_string b) EXPLICIT_BYTES = true.
Proof. unfold data_kind. cbn [map In]. intro H. repeat destruct H as [<-|H]; try contradiction; reflexivity. Qed.

Lemma substring_app_l a x y : substring a x -> substring a (y ++ x).
Proof. intros (u & v & ->). exists (y ++ u), v. now rewrite !app_assoc. Qed.
Lemma substring_app_r a x y : substring a x -> substring a (x ++ y).
Proof. intros (u & v & ->). exists u, (v ++ y). now rewrite <- !app_assoc. Qed.

Lemma kind_contains k t : data_kind k -> substring k t -> existsb (fun b => contains (list_ascii_of_string b) t) EXPLICIT_BYTES = true.
Proof.
  intros K H. apply existsb_exists. unfold data_kind in K. apply in_map_iff in K as (b & <- & I). exists b. split; auto.
  now apply contains_substring.
Qed.
Lemma kind_not_contains t : (forall k, data_kind k -> ~ substring k t) -> existsb (fun b => contains (list_ascii_of_string b) t) EXPLICIT_BYTES = false.
Proof.
  intro H. destruct (existsb _ _) eqn:E; auto. apply existsb_exists in E as (b & I & C). exfalso.
  apply contains_substring in C. apply (H (list_ascii_of_string b)); auto. unfold data_kind. apply in_map. exact I.
Qed.

Lemma no_prefix_first (p : string) c d r : match list_ascii_of_string p with x :: _ => x = c | [] => False end -> c <> d -> sw p (d :: r) = false.
Proof.
  intros H N. apply sw_false. intros (x & E). destruct (list_ascii_of_string p); [contradiction|]. cbn in E. congruence.
Qed.

Lemma sections_line_in o ip z d s t : strip s = t ->
  sections_line (PState true (Some o) ip z d) s = section_line (PState true (Some o) ip z d) o t.
Proof. intros <-. reflexivity. Qed.

Lemma pad_line_run p s o oa i ia z d : pad_line p s -> po_addr o = Some oa -> pi_addr i = Some ia ->
  sections_line (PState true (Some o) (Some i) z d) s =
  Ok (PState true (Some o) (Some (fold_left pad_apply p i)) (last_fill z p) d).
Proof.
  intros P OA IA. destruct P as [a n sa g1 sn g2 s A N G1 G2 L|n a k v g1 g2 g3 sa sn s A N K V G1 G2 G3 L|s I].
  - set (t := list_ascii_of_string "*fill*" ++ g1 ++ sa ++ g2 ++ sn) in *.
    assert (T : trimmed t).
    { split; [exists "*"%char, (list_ascii_of_string "fill*" ++ g1 ++ sa ++ g2 ++ sn); split; [reflexivity|unfold ws; cbn; intuition discriminate]|].
      unfold t. repeat apply ends_app. apply word_ends. eapply number_word; eauto. }
    rewrite (sections_line_in o _ _ _ s t (strip_line_of _ _ T L)).
    unfold section_line. rewrite OA. cbn [ps_in]. rewrite IA.
    assert (W : words [list_ascii_of_string "*fill*"; sa; sn] t).
    { unfold t. apply (words_cons [] _ g1 [sa; sn]); [constructor| |exact G1|].
      - split; [discriminate|]. repeat constructor; unfold ws; cbn; intuition discriminate.
      - apply (words_cons [] _ g2 [sn]); [constructor|eapply number_word; eauto|exact G2|].
        rewrite <- (app_nil_r sn) at 2. apply (words_last [] sn []); [constructor|eapply number_word; eauto|constructor]. }
    change t with ("*"%char :: (list_ascii_of_string "fill*" ++ g1 ++ sa ++ g2 ++ sn)) at 1.
    cbv beta iota.
    assert (E1 : sw "." t = false) by (apply (no_prefix_first "." "."%char); [reflexivity|discriminate]).
    assert (E2 : sw "COMMON" t = false) by (apply (no_prefix_first "COMMON" "C"%char); [reflexivity|discriminate]).
    assert (E3 : sw "*fill*" t = true) by (apply sw_true; eexists; reflexivity).
    rewrite E1, E2, E3. cbn [orb]. unfold fill_line. rewrite (split_words _ _ W). cbv beta iota.
    rewrite (number_int _ _ A), (number_int _ _ N). cbn [bind fold_left pad_apply last_fill]. rewrite IA. reflexivity.
  - set (t := sa ++ g1 ++ sn ++ g2 ++ k ++ g3 ++ v) in *.
    assert (T : trimmed t).
    { split; [apply begins_app, word_begins; eapply number_word; eauto|].
      unfold t. repeat apply ends_app. now apply word_ends. }
    rewrite (sections_line_in o _ _ _ s t (strip_line_of _ _ T L)).
    unfold section_line. rewrite OA. cbn [ps_in]. rewrite IA.
    assert (W : words [sa; sn; k; v] t).
    { unfold t. apply (words_cons [] _ g1); [constructor|eapply number_word; eauto|exact G1|].
      apply (words_cons [] _ g2); [constructor|eapply number_word; eauto|exact G2|].
      apply (words_cons [] _ g3); [constructor|now apply kind_word|exact G3|].
      rewrite <- (app_nil_r v) at 2. apply (words_last [] v []); [constructor|auto|constructor]. }
    destruct (number_head _ _ A) as (x & X).
    assert (TC : exists y, t = "0"%char :: y) by (unfold t; rewrite X; cbn; eauto). destruct TC as (y & Y).
    assert (E1 : sw "." t = false) by (rewrite Y; apply (no_prefix_first "." "."%char); [reflexivity|discriminate]).
    assert (E2 : sw "COMMON" t = false) by (rewrite Y; apply (no_prefix_first "COMMON" "C"%char); [reflexivity|discriminate]).
    assert (E3 : sw "*fill*" t = false) by (rewrite Y; apply (no_prefix_first "*fill*" "*"%char); [reflexivity|discriminate]).
    assert (E4 : existsb (fun b => contains (list_ascii_of_string b) t) EXPLICIT_BYTES = true).
    { apply (kind_contains k); auto. unfold t. do 4 apply substring_app_l. apply substring_app_r. exists [], []. now rewrite app_nil_r. }
    rewrite E1, E2, E3, E4. cbn [orb]. unfold data_line. rewrite (split_words _ _ W).
    rewrite (kind_existsb _ K). rewrite (number_int _ _ N). cbn [bind fold_left pad_apply last_fill]. rewrite Y. reflexivity.
  - destruct I as (_ & t & L & T & D & C & F & K).
    rewrite (sections_line_in o _ _ _ s t (strip_line_of _ _ T L)).
    unfold section_line. rewrite OA. cbn [ps_in]. rewrite IA.
    rewrite (sw_false _ _ D), (sw_false _ _ C), (sw_false _ _ F), (kind_not_contains _ K). cbn [orb fold_left last_fill].
    destruct T as [(c & r & -> & _) _]. reflexivity.
Qed.

Lemma pad_apply_addr i p : pi_addr (pad_apply i p) = pi_addr i.
Proof. destruct p; cbn; auto. destruct (match pi_addr i with Some ia => ia =? a | None => false end); reflexivity. Qed.

Lemma pads_addr l : forall i, pi_addr (fold_left pad_apply l i) = pi_addr i.
Proof. induction l as [|p l IH]; intro i; cbn [fold_left]; auto. now rewrite IH, pad_apply_addr. Qed.

Lemma pads_run pads ls : Forall2 pad_line pads ls -> forall o oa i ia z d, po_addr o = Some oa -> pi_addr i = Some ia ->
  foldM sections_line (PState true (Some o) (Some i) z d) ls =
  Ok (PState true (Some o) (Some (fold_left pad_apply (List.concat pads) i)) (last_fill z (List.concat pads)) d).
Proof.
  induction 1 as [|p s pads ls P _ IH]; intros o oa i ia z d OA IA; cbn [foldM List.concat fold_left].
  - reflexivity.
  - rewrite (pad_line_run _ _ _ _ _ _ _ _ P OA IA). cbn [bind].
    rewrite (IH _ _ _ ia _ _ OA) by (now rewrite pads_addr).
    unfold last_fill. now rewrite !fold_left_app.
Qed.

(** ** input sections *)

Lemma flush_po sz o i o' : flush_input sz o i = Ok o' -> po_name o' = po_name o /\ po_addr o' = po_addr o /\ po_size o' = po_size o.
Proof.
  destruct i as [i|]; cbn [flush_input].
  - intro H. destruct (add_input_shape _ _ _ _ H) as (A & B & C & _). auto.
  - intro H. injection H as <-. auto.
Qed.

Lemma name_trimmed_app n r : isec_name n -> ends r -> trimmed (n ++ r).
Proof. intros [W _] E. split; [apply begins_app, word_begins; auto|now apply ends_app]. Qed.

Lemma rest_text_ends i r : rest_text i r -> ends r.
Proof. intros (sa & g1 & ss & g2 & lo & _ & _ & _ & _ & [_ E] & _ & ->). now repeat apply ends_app. Qed.
Lemma rest_text_begins i r : rest_text i r -> begins r.
Proof. intros (sa & g1 & ss & g2 & lo & A & _ & _ & _ & _ & _ & ->). apply begins_app, word_begins. eapply number_word; eauto. Qed.

Lemma isec_name_sw n r : isec_name n -> sw "." (n ++ r) || sw "COMMON" (n ++ r) = true.
Proof.
  intros [_ [(x & ->)|(x & ->)]]; apply orb_true_iff; [left|right]; apply sw_true; exists (x ++ r); now rewrite app_assoc.
Qed.

Lemma head_run i h o oa ip z d : item_head i h -> po_addr o = Some oa ->
  foldM sections_line (PState true (Some o) ip z d) h =
  do o1 <- flush_input z o ip;
  Ok (PState true (Some o1) (Some (PIsec (it_name i) (Some (it_addr i)) (Some (it_size i)) (it_archive i) (it_object i) 0)) z d).
Proof.
  intros H OA. destruct H as [g r s N G R L|r s1 s2 N L1 R L2].
  - assert (T : trimmed (it_name i ++ g ++ r)) by (apply name_trimmed_app; auto; apply ends_app; eapply rest_text_ends; eauto).
    cbn [foldM]. rewrite (sections_line_in o _ _ _ s _ (strip_line_of _ _ T L)).
    unfold section_line. rewrite OA. cbn [ps_in ps_size ps_done].
    rewrite (isec_name_sw _ _ N).
    assert (NE : exists c y, it_name i ++ g ++ r = c :: y) by (destruct T as [(c & y & E & _) _]; eauto).
    destruct NE as (c & y & E). rewrite E at 1. cbv beta iota. clear c y E.
    destruct (flush_input z o ip) as [o1|]; cbn [bind]; [|reflexivity].
    unfold input_line. destruct R as (sa & g1 & ss & g2 & lo & A & G1 & S & G2 & TL & LO & ->).
    assert (SM : split_max 3 (it_name i ++ g ++ sa ++ g1 ++ ss ++ g2 ++ lo) = [it_name i; sa; ss; lo]).
    { rewrite (split_max_word 2 [] (it_name i) (g ++ sa ++ g1 ++ ss ++ g2 ++ lo) : _ -> _ -> _ -> split_max 3 (it_name i ++ g ++ sa ++ g1 ++ ss ++ g2 ++ lo) = _);
        [|constructor|apply N|now apply sep_gap].
      rewrite split_max_word; [|apply G|eapply number_word; eauto|now apply sep_gap].
      rewrite split_max_word; [|apply G1|eapply number_word; eauto|now apply sep_gap].
      rewrite split_max_rest; [reflexivity|apply G2|apply TL]. }
    rewrite SM. rewrite (number_int _ _ A), (number_int _ _ S). cbn [bind].
    now rewrite (location_parse _ _ _ LO).
  - assert (T1 : trimmed (it_name i)) by (apply word_trimmed, N).
    cbn [foldM]. rewrite (sections_line_in o _ _ _ s1 _ (strip_line_of _ _ T1 L1)).
    unfold section_line at 1. rewrite OA. cbn [ps_in ps_size ps_done].
    pose proof (isec_name_sw _ [] N) as X. rewrite app_nil_r in X. rewrite X.
    assert (NE : exists c y, it_name i = c :: y) by (destruct T1 as [(c & y & E & _) _]; eauto).
    destruct NE as (c & y & E). rewrite E at 1. cbv beta iota. clear c y E.
    destruct (flush_input z o ip) as [o1|] eqn:FL; cbn [bind]; [|reflexivity].
    unfold input_line.
    assert (SM : split_max 3 (it_name i) = [it_name i]).
    { rewrite <- (app_nil_r (it_name i)) at 1.
      rewrite (split_max_word 2 [] (it_name i) [] : _ -> _ -> _ -> split_max 3 (it_name i ++ []) = _); [|constructor|apply N|now left].
      now rewrite split_max_blank by constructor. }
    rewrite SM. cbn [bind foldM].
    assert (T2 : trimmed r) by (split; [eapply rest_text_begins; eauto|eapply rest_text_ends; eauto]).
    rewrite (sections_line_in o1 _ _ _ s2 _ (strip_line_of _ _ T2 L2)).
    unfold section_line. destruct (flush_po _ _ _ _ FL) as (_ & -> & _). rewrite OA. cbn [ps_in pi_addr ps_size ps_done].
    destruct (rest_text_zero _ _ R) as (y & Y).
    assert (E1 : sw "." r = false) by (rewrite Y; apply (no_prefix_first "." "."%char); [reflexivity|discriminate]).
    assert (E2 : sw "COMMON" r = false) by (rewrite Y; apply (no_prefix_first "COMMON" "C"%char); [reflexivity|discriminate]).
    rewrite E1, E2. cbn [orb]. rewrite Y at 1. cbv beta iota. clear Y E1 E2.
    destruct R as (sa & g1 & ss & g2 & lo & A & G1 & S & G2 & TL & LO & ->). unfold cont_line.
    assert (SM2 : split_max 2 (sa ++ g1 ++ ss ++ g2 ++ lo) = [sa; ss; lo]).
    { rewrite (split_max_word 1 [] sa (g1 ++ ss ++ g2 ++ lo) : _ -> _ -> _ -> split_max 2 (sa ++ g1 ++ ss ++ g2 ++ lo) = _);
        [|constructor|eapply number_word; eauto|now apply sep_gap].
      rewrite split_max_word; [|apply G1|eapply number_word; eauto|now apply sep_gap].
      rewrite split_max_rest; [reflexivity|apply G2|apply TL]. }
    rewrite SM2. rewrite (number_int _ _ A), (number_int _ _ S). cbn [bind].
    now rewrite (location_parse _ _ _ LO).
Qed.

(** the input section read from an item *)
Definition item_isec (i : item) : pisec :=
  fold_left pad_apply (it_pads i) (PIsec (it_name i) (Some (it_addr i)) (Some (it_size i)) (it_archive i) (it_object i) 0).

Lemma item_run i ls o oa ip z d : item_lines i ls -> po_addr o = Some oa ->
  foldM sections_line (PState true (Some o) ip z d) ls =
  do o1 <- flush_input z o ip; Ok (PState true (Some o1) (Some (item_isec i)) (last_fill z (it_pads i)) d).
Proof.
  intros [h pads ls' H PE F] OA. rewrite foldM_app, (head_run _ _ _ _ _ _ _ H OA).
  destruct (flush_input z o ip) as [o1|] eqn:FL; cbn [bind]; [|reflexivity].
  destruct (flush_po _ _ _ _ FL) as (_ & A1 & _).
  rewrite (pads_run _ _ F _ oa _ (it_addr i)) by (cbn; congruence). unfold item_isec. now rewrite PE.
Qed.

(** ** output sections *)

Fixpoint run_items (z : option Z) (o : posec) (ip : option pisec) (l : list item) : res (posec * option Z) :=
  match l with
  | [] => do o1 <- flush_input z o ip; Ok (o1, z)
  | i :: l' => do o1 <- flush_input z o ip; run_items (last_fill z (it_pads i)) o1 (Some (item_isec i)) l'
  end.

Lemma items_run items body zl : Forall2 item_lines items body -> blank zl -> forall o oa ip z d, po_addr o = Some oa ->
  foldM sections_line (PState true (Some o) ip z d) (List.concat body ++ [zl]) =
  do (o1, z1) <- run_items z o ip items; Ok (PState true None None z1 (d ++ [o1])).
Proof.
  intros F B. induction F as [|i ls items body I _ IH]; intros o oa ip z d OA; cbn [List.concat app run_items].
  - cbn [foldM]. rewrite (sections_line_in o _ _ _ zl [] (strip_blank _ B)). unfold section_line. cbn [ps_size ps_in ps_done].
    destruct (flush_input z o ip); reflexivity.
  - rewrite <- app_assoc, foldM_app, (item_run _ _ _ _ _ _ _ I OA).
    destruct (flush_input z o ip) as [o1|] eqn:FL; cbn [bind]; [|reflexivity].
    destruct (flush_po _ _ _ _ FL) as (_ & A1 & _). apply (IH o1 oa). congruence.
Qed.

Lemma ignored_run ls o oa z d : Forall ignored_before ls -> po_addr o = Some oa ->
  foldM sections_line (PState true (Some o) None z d) ls = Ok (PState true (Some o) None z d).
Proof.
  intros F OA. induction F as [|s ls (_ & t & L & T & D & C) _ IH]; cbn [foldM]; auto.
  rewrite (sections_line_in o _ _ _ s t (strip_line_of _ _ T L)).
  unfold section_line. rewrite OA. cbn [ps_in].
  rewrite (sw_false _ _ D), (sw_false _ _ C). cbn [orb].
  destruct T as [(c & r & -> & _) _]. exact IH.
Qed.

Lemma osec_name_sw n r : osec_name n -> sw "." (n ++ r) = true.
Proof. intros [_ (x & ->)]. apply sw_true. exists (x ++ r). now rewrite app_assoc. Qed.

Lemma section_head_run o h z d : section_head o h -> exists z0,
  foldM sections_line (PState true None None z d) h =
  Ok (PState true (Some (POsec (pr_name o) (Some (pr_addr o)) (Some (pr_size o)) [])) None z0 d).
Proof.
  assert (ONE : forall q, osec_name (pr_name o) -> blank q -> words [pr_name o] (pr_name o ++ q)).
  { intros q N Q. apply (words_last [] (pr_name o) q); [constructor|apply N|auto]. }
  intros [g1 sa g2 ss q N A S G1 G2 Q|q sa g ss s N A S Q G L|q s t l N Q A0 S0 NC L T W LEN].
  - exists z. cbn [foldM]. unfold sections_line at 1. cbn [negb ps_found ps_out]. rewrite (osec_name_sw _ _ N).
    unfold output_line.
    assert (W : words [pr_name o; sa; ss] (pr_name o ++ g1 ++ sa ++ g2 ++ ss ++ q)).
    { apply (words_cons [] _ g1); [constructor|apply N|exact G1|].
      apply (words_cons [] _ g2); [constructor|eapply number_word; eauto|exact G2|].
      apply (words_last [] ss q); [constructor|eapply number_word; eauto|auto]. }
    rewrite (split_words _ _ W). rewrite (number_int _ _ A), (number_int _ _ S). reflexivity.
  - exists (Some (pr_size o)). cbn [foldM]. unfold sections_line at 1. cbn [negb ps_found ps_out]. rewrite (osec_name_sw _ _ N).
    unfold output_line at 1. rewrite (split_words _ _ (ONE q N Q)). cbn [bind ps_size ps_done].
    assert (T : trimmed (sa ++ g ++ ss)).
    { split; [apply begins_app, word_begins; eapply number_word; eauto|repeat apply ends_app; apply word_ends; eapply number_word; eauto]. }
    rewrite (sections_line_in _ _ _ _ s _ (strip_line_of _ _ T L)).
    unfold section_line. cbn [po_addr].
    assert (W : words [sa; ss] (sa ++ g ++ ss)).
    { apply (words_cons [] _ g); [constructor|eapply number_word; eauto|exact G|].
      rewrite <- (app_nil_r ss) at 2. apply (words_last [] ss []); [constructor|eapply number_word; eauto|constructor]. }
    unfold header_line. rewrite (split_words _ _ W). rewrite (number_int _ _ A), (number_int _ _ S).
    destruct T as [(c & y & -> & _) _]. reflexivity.
  - exists z. cbn [foldM]. unfold sections_line at 1. cbn [negb ps_found ps_out]. rewrite (osec_name_sw _ _ N).
    unfold output_line at 1. rewrite (split_words _ _ (ONE q N Q)). cbn [bind ps_size ps_done].
    rewrite (sections_line_in _ _ _ _ s _ (strip_line_of _ _ T L)).
    unfold section_line. cbn [po_addr]. unfold header_line. rewrite (split_words _ _ W), A0, S0.
    destruct T as [(c & y & -> & _) _]. destruct l as [|x [|y' [|z' l]]]; try reflexivity. exfalso. apply LEN. reflexivity.
Qed.

Lemma section_run o ls z d : section_lines o ls -> exists z0,
  foldM sections_line (PState true None None z d) ls =
  do (o1, z1) <- run_items z0 (POsec (pr_name o) (Some (pr_addr o)) (Some (pr_size o)) []) None (pr_items o);
  Ok (PState true None None z1 (d ++ [o1])).
Proof.
  intros [h ig body zl H I B Z]. destruct (section_head_run o h z d H) as [z0 E]. exists z0.
  rewrite foldM_app, E. cbn [bind]. rewrite foldM_app, (ignored_run _ _ (pr_addr o)) by auto. cbn [bind].
  now rewrite (items_run _ _ _ B Z _ (pr_addr o)).
Qed.

Lemma outside_run ls z d : Forall outside ls -> foldM sections_line (PState true None None z d) ls = Ok (PState true None None z d).
Proof.
  induction 1 as [|s ls [_ N] _ IH]; cbn [foldM]; auto. unfold sections_line at 1. cbn [negb ps_found ps_out].
  now rewrite (sw_false _ _ N).
Qed.

(** the sections read from a printed script: each is read by [run_items] *)
Definition reads (o : printed) (r : posec) : Prop :=
  exists z0 z1, run_items z0 (POsec (pr_name o) (Some (pr_addr o)) (Some (pr_size o)) []) None (pr_items o) = Ok (r, z1).

Lemma script_run l ls : script_lines l ls -> forall z d st, foldM sections_line (PState true None None z d) ls = Ok st ->
  exists rs z1, st = PState true None None z1 (d ++ rs) /\ Forall2 reads l rs.
Proof.
  induction 1 as [ls F|ls o so l sl F SL _ IH]; intros z d st.
  - rewrite (outside_run _ _ _ F). intro H. injection H as <-. exists [], z. rewrite app_nil_r. auto.
  - rewrite foldM_app, (outside_run _ _ _ F). cbn [bind]. destruct (section_run o so z d SL) as [z0 E].
    rewrite foldM_app, E. destruct (run_items z0 _ None (pr_items o)) as [[o1 z1]|] eqn:R; cbn [bind]; [|discriminate].
    intro H. destruct (IH _ _ _ H) as (rs & z2 & -> & RS). exists (o1 :: rs), z2. rewrite <- app_assoc. split; [reflexivity|].
    constructor; auto. exists z0, z1. exact R.
Qed.

Lemma script_total l ls : script_lines l ls ->
  (forall o, In o l -> forall z0, exists r, run_items z0 (POsec (pr_name o) (Some (pr_addr o)) (Some (pr_size o)) []) None (pr_items o) = Ok r) ->
  forall z d, exists st, foldM sections_line (PState true None None z d) ls = Ok st.
Proof.
  induction 1 as [ls F|ls o so l sl F SL _ IH]; intros T z d.
  - rewrite (outside_run _ _ _ F). eauto.
  - rewrite foldM_app, (outside_run _ _ _ F). cbn [bind]. destruct (section_run o so z d SL) as [z0 E].
    rewrite foldM_app, E. destruct (T o (or_introl eq_refl) z0) as [[r z1] ->]. cbn [bind].
    apply IH. intros o' I. apply T. now right.
Qed.

(** ** the whole file *)

Lemma script_not_crt ls : prefix "Linker script and memory map" ls -> not_crt ls.
Proof. intros P Q. exact (prefix_excl "Linker script and memory map" "Cross Reference Table" ls eq_refl eq_refl P Q). Qed.

Lemma crt_absent_ok l : not_crt l -> get_cross_reference_table [l] = Ok None.
Proof. intro N. unfold get_cross_reference_table. cbn [crt_loop]. rewrite (sw_false _ _ N). cbn [negb andb]. now destruct (sw "Symbol" l). Qed.

(** what the parser does with a printed map *)
Lemma printed_map_run rs l crt lines : printed_map rs l crt lines ->
  exists ls script r, script_lines l script /\
    map_file lines =
    (do st <- foldM sections_line (PState true None None None []) script;
     if negb (ps_found st) then Err MapFileException else
     Ok (PMap rs (get_target (ls :: r)) (ps_done st)
       (match crt with None => None | Some es => match fold_left put_entry es [] with [] => None | t => Some t end end))).
Proof.
  assert (FIRST : forall ls, prefix "Linker script and memory map" ls -> sections_line ps_init ls = Ok (PState true None None None [])).
  { intros ls P. unfold sections_line. cbn [negb ps_found ps_init]. now rewrite (sw_true _ _ P). }
  intros [rs' l' tbl ls script R P S|rs' l' tbl ls script es tail R P S C].
  - exists ls, script, script. split; auto. unfold map_file.
    rewrite (regions_ok _ _ _ _ R P). cbn [bind]. unfold get_sections.
    assert (NC : Forall not_crt (ls :: script)) by (constructor; [now apply script_not_crt|eapply script_lines_not_crt; eauto]).
    destruct (sections_loop_run (ls :: script) [] NC [] ps_init) as (p & E & PR). rewrite app_nil_r in E. rewrite E.
    cbn [foldM]. rewrite (FIRST _ P). cbn [bind].
    destruct (foldM sections_line (PState true None None None []) script) as [st|]; cbn [bind]; [|reflexivity].
    cbn [sections_loop bind]. destruct (negb (ps_found st)); cbn [bind]; [reflexivity|].
    assert (X : get_cross_reference_table p = Ok None).
    { destruct PR as [->|(x & I & ->)]; [reflexivity|]. apply crt_absent_ok. rewrite Forall_forall in NC. auto. }
    rewrite X. reflexivity.
  - exists ls, script, (script ++ tail). split; auto. unfold map_file.
    rewrite (regions_ok _ _ _ _ R P). cbn [bind]. unfold get_sections.
    assert (NC : Forall not_crt (ls :: script)) by (constructor; [now apply script_not_crt|eapply script_lines_not_crt; eauto]).
    destruct (sections_loop_run (ls :: script) tail NC [] ps_init) as (p & E & PR). cbn [app] in E. rewrite E.
    cbn [foldM]. rewrite (FIRST _ P). cbn [bind].
    destruct (foldM sections_line (PState true None None None []) script) as [st|]; cbn [bind]; [|reflexivity].
    assert (L : sections_loop tail p st = Ok (st, tail)).
    { destruct C as [h mid sy stray es' body post H _ _ _ _ _]. cbn [sections_loop]. now rewrite (sw_true _ _ H). }
    rewrite L. cbn [bind]. destruct (negb (ps_found st)); cbn [bind]; [reflexivity|].
    rewrite (crt_ok _ _ C). reflexivity.
Qed.

Lemma printed_map_reads rs l crt lines m : printed_map rs l crt lines -> map_file lines = Ok m ->
  pm_regions m = rs /\ Forall2 reads l (pm_sections m) /\
  pm_crt m = match crt with None => None | Some es => match fold_left put_entry es [] with [] => None | t => Some t end end.
Proof.
  intros P. destruct (printed_map_run _ _ _ _ P) as (ls & script & r & S & ->). intro H.
  apply bind_ok in H as (st & E & H). destruct (negb (ps_found st)); [discriminate|]. injection H as <-. cbn [pm_regions pm_sections pm_crt].
  destruct (script_run _ _ S _ _ _ E) as (q & z1 & -> & F). cbn [ps_done app]. auto.
Qed.
