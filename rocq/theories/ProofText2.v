(** * Proofs about markup: what is shown of a text made of pieces *)
From Coq Require Import Ascii String List ZArith Lia Bool.
From Verif Require Import Base MemMap Filter PyStr Pipeline MapFile Deps Table SpecTable ProofTable Formats Markup Project Main JsonText Text SpecText ProofText1.
Import ListNotations.
Open Scope list_scope.

(** ** parsing with text before *)

(** the last character, if there is one, is no backslash *)
Definition ends_well (s : str) : Prop := forall a, s <> a ++ [backslash].

Lemma ends_well_snoc s c : c <> backslash -> ends_well (s ++ [c]).
Proof. intros N a E. apply app_inj_tail in E. now destruct E. Qed.
Lemma ends_well_tl c s : s <> [] -> ends_well (c :: s) -> ends_well s.
Proof. intros N W a ->. apply (W (c :: a)). reflexivity. Qed.

Lemma unescape_cons c d (s : str) : unescape (c :: d :: s) = if (c =?= backslash) && (d =?= lbracket) then d :: unescape s else c :: unescape (d :: s).
Proof. reflexivity. Qed.
Lemma unescape_app (a b : str) : ends_well a -> unescape (a ++ b) = unescape a ++ unescape b.
Proof.
  remember (length a) as n. assert (L : (length a <= n)%nat) by lia. clear Heqn. revert a L b. induction n as [|n IH]; intros a L b W.
  - destruct a; [reflexivity|cbn in L; lia].
  - destruct a as [|c [|d a]]; [reflexivity| |].
    + destruct b as [|e b]; [reflexivity|]. cbn [app unescape]. destruct (keqP c backslash) as [->|N]; [now elim (W [])|]. reflexivity.
    + change ((c :: d :: a) ++ b) with (c :: d :: (a ++ b)). rewrite !unescape_cons. destruct ((c =?= backslash) && (d =?= lbracket)) eqn:K.
      * assert (D : d = lbracket) by (apply andb_true_iff in K; destruct K as [_ K]; now apply keq_eq in K). subst d. cbn [app]. rewrite IH; [reflexivity|cbn in L; lia|].
        intros x E. apply (W (c :: lbracket :: x)). cbn [app]. now rewrite E.
      * change (d :: (a ++ b)) with ((d :: a) ++ b). rewrite (IH (d :: a)); [reflexivity|cbn in *; lia|]. now apply (ends_well_tl c).
Qed.

Definition prepend (t : str) (r : option (str * list str)) : option (str * list str) :=
  match r with Some (u, st) => Some (t ++ u, st) | None => None end.
Lemma prepend_nil r : prepend [] r = r.
Proof. now destruct r as [[]|]. Qed.
Lemma prepend_app a b r : prepend (a ++ b) r = prepend a (prepend b r).
Proof. destruct r as [[]|]; [|reflexivity]. cbn. now rewrite app_assoc. Qed.

Section Rich.
Variable nm : str -> str.
Definition out (st : list str) (s : str) : option (str * list str) := render nm st (parse 0 [] s).

Lemma render_flush st acc l : render nm st (flush acc ++ l) = prepend (unescape acc) (render nm st l).
Proof. destruct acc; cbn [flush app render]; [now rewrite prepend_nil|]. reflexivity. Qed.

Lemma parse_acc s : forall k a x st, ends_well a -> render nm st (parse k (a ++ x) s) = prepend (unescape a) (render nm st (parse k x s)).
Proof.
  induction s as [|c s IH]; intros k a x st W.
  - cbn [parse]. pose proof (render_flush st (a ++ x) []) as H. pose proof (render_flush st x []) as H0. rewrite app_nil_r in H, H0.
    now rewrite H, H0, unescape_app, prepend_app.
  - cbn [parse]. destruct k as [|k]; [|now apply IH]. destruct (tag_here (c :: s)) as [[k t]|].
    + rewrite !(render_flush st (a ++ x)), !(render_flush st x). now rewrite unescape_app, prepend_app.
    + rewrite <- app_assoc. now apply IH.
Qed.

(** ** pieces of text *)

(** [s] shows [t] and changes the open tags by [f], whatever follows *)
Definition seg (s t : str) (f : list str -> list str) : Prop := forall st rest, out st (s ++ rest) = prepend t (out (f st) rest).

Lemma seg_app s1 t1 f1 s2 t2 f2 : seg s1 t1 f1 -> seg s2 t2 f2 -> seg (s1 ++ s2) (t1 ++ t2) (fun st => f2 (f1 st)).
Proof. intros A B st rest. now rewrite <- app_assoc, A, B, prepend_app. Qed.
Lemma seg_app_id s1 t1 s2 t2 f : seg s1 t1 (fun st => st) -> seg s2 t2 f -> seg (s1 ++ s2) (t1 ++ t2) f.
Proof. exact (seg_app s1 t1 (fun st => st) s2 t2 f). Qed.
Lemma seg_nil : seg [] [] (fun st => st).
Proof. intros st rest. now rewrite prepend_nil. Qed.
Lemma seg_rendered s t f : seg s t f -> rendered nm s = Some (t, f []).
Proof. intros S. specialize (S [] []). rewrite app_nil_r in S. unfold rendered. unfold out in S. rewrite S. cbn. now rewrite app_nil_r. Qed.
Lemma seg_plain s t f : seg s t f -> plain nm s = Some t.
Proof. intros S. unfold plain. now rewrite (seg_rendered s t f S). Qed.

(** no tag begins in the text, and nothing in it is an escaped bracket *)
Fixpoint quiet (s : str) : Prop :=
  match s with
  | [] => True
  | c :: s' =>
    (c = lbracket -> match s' with [] => False | d :: _ => tag_start d = false end) /\
    (c = backslash -> match s' with [] => False | d :: _ => d <> lbracket end) /\ quiet s'
  end.

Lemma backslashes_app s rest : quiet s -> (exists c r, s = c :: r /\ c = backslash) ->
  exists k d r', backslashes (s ++ rest) = (k, d :: r') /\ d <> lbracket.
Proof.
  induction s as [|c s IH]; intros Q (c0 & r & E & B); [discriminate|]. injection E as <- <-. subst c. destruct Q as (_ & Q & Q'). specialize (Q eq_refl).
  destruct s as [|d s]; [contradiction|]. cbn [app backslashes]. rewrite keq_refl. destruct (keqP d backslash) as [->|N].
  - destruct (IH Q') as (k & e & r' & E & N'); [eauto|]. cbn [app backslashes] in E. rewrite keq_refl in E. destruct (backslashes (s ++ rest)) as [k0 r0]. injection E as <- ->.
    exists (S (S k0)), e, r'. auto.
  - exists 1%nat, d, (s ++ rest). auto.
Qed.
Lemma tag_none c s rest : quiet (c :: s) -> tag_here ((c :: s) ++ rest) = None.
Proof.
  intros Q. unfold tag_here. destruct (keqP c backslash) as [B|N].
  - destruct (backslashes_app (c :: s) rest Q) as (k & d & r' & E & D); [eauto|]. rewrite E. destruct r' as [|e r']; [reflexivity|].
    destruct (keqP d lbracket); [contradiction|reflexivity].
  - cbn [app backslashes]. destruct (keqP c backslash); [contradiction|]. destruct (keqP c lbracket) as [->|M].
    + destruct Q as (Q & _). specialize (Q eq_refl). destruct s as [|d s]; [contradiction|]. cbn [app]. rewrite Q. now rewrite andb_false_r.
    + destruct (s ++ rest); reflexivity.
Qed.
Lemma parse_quiet s : quiet s -> forall acc rest, parse 0 acc (s ++ rest) = parse 0 (acc ++ s) rest.
Proof.
  induction s as [|c s IH]; intros Q acc rest; [now rewrite app_nil_r|]. pose proof (tag_none c s rest Q) as T.
  cbn [app] in *. cbn [parse]. rewrite T. rewrite IH; [now rewrite <- app_assoc|apply Q].
Qed.
Lemma quiet_ends s : quiet s -> ends_well s.
Proof. intros Q a ->. induction a as [|c a IH]; [destruct Q as (_ & Q & _); exact (Q eq_refl)|]. apply IH, Q. Qed.
Lemma quiet_unescape s : quiet s -> unescape s = s.
Proof.
  induction s as [|c s IH]; intros Q; [reflexivity|]. destruct Q as (_ & B & Q). specialize (IH Q). cbn [unescape]. destruct s as [|d s]; [reflexivity|].
  destruct (keqP c backslash) as [->|N].
  - specialize (B eq_refl). destruct (keqP d lbracket); [contradiction|]. cbn [andb]. now rewrite IH.
  - cbn [andb]. now rewrite IH.
Qed.
Lemma seg_quiet s : quiet s -> seg s s (fun st => st).
Proof.
  intros Q st rest. unfold out. rewrite (parse_quiet s Q [] rest). cbn [app]. rewrite <- (app_nil_r s) at 1.
  rewrite parse_acc by now apply quiet_ends. now rewrite quiet_unescape.
Qed.
Lemma quiet_app a b : quiet a -> quiet b -> quiet (a ++ b).
Proof.
  induction a as [|c a IH]; intros A B; [exact B|]. destruct A as (A1 & A2 & A3). cbn [app quiet]. repeat split; [| |now apply IH].
  - intros E. specialize (A1 E). destruct a; [contradiction|exact A1].
  - intros E. specialize (A2 E). destruct a; [contradiction|exact A2].
Qed.

(** a text without opening brackets and with something harmless behind it *)
Lemma quiet_before s c r : no_bracket s -> c <> lbracket -> quiet (c :: r) -> quiet (s ++ c :: r).
Proof.
  intros N C Q. induction s as [|d s IH]; [exact Q|]. assert (D : d <> lbracket) by (intros ->; apply N; now left).
  assert (N' : no_bracket s) by (intros H; apply N; now right).
  specialize (IH N'). cbn [app quiet]. repeat split; [intros E; contradiction| |exact IH].
  intros _. destruct s as [|e s]; cbn [app]; [exact C|]. intros ->. apply N. right. now left.
Qed.
Lemma quiet_clean s : (forall c, In c s -> c <> lbracket /\ c <> backslash) -> quiet s.
Proof.
  induction s as [|c s IH]; intros H; [exact I|]. cbn [quiet]. destruct (H c (or_introl eq_refl)) as [A B]. repeat split; try (intros; contradiction).
  apply IH. intros d D. apply H. now right.
Qed.

(** a whole text without opening brackets *)
Lemma plain_free s : no_bracket s -> rendered nm s = Some (s, []).
Proof.
  intros N. assert (P : forall acc, parse 0 acc s = flush (acc ++ s)).
  { revert N. induction s as [|c s IH]; intros N acc; [cbn; now rewrite app_nil_r|]. assert (T : tag_here (c :: s) = None).
    { unfold tag_here. assert (B : exists k r, backslashes (c :: s) = (k, r) /\ no_bracket r).
      { revert N. generalize (c :: s). clear. intros s. induction s as [|c s IH]; intros N; [exists 0%nat, []; auto|]. cbn [backslashes].
        destruct (c =?= backslash); [|exists 0%nat, (c :: s); auto]. destruct IH as (k & r & E & M); [intros H; apply N; now right|]. rewrite E. exists (S k), r. auto. }
      destruct B as (k & r & -> & M). destruct r as [|d [|e r]]; try reflexivity. destruct (keqP d lbracket) as [->|D]; [|reflexivity]. elim M. now left. }
    cbn [parse]. rewrite T, IH by (intros H; apply N; now right). now rewrite <- app_assoc. }
  unfold rendered. rewrite P. cbn [app]. assert (U : unescape s = s).
  { clear P. revert N. induction s as [|c s IH]; intros N; [reflexivity|]. cbn [unescape]. rewrite IH by (intros H; apply N; now right).
    destruct s as [|d s]; [reflexivity|]. destruct (keqP d lbracket) as [->|D]; [elim N; right; now left|]. now rewrite andb_false_r. }
  destruct s as [|c s]; [reflexivity|]. cbn [flush render]. rewrite U. now rewrite app_nil_r.
Qed.

(** ** tags *)
Lemma pop_same n st : pop_style n (n :: st) = Some st.
Proof. cbn [pop_style]. now rewrite keq_refl. Qed.

Ltac literal := intros st rest; unfold out; reflexivity.
Lemma seg_green : seg (key "[green]") [] (cons (nm (key "green"))).
Proof. intros st rest. rewrite prepend_nil. reflexivity. Qed.
Lemma seg_red : seg (key "[red]") [] (cons (nm (key "red"))).
Proof. intros st rest. rewrite prepend_nil. reflexivity. Qed.
Lemma end_green st rest : out (nm (key "green") :: st) (key "[/green]" ++ rest) = out st rest.
Proof.
  unfold out. change (parse 0 [] (key "[/green]" ++ rest)) with (Tag (key "/green") :: parse 0 [] rest). cbn [render].
  change (do_tag nm (key "/green") (nm (key "green") :: st)) with (pop_style (nm (key "green")) (nm (key "green") :: st)). now rewrite pop_same.
Qed.
Lemma end_red st rest : out (nm (key "red") :: st) (key "[/red]" ++ rest) = out st rest.
Proof.
  unfold out. change (parse 0 [] (key "[/red]" ++ rest)) with (Tag (key "/red") :: parse 0 [] rest). cbn [render].
  change (do_tag nm (key "/red") (nm (key "red") :: st)) with (pop_style (nm (key "red")) (nm (key "red") :: st)). now rewrite pop_same.
Qed.
Lemma seg_in_green x : quiet x -> seg (colored "[green]" "[/green]" x) x (fun st => st).
Proof. intros Q st rest. unfold colored. rewrite <- !app_assoc, seg_green, prepend_nil, (seg_quiet x Q). now rewrite end_green. Qed.
Lemma seg_in_red x : quiet x -> seg (colored "[red]" "[/red]" x) x (fun st => st).
Proof. intros Q st rest. unfold colored. rewrite <- !app_assoc, seg_red, prepend_nil, (seg_quiet x Q). now rewrite end_red. Qed.
Lemma seg_greens x : quiet x -> seg (colored "[green]" "[green]" x) x (fun st => nm (key "green") :: nm (key "green") :: st).
Proof. intros Q st rest. unfold colored. rewrite <- !app_assoc, seg_green, prepend_nil, (seg_quiet x Q), seg_green, prepend_nil. reflexivity. Qed.

(** ** numbers *)
Definition number_char (c : ascii) : bool := (match digit_of c with Some _ => true | None => false end) || mem c ["-"%char; "+"%char; " "%char].
Lemma number_quiet s : forallb number_char s = true -> quiet s.
Proof.
  intros H. apply quiet_clean. intros c I. rewrite forallb_forall in H. specialize (H c I). split; intros ->; discriminate H.
Qed.
Lemma decimal_chars s n : decimal s n -> forallb number_char s = true.
Proof.
  assert (D : forall c d, digit_is c d -> number_char c = true) by (intros c d D; unfold number_char; now rewrite (digit_read c d D)).
  induction 1 as [c d H|s n c d H IH E]; [cbn; now rewrite (D c d H)|]. rewrite forallb_app, IH. cbn. now rewrite (D c d E).
Qed.
Lemma show_Z_chars z : forallb number_char (show_Z z) = true.
Proof.
  destruct (show_Z_written z) as [(_ & D & _)|(_ & r & -> & D & _)]; [exact (decimal_chars _ _ D)|].
  cbn [forallb]. now rewrite (decimal_chars _ _ D).
Qed.
Lemma show_signed_chars z : forallb number_char (show_signed z) = true.
Proof. unfold show_signed. destruct (z <? 0)%Z; [|cbn [forallb]; change (number_char "+") with true; cbn [andb]]; apply show_Z_chars. Qed.
Lemma pad6_chars s : forallb number_char s = true -> forallb number_char (pad6 s) = true.
Proof. intros H. unfold pad6. rewrite forallb_app, H, andb_true_r. induction (6 - length s)%nat as [|n IH]; [reflexivity|]. exact IH. Qed.
Lemma signed_quiet z : quiet (" "%char :: pad6 (show_signed z)).
Proof. apply number_quiet. cbn [forallb]. change (number_char " ") with true. cbn [andb]. apply pad6_chars, show_signed_chars. Qed.

Lemma seg_color_diff d n k : seg (color_diff d n k) (num_cell d n k) (fun st => st).
Proof.
  unfold color_diff, num_cell. destruct d; cbn [negb]; [|apply seg_quiet, number_quiet, show_Z_chars].
  assert (A : seg (show_Z n) (show_Z n) (fun st => st)) by apply seg_quiet, number_quiet, show_Z_chars.
  destruct (Z.ltb_spec k 0) as [L|L]; [|destruct (Z.ltb_spec 0 k) as [G|G]].
  - destruct (Z.eqb_spec k 0); [lia|]. apply seg_app_id; [exact A|]. apply seg_in_green, signed_quiet.
  - destruct (Z.eqb_spec k 0); [lia|]. apply seg_app_id; [exact A|]. apply seg_in_red, signed_quiet.
  - assert (k = 0%Z) by lia. subst k. apply seg_app_id; [exact A|]. apply seg_quiet, number_quiet. reflexivity.
Qed.
Definition size_stack (d : bool) (k : Z) (st : list str) : list str :=
  if d && (0 <? k)%Z then nm (key "green") :: nm (key "green") :: st else st.
Lemma seg_color_size d n k : seg (color_size d n k) (num_cell d n k) (size_stack d k).
Proof.
  unfold color_size, num_cell, size_stack. destruct d; cbn [negb andb]; [|apply seg_quiet, number_quiet, show_Z_chars].
  assert (A : seg (show_Z n) (show_Z n) (fun st => st)) by apply seg_quiet, number_quiet, show_Z_chars.
  destruct (Z.ltb_spec k 0) as [L|L]; [|destruct (Z.ltb_spec 0 k) as [G|G]].
  - destruct (Z.eqb_spec k 0); [lia|]. destruct (Z.ltb_spec 0 k); [lia|]. apply seg_app_id; [exact A|]. apply seg_in_red, signed_quiet.
  - destruct (Z.eqb_spec k 0); [lia|]. apply seg_app_id; [exact A|]. apply seg_greens, signed_quiet.
  - assert (k = 0%Z) by lia. subst k. apply seg_app_id; [exact A|]. apply seg_quiet, number_quiet. reflexivity.
Qed.
End Rich.
