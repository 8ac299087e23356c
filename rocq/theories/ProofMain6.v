(** * The command: directories, and interrupts *)
From Coq Require Import Ascii String List ZArith Lia Bool.
From Verif Require Import Base MemMap SpecTree SpecOps SpecTable Filter Pipeline PyStr MapFile Deps Table Formats Main SpecMain ProofMain.
Import ListNotations.
Open Scope list_scope.

(** ** directories *)
Lemma above_ok p : forall seen d, In d (above seen p) <-> d <> [] /\ exists q q', p = q ++ "/"%char :: q' /\ d = seen ++ q.
Proof.
  induction p as [|c p IH]; intros seen d; cbn [above]; [split; [contradiction|intros (_ & [|x q] & q' & E & _); discriminate E]|].
  assert (G : In d (above (seen ++ [c]) p) <-> d <> [] /\ exists q q', c :: p = (c :: q) ++ "/"%char :: q' /\ d = seen ++ c :: q).
  { rewrite IH. split; intros (N & q & q' & E & D); (split; [exact N|]); exists q, q'; rewrite <- app_assoc in *; cbn [app] in *; (split; [congruence|exact D]). }
  destruct (keqP c "/"%char) as [->|Nc].
  - rewrite in_app_iff, G. split.
    + intros [H|(N & q & q' & E & D)]; [|split; [exact N|]; now exists ("/"%char :: q), q']. destruct seen as [|x seen]; [contradiction|]. destruct H as [<-|[]]. split; [discriminate|]. exists [], p. split; [reflexivity|now rewrite app_nil_r].
    + intros (N & [|x q] & q' & E & D).
      * rewrite app_nil_r in D. left. subst d. destruct seen; [congruence|now left].
      * right. split; [exact N|]. injection E as <- E. exists q, q'. split; [now rewrite E|exact D].
  - rewrite G. split; intros (N & q & q' & E & D); (split; [exact N|]).
    + now exists (c :: q), q'.
    + destruct q as [|x q]; [injection E as -> _; contradiction|]. injection E as <- E. exists q, q'. split; [now rewrite E|exact D].
Qed.
Lemma above_way fn d : In d (above [] fn) <-> on_the_way d fn.
Proof. rewrite above_ok. unfold on_the_way. split; intros (N & q & H); (split; [exact N|]); [destruct H as (q' & E & ->); now exists q'|exists d, q; now split]. Qed.
Lemma mkdirs_dirs l : forall o s r s', mkdirs l o s = (r, s') ->
  (forall d, In d (s_dirs s) -> In d (s_dirs s')) /\ (forall d, In d (s_dirs s') -> In d (s_dirs s) \/ In d l) /\ (r = Done tt -> forall d, In d l -> In d (s_dirs s')).
Proof.
  induction l as [|p l IH]; intros o s r s' E; cbn [mkdirs] in E.
  - inversion E; subst. split; [auto|]. split; [auto|]. intros _ d [].
  - unfold andthen in E. unfold mkdir, andthen, tick in E. destruct (o (s_tick s)) as [[[e|] k]|]; [inversion E; subst; cbn; repeat split; auto; discriminate|inversion E; subst; cbn; repeat split; auto; discriminate|].
    apply IH in E. cbn [s_dirs next] in E. destruct E as (E1 & E2 & E3).
    assert (K : forall d, In d (if mem p (s_dirs s) then s_dirs s else s_dirs s ++ [p]) <-> In d (s_dirs s) \/ d = p).
    { intros d. destruct (mem p (s_dirs s)) eqn:M; [|rewrite in_app_iff; cbn; intuition congruence]. apply mem_In in M. intuition congruence. }
    split; [intros d I; apply E1, K; now left|]. split.
    + intros d I. apply E2 in I. destruct I as [I|I]; [|right; now right]. apply K in I. destruct I as [I| ->]; [now left|right; now left].
    + intros D d [<-|I]; [apply E1, K; now right|now apply E3].
Qed.
Lemma write_inner_dirs fn text o s r s' : (run _ <- mkdirs (above [] fn); run _ <- open_truncate fn; write fn text) o s = (r, s') ->
  (forall d, In d (s_dirs s) -> In d (s_dirs s')) /\ (forall d, In d (s_dirs s') -> In d (s_dirs s) \/ on_the_way d fn) /\
  (r = Done tt -> forall d, on_the_way d fn -> In d (s_dirs s')).
Proof.
  unfold andthen at 1. destruct (mkdirs (above [] fn) o s) as [x s1] eqn:M. apply mkdirs_dirs in M. destruct M as (M1 & M2 & M3).
  assert (M2' : forall d, In d (s_dirs s1) -> In d (s_dirs s) \/ on_the_way d fn) by (intros d I; apply M2 in I; now rewrite above_way in I).
  destruct x as [[]|e|]; [|intros E; inversion E; subst; repeat split; auto; discriminate|intros E; inversion E; subst; repeat split; auto; discriminate].
  intros E. assert (D : s_dirs s' = s_dirs s1).
  { revert E. unfold andthen, open_truncate, andthen, tick. destruct (o (s_tick s1)) as [[[e|] k]|]; [intros E; now inversion E|intros E; now inversion E|]. unfold write. cbn [set_file next s_tick].
    destruct (o (S (s_tick s1))) as [[[e|] k]|]; intros E; now inversion E. }
  rewrite D. split; [exact M1|]. split; [exact M2'|]. intros _ d W. apply M3; [reflexivity|]. now apply above_way.
Qed.
Lemma die_raises {A} o s (r : result A) s' : die o s = (r, s') -> (forall a, r <> Done a) /\ s_dirs s' = s_dirs s.
Proof.
  intros E. split; [|exact (proj1 (proj2 (proj1 tame_die _ _ _ _ E)))]. unfold die, andthen, compute, andthen in E.
  destruct (tell Died o s) as [[[]|e|] s2]; [|inversion E; subst; discriminate|inversion E; subst; discriminate]. destruct (tick o s2) as [[[]|e|] s3]; inversion E; subst; discriminate.
Qed.
Lemma write_dirs fn text o s r s' : write_output_file fn text o s = (r, s') ->
  (forall d, In d (s_dirs s) -> In d (s_dirs s')) /\ (forall d, In d (s_dirs s') -> In d (s_dirs s) \/ on_the_way d fn) /\
  (r = Done tt -> forall d, on_the_way d fn -> In d (s_dirs s')).
Proof.
  unfold write_output_file, handle. destruct ((run _ <- mkdirs (above [] fn); run _ <- open_truncate fn; write fn text) o s) as [x s1] eqn:W. apply write_inner_dirs in W. destruct W as (W1 & W2 & W3).
  destruct x as [[]|e|]; intros E.
  - inversion E; subst. repeat split; assumption.
  - destruct e; try (inversion E; subst; repeat split; auto; discriminate). apply die_raises in E. destruct E as (Nd & ->). repeat split; auto. intros ->. now elim (Nd tt).
  - inversion E; subst. repeat split; auto; discriminate.
Qed.

Section Run.
  Variable render : console -> list piece -> str.
  Variable encode : str -> str.
  Variable ord : set_order.
  Variable pf : pct_format.
  Variable projects : str -> project.
  Lemma run_dirs c fn o s r s' : output c fn -> run_cmd render encode ord pf projects c o s = (r, s') ->
    (forall d, In d (s_dirs s) -> In d (s_dirs s')) /\ (forall d, In d (s_dirs s') -> In d (s_dirs s) \/ on_the_way d fn) /\
    (r = Done tt -> forall d, on_the_way d fn -> In d (s_dirs s')).
  Proof.
    intros (Eo & Nf) E. unfold run_cmd, run_with, handle in E. unfold andthen at 1 in E. destruct (report load_symbols ord pf projects c o s) as [x s1] eqn:R.
    destruct (report_files _ _ _ _ _ _ _ _ _ R) as [_ F2].
    assert (K : forall e k x s', on_exception e = Some k -> k o x = (r, s') -> s_dirs s' = s_dirs x /\ r <> Done tt).
    { intros e k y y' X H. destruct (proj1 (on_exception_tame e k X) _ _ _ _ H) as (_ & H2 & _). split; [exact H2|]. intros ->. eapply handler_raises; eassumption. }
    assert (Bad : forall e x, match on_exception e with Some k => k o x | None => (Raised e, x) end = (r, s') -> s_dirs s' = s_dirs x /\ r <> Done tt).
    { intros e y H. destruct (on_exception e) as [k|] eqn:X; [now apply (K e k)|]. inversion H; subst. split; [reflexivity|discriminate]. }
    destruct x as [[]|e|]; [|apply Bad in E; destruct E as (-> & Nd); rewrite F2; repeat split; auto; intros ->; now elim Nd|inversion E; subst; rewrite F2; repeat split; auto; discriminate].
    unfold finish in E. rewrite Eo in E. destruct fn as [|h fn]; [destruct (Nf eq_refl)|].
    match type of E with context [write_output_file _ ?t o s1] => destruct (write_output_file (h :: fn) t o s1) as [x s2] eqn:W end. apply write_dirs in W. rewrite F2 in W.
    destruct x as [[]|e|]; [inversion E; subst; exact W| |inversion E; subst; exact W].
    apply Bad in E. destruct E as (-> & Nd). destruct W as (W1 & W2 & _). repeat split; auto. intros ->. now elim Nd.
  Qed.
End Run.

(** ** interrupts *)
Definition obeys {A} (m : prog A) : Prop := forall n k s r s1, m no_faults s = (r, s1) -> (s_tick s <= s_tick s1)%nat /\
  ((s_tick s <= n < s_tick s1)%nat -> exists s', m (interrupt_at n k) s = (Raised KeyboardInterrupt, s') /\ s_tick s' = S n) /\
  (~ (s_tick s <= n < s_tick s1)%nat -> m (interrupt_at n k) s = (r, s1)).
Lemma obeys_ret {A} (a : A) : obeys (ret a).
Proof. intros n k s r s1 E. inversion E; subst. split; [lia|]. split; [lia|reflexivity]. Qed.
Lemma obeys_andthen {A B} (m : prog A) (f : A -> prog B) : obeys m -> (forall a, obeys (f a)) -> obeys (andthen m f).
Proof.
  intros M F n k s r s1 E. unfold andthen in *. destruct (m no_faults s) as [x s2] eqn:Em. destruct (M n k s x s2 Em) as (L1 & In1 & Out1).
  destruct x as [a|e|]; [|inversion E; subst; split; [exact L1|]; split; [intros H; destruct (In1 H) as (s' & -> & T); now exists s'|intros H; now rewrite (Out1 H)]
    |inversion E; subst; split; [exact L1|]; split; [intros H; destruct (In1 H) as (s' & -> & T); now exists s'|intros H; now rewrite (Out1 H)]].
  destruct (F a n k s2 r s1 E) as (L2 & In2 & Out2). split; [lia|]. split.
  - intros H. destruct (Nat.lt_ge_cases n (s_tick s2)) as [Lt|Ge].
    + destruct (In1 ltac:(lia)) as (s' & -> & T). now exists s'.
    + rewrite (Out1 ltac:(lia)). apply In2. lia.
  - intros H. rewrite (Out1 ltac:(lia)). apply Out2. lia.
Qed.
Lemma obeys_step (f : state -> state) : (forall s, s_tick (f s) = s_tick s) -> obeys (run _ <- tick; fun _ s => (Done tt, f s)).
Proof.
  intros F n k s r s1 E. unfold andthen, tick, interrupt_at in *. cbn in E. injection E as <- <-. rewrite F. cbn [next s_tick]. split; [lia|]. destruct (Nat.eqb_spec (s_tick s) n) as [<-|N].
  - split; [|lia]. intros _. eexists. split; [reflexivity|reflexivity].
  - split; [lia|reflexivity].
Qed.
Lemma obeys_compute {A} (r : res A) : obeys (compute r).
Proof.
  intros n k s x s1 E. unfold compute, andthen, tick, interrupt_at in *. cbn in E. assert (s1 = next s) as -> by (destruct r; now inversion E). cbn [next s_tick]. split; [lia|]. destruct (Nat.eqb_spec (s_tick s) n) as [<-|N].
  - split; [|lia]. intros _. eexists. split; [reflexivity|reflexivity].
  - split; [lia|]. intros _. exact E.
Qed.
Lemma obeys_print p : obeys (print p).
Proof. apply (obeys_step (fun s => State (s_tick s) (s_files s) (s_dirs s) (s_console s) (s_printed s ++ [p]) (s_notes s))). reflexivity. Qed.
Lemma obeys_tell p : obeys (tell p).
Proof. apply (obeys_step (fun s => State (s_tick s) (s_files s) (s_dirs s) (s_console s) (s_printed s) (s_notes s ++ [p]))). reflexivity. Qed.
Lemma obeys_console p : obeys (set_console p).
Proof. apply (obeys_step (fun s => State (s_tick s) (s_files s) (s_dirs s) p (s_printed s) (s_notes s))). reflexivity. Qed.
Lemma obeys_mkdir d : obeys (mkdir d).
Proof. apply (obeys_step (fun s => State (s_tick s) (s_files s) (if mem d (s_dirs s) then s_dirs s else s_dirs s ++ [d]) (s_console s) (s_printed s) (s_notes s))). reflexivity. Qed.
Lemma obeys_open d : obeys (open_truncate d).
Proof. apply (obeys_step (fun s => set_file d [] s)). reflexivity. Qed.
Lemma obeys_write fn text : obeys (write fn text).
Proof.
  intros n k s x s1 E. unfold write, interrupt_at in *. cbn in E. injection E as <- <-. cbn [set_file next s_tick]. split; [lia|]. destruct (Nat.eqb_spec (s_tick s) n) as [<-|N].
  - split; [|lia]. intros _. eexists. split; [reflexivity|reflexivity].
  - split; [lia|reflexivity].
Qed.
Lemma obeys_die {A} : obeys (@die A).
Proof. apply obeys_andthen; [apply obeys_tell|]. intros _. apply obeys_compute. Qed.
Lemma obeys_if {A} (b : bool) (m n : prog A) : obeys m -> obeys n -> obeys (if b then m else n).
Proof. destruct b; auto. Qed.
Lemma obeys_print_all l : obeys (print_all l).
Proof. induction l as [|p l IH]; [apply obeys_ret|]. apply obeys_andthen; [apply obeys_print|]. intros _. exact IH. Qed.
Lemma obeys_mkdirs l : obeys (mkdirs l).
Proof. induction l as [|p l IH]; [apply obeys_ret|]. apply obeys_andthen; [apply obeys_mkdir|]. intros _. exact IH. Qed.
Lemma obeys_table t : obeys (table_result t).
Proof. destruct t; [apply obeys_ret|apply obeys_die]. Qed.
Lemma obeys_cod {A} (r : res A) : obeys (compute_or_die r).
Proof. destruct r as [a|[]]; try apply obeys_compute. apply obeys_die. Qed.
(** an interrupt is not handled inside *)
Lemma obeys_handle {A} (m : prog A) h : h KeyboardInterrupt = None -> obeys m -> (forall e k, h e = Some k -> obeys k) -> obeys (handle m h).
Proof.
  intros Hk M H n k s r s1 E. unfold handle in *. destruct (m no_faults s) as [x s2] eqn:Em. destruct (M n k s x s2 Em) as (L1 & In1 & Out1).
  assert (G : (s_tick s <= n < s_tick s2)%nat -> exists s', match m (interrupt_at n k) s with (Raised e, y) => match h e with Some q => q (interrupt_at n k) y | None => (Raised e, y) end | y => y end = (Raised KeyboardInterrupt, s') /\ s_tick s' = S n).
  { intros L. destruct (In1 L) as (s' & -> & T). rewrite Hk. now exists s'. }
  destruct x as [a|e|].
  - inversion E; subst. split; [exact L1|]. split; [exact G|]. intros L. now rewrite (Out1 L).
  - destruct (h e) as [q|] eqn:He.
    + destruct (H e q He n k s2 r s1 E) as (L2 & In2 & Out2). split; [lia|]. split.
      * intros L. destruct (Nat.lt_ge_cases n (s_tick s2)) as [Lt|Ge]; [apply G; lia|]. rewrite (Out1 ltac:(lia)), He. apply In2. lia.
      * intros L. rewrite (Out1 ltac:(lia)), He. apply Out2. lia.
    + inversion E; subst. split; [exact L1|]. split; [exact G|]. intros L. now rewrite (Out1 L), He.
  - inversion E; subst. split; [exact L1|]. split; [exact G|]. intros L. now rewrite (Out1 L).
Qed.
Ltac obeys := repeat first
  [ apply obeys_if | apply obeys_ret | apply obeys_print | apply obeys_tell | apply obeys_console | apply obeys_print_all | apply obeys_table
  | apply obeys_cod | apply obeys_compute | apply obeys_die | apply obeys_mkdirs | apply obeys_open | apply obeys_write
  | (apply obeys_andthen; [|intros]) ].
Lemma obeys_show x m a : obeys (show x m a).
Proof.
  assert (T : obeys (table_of x m a)) by (unfold table_of; obeys).
  unfold show. destruct (a_format a); unfold table_show, json_show, raw_show, csv_show, tree_show, dot_show_prog, show_diff_info; obeys; exact T.
Qed.
Lemma obeys_compare ls projects a m : obeys (compare ls projects a m).
Proof. unfold compare. destruct (a_diff a) as [[|c d]|]; obeys. destruct a0 as [r mf]. obeys. Qed.
Lemma obeys_analyse ls ord pf projects i a : obeys (analyse ls ord pf projects i a).
Proof. unfold analyse. obeys. destruct a2 as [m mf]. obeys. apply obeys_compare. Qed.
Lemma obeys_report ls ord pf projects c : obeys (report ls ord pf projects c).
Proof.
  unfold report. apply obeys_andthen; [apply obeys_console|]. intros _. apply obeys_andthen; [unfold normalise; obeys|]. intros a. cbn zeta.
  apply obeys_andthen; [apply obeys_analyse|]. intros [x m]. apply obeys_show.
Qed.
Lemma obeys_finish render encode c : obeys (finish render encode c).
Proof.
  unfold finish. destruct (a_output_file (c_args c)) as [[|h fn]|]; try apply obeys_ret.
  intros n k s r s1 E. revert n k s r s1 E. cut (forall x, obeys (write_output_file (h :: fn) x)).
  { intros W n k s r s1 E. exact (W _ n k s r s1 E). }
  intros x. unfold write_output_file. apply obeys_handle; [reflexivity|obeys|]. intros e k K. destruct e; inversion K; subst. apply obeys_die.
Qed.
Lemma interrupted render encode ord pf projects c n k s s1 : run_cmd render encode ord pf projects c no_faults s = (Done tt, s1) -> (s_tick s <= n < s_tick s1)%nat ->
  exists s', run_cmd render encode ord pf projects c (interrupt_at n k) s = (Raised SystemExit, s').
Proof.
  unfold run_cmd, run_with. unfold handle. set (m := run _ <- report load_symbols ord pf projects c; finish render encode c).
  assert (O : obeys m) by (apply obeys_andthen; [apply obeys_report|intros _; apply obeys_finish]).
  destruct (m no_faults s) as [x s2] eqn:Em. intros E L. destruct x as [[]|e|]; [| |discriminate E].
  - injection E as <-. destruct (O n k s _ _ Em) as (_ & I & _). destruct (I L) as (s' & -> & T). cbn [on_exception]. exists (next s').
    unfold compute, andthen, tick, interrupt_at. rewrite T. destruct (Nat.eqb_spec (S n) n); [lia|]. reflexivity.
  - destruct (on_exception e) as [q|] eqn:Q; [|discriminate E]. exfalso. eapply handler_raises; eassumption.
Qed.
