(** * Proofs about the command line: what the items mean *)
From Coq Require Import Ascii String List Bool Arith Lia.
From Verif Require Import Base MemMap PyStr Main CommandLine SpecLetters ProofLetters SpecLine ProofLine1.
Import ListNotations.
Open Scope list_scope.
Local Notation tx := list_ascii_of_string.

Definition opts_of (l : list item) : dict str cval := fst (apply_all l ([], [])).
Lemma opts_snoc l i : opts_of (l ++ [i]) = fst (apply (apply_all l ([], [])) i).
Proof. unfold opts_of. rewrite apply_app. reflexivity. Qed.
Lemma opts_switch l s : opts_of (l ++ [Switch s]) = process (switch_opt s) [] (opts_of l).
Proof. now rewrite opts_snoc. Qed.
Lemma opts_set l s x : opts_of (l ++ [Set_ s x]) = process (setting_opt s) x (opts_of l).
Proof. now rewrite opts_snoc. Qed.
Lemma opts_file l x : opts_of (l ++ [File x]) = opts_of l.
Proof. now rewrite opts_snoc. Qed.
Lemma files_snd l : forall o la, snd (apply_all l (o, la)) = la ++ files l.
Proof.
  induction l as [|i l IH]; intros o la; [now rewrite app_nil_r|]. cbn [apply_all fold_left]. unfold apply_all in IH. destruct i; cbn [apply fst snd]; rewrite IH; [reflexivity|reflexivity|].
  cbn [files flat_map app]. now rewrite <- app_assoc.
Qed.

(** ** destinations *)
Definition konst (s : switch) : bool := match s with NoLto | SortReverse => false | _ => true end.
Lemma switch_action s : op_action (switch_opt s) = AConst (konst s).
Proof. destruct s; reflexivity. Qed.
Lemma process_switch s v o : process (switch_opt s) v o = dset (op_dest (switch_opt s)) (VBool (konst s)) o.
Proof. unfold process. now rewrite switch_action. Qed.
Definition lto_switch (s : switch) : Prop := s = Lto \/ s = NoLto.
Lemma switch_dest s t : op_dest (switch_opt s) = op_dest (switch_opt t) -> s = t \/ (lto_switch s /\ lto_switch t).
Proof. unfold lto_switch. destruct s, t; intros E; solve [now left|discriminate E|right; auto]. Qed.
Lemma setting_dest s t : op_dest (setting_opt s) = op_dest (setting_opt t) -> s = t.
Proof. destruct s, t; intros E; solve [reflexivity|discriminate E]. Qed.
Lemma mixed_dest s t : op_dest (switch_opt s) <> op_dest (setting_opt t).
Proof. destruct s, t; discriminate. Qed.
Lemma process_other o v k d : k <> op_dest o -> dget k (process o v d) = dget k d.
Proof. intros N. unfold process. destruct (op_action o); now rewrite dget_dset_neq. Qed.
Lemma switch_dec (s t : switch) : {s = t} + {s <> t}. Proof. decide equality. Qed.

Lemma flag_said s l : ~ lto_switch s ->
  (In (Switch s) l -> dget (op_dest (switch_opt s)) (opts_of l) = Some (VBool (konst s))) /\ (~ In (Switch s) l -> dget (op_dest (switch_opt s)) (opts_of l) = None).
Proof.
  intros NL. induction l as [|i l [A B]] using rev_ind; [split; [intros []|reflexivity]|].
  rewrite in_app_iff. cbn [In]. destruct i as [t|t x|x].
  - rewrite opts_switch, process_switch. destruct (switch_dec s t) as [->|N].
    + rewrite dget_dset_eq. split; [reflexivity|]. intros H. destruct H. auto.
    + rewrite dget_dset_neq by (intros E; destruct (switch_dest _ _ E) as [E'|[E' _]]; auto). split; [intros [H|[H|[]]]; [auto|congruence]|intros H; apply B; auto].
  - rewrite opts_set, process_other by apply mixed_dest. split; [intros [H|[H|[]]]; [auto|discriminate]|intros H; apply B; auto].
  - rewrite opts_file. split; [intros [H|[H|[]]]; [auto|discriminate]|intros H; apply B; auto].
Qed.
Lemma get_flag_said s l d : ~ lto_switch s -> op_dest (switch_opt s) = tx d -> konst s = true -> switched s l (get_flag (opts_of l) d false).
Proof.
  intros NL E K. unfold switched, get_flag. rewrite <- E. destruct (flag_said s l NL) as [A B].
  destruct (in_dec (fun i j : item => ltac:(repeat decide equality)) (Switch s) l) as [I|I].
  - rewrite (A I), K. now split.
  - rewrite (B I). split; [discriminate|contradiction].
Qed.

Lemma last_snoc s l t x : last_value s (l ++ [Set_ t x]) = if same_setting s t then Some x else last_value s l.
Proof.
  unfold last_value, values. rewrite flat_map_app. cbn [flat_map]. rewrite app_nil_r. destruct (same_setting s t); [|now rewrite app_nil_r]. now rewrite rev_unit.
Qed.
Lemma values_snoc s l i : values s (l ++ [i]) = values s l ++ match i with Set_ t x => if same_setting s t then [x] else [] | _ => [] end.
Proof. unfold values. rewrite flat_map_app. cbn [flat_map]. now rewrite app_nil_r. Qed.
Lemma same_setting_eq s t : same_setting s t = true <-> s = t.
Proof. destruct s, t; split; intros E; solve [reflexivity|discriminate E]. Qed.
Lemma setting_action s : s <> Filter -> op_action (setting_opt s) = AStore.
Proof. destruct s; solve [reflexivity|intros []; reflexivity]. Qed.
Lemma text_said s l : s <> Filter -> dget (op_dest (setting_opt s)) (opts_of l) = option_map VStr (last_value s l).
Proof.
  intros NF. induction l as [|i l IH] using rev_ind; [reflexivity|]. destruct i as [t|t x|x].
  - rewrite opts_switch, process_other by (intros E; symmetry in E; revert E; apply mixed_dest). rewrite IH. unfold last_value. rewrite values_snoc, app_nil_r. reflexivity.
  - rewrite opts_set, last_snoc. destruct (same_setting s t) eqn:S.
    + apply same_setting_eq in S. subst t. unfold process. rewrite setting_action by exact NF. now rewrite dget_dset_eq.
    + rewrite process_other; [exact IH|]. intros E. apply setting_dest in E. apply same_setting_eq in E. congruence.
  - rewrite opts_file, IH. unfold last_value. rewrite values_snoc, app_nil_r. reflexivity.
Qed.
Lemma get_text_said s l d : s <> Filter -> op_dest (setting_opt s) = tx d -> get_text (opts_of l) d = last_value s l.
Proof. intros NF E. unfold get_text. rewrite <- E, text_said by exact NF. destruct (last_value s l); reflexivity. Qed.
Lemma filter_said l : dget (tx "filter" : str) (opts_of l) = match values Filter l with [] => None | p => Some (VList p) end.
Proof.
  change (tx "filter") with (op_dest (setting_opt Filter)). induction l as [|i l IH] using rev_ind; [reflexivity|]. destruct i as [t|t x|x].
  - rewrite opts_switch, process_other by (intros E; symmetry in E; revert E; apply mixed_dest). rewrite IH, values_snoc, app_nil_r. reflexivity.
  - rewrite opts_set, values_snoc. destruct (same_setting Filter t) eqn:S.
    + apply same_setting_eq in S. subst t. cbv beta delta [process]. cbn [op_action setting_opt]. change (tx "filter") with (op_dest (setting_opt Filter)). cbn [op_dest]. rewrite dget_dset_eq.
      change (Opt [tx "-F"; tx "--filter"] (tx "filter") AAppend) with (setting_opt Filter). rewrite IH. destruct (values Filter l); reflexivity.
    + rewrite process_other, app_nil_r; [exact IH|]. intros E. apply setting_dest in E. apply same_setting_eq in E. congruence.
  - rewrite opts_file, IH, values_snoc, app_nil_r. reflexivity.
Qed.

Lemma lto_get l : exists o, dget (tx "use_dwarf" : str) (opts_of l) = option_map VBool o /\ last_lto l o.
Proof.
  induction l as [|i l (o & G & L)] using rev_ind; [exists None; split; [reflexivity|constructor; intros []]|].
  assert (K : (i <> Switch Lto /\ i <> Switch NoLto) \/ i = Switch Lto \/ i = Switch NoLto) by (destruct i as [s|s x|x]; [destruct s|..]; solve [left; split; discriminate|right; auto]).
  destruct K as [[N1 N2]|[-> | ->]].
  - exists o. split.
    + rewrite <- G. destruct i as [t|t x|x]; [|rewrite opts_set; apply process_other; apply (mixed_dest Lto)|now rewrite opts_file].
      rewrite opts_switch, process_switch. apply dget_dset_neq. change (tx "use_dwarf") with (op_dest (switch_opt Lto)). intros E. destruct (switch_dest _ _ E) as [<-|[_ [->| ->]]]; auto.
    + inversion L; subst.
      * constructor; rewrite in_app_iff; cbn [In]; intuition congruence.
      * rewrite <- app_assoc. cbn [app]. constructor; rewrite in_app_iff; cbn [In]; intuition congruence.
      * rewrite <- app_assoc. cbn [app]. constructor; rewrite in_app_iff; cbn [In]; intuition congruence.
  - exists (Some true). split; [rewrite opts_switch, process_switch; apply dget_dset_eq|constructor; intros []].
  - exists (Some false). split; [rewrite opts_switch, process_switch; apply dget_dset_eq|constructor; intros []].
Qed.

(** ** help and documentation *)
Lemma eager_dset k v o : eager (dset k v o) = match eager o with Some a => Some a | None => if k =?= tx "help" then Some AskHelp else if k =?= tx "doc" then Some AskDoc else None end.
Proof.
  induction o as [|[k' v'] o IH]; [reflexivity|]. cbn [dset]. destruct (keqP k k') as [->|N]; cbn [eager].
  - destruct (k' =?= tx "help"); [reflexivity|]. destruct (k' =?= tx "doc"); [reflexivity|]. destruct (eager o); reflexivity.
  - rewrite IH. destruct (k' =?= tx "help"); [reflexivity|]. destruct (k' =?= tx "doc"); reflexivity.
Qed.
Definition ask (s : switch) : option asked := match s with Help => Some AskHelp | Doc => Some AskDoc | _ => None end.
Lemma eager_snoc l i : eager (opts_of (l ++ [i])) = match eager (opts_of l) with Some a => Some a | None => match i with Switch s => ask s | _ => None end end.
Proof.
  destruct i as [s|s x|x].
  - rewrite opts_switch, process_switch, eager_dset. destruct s; reflexivity.
  - rewrite opts_set. unfold process. destruct (op_action (setting_opt s)) eqn:E; [destruct s; discriminate E| |]; rewrite eager_dset; destruct s; reflexivity.
  - rewrite opts_file. now destruct (eager (opts_of l)).
Qed.
Lemma eager_said l :
  match eager (opts_of l) with
  | Some a => exists s, ask s = Some a /\ asks_for s l
  | None => ~ In (Switch Doc) l /\ ~ In (Switch Help) l
  end.
Proof.
  induction l as [|i l IH] using rev_ind; [split; intros []|]. rewrite eager_snoc. destruct (eager (opts_of l)) as [a|] eqn:E.
  - destruct IH as (s & A & u & v & -> & D & H). exists s. split; [exact A|]. exists u, (v ++ [i]). rewrite <- app_assoc. auto.
  - destruct IH as [D H]. destruct i as [s|s x|x].
    + destruct (ask s) as [a|] eqn:A.
      * exists s. split; [exact A|]. exists l, []. auto.
      * rewrite !in_app_iff. cbn [In]. split; intros [I|[I|[]]]; auto; injection I as ->; discriminate A.
    + rewrite !in_app_iff. cbn [In]. split; intros [I|[I|[]]]; auto; discriminate I.
    + rewrite !in_app_iff. cbn [In]. split; intros [I|[I|[]]]; auto; discriminate I.
Qed.
Lemma asks_eager l s a : ask s = Some a -> asks_for s l -> eager (opts_of l) = Some a.
Proof.
  intros A (u & v & -> & D & H). induction v as [|i v IH] using rev_ind.
  - rewrite eager_snoc. pose proof (eager_said u) as E. destruct (eager (opts_of u)) as [b|]; [|exact A].
    destruct E as (t & T & w & z & -> & _). destruct t; try discriminate T; [destruct D|destruct H]; apply in_or_app; right; now left.
  - change (u ++ Switch s :: v ++ [i]) with (u ++ (Switch s :: v) ++ [i]). rewrite app_assoc, eager_snoc, IH. reflexivity.
Qed.

(** ** the format *)
Lemma format_choice x f : dget (lower x) choices = Some f <-> lowered x (tx (format_text f)).
Proof.
  rewrite lowered_eq. split.
  - intros E. unfold choices in E. cbn [dget] in E.
    repeat match type of E with (if ?a =?= ?b then _ else _) = _ => destruct (keqP a b) as [->|]; [injection E as <-; reflexivity|] end. discriminate E.
  - intros E. rewrite <- E. destruct f; reflexivity.
Qed.
Lemma get_format_said l f : get_format (opts_of l) = Some f <-> names_format (last_value Format l) f.
Proof.
  unfold get_format. rewrite (get_text_said Format) by (discriminate || reflexivity). destruct (last_value Format l) as [x|]; cbn [names_format].
  - apply format_choice.
  - split; congruence.
Qed.

(** ** the command *)
Lemma cmd_means l env f input : files l = [input] -> names_format (last_value Format l) f -> means l env (get_cmd (opts_of l) env f input).
Proof.
  intros F N. unfold get_cmd. constructor; cbn [c_input c_args a_format a_archives a_archive_dependencies a_dep_symbols a_dep_reverse a_archive_details a_files a_diff a_no_abbrev a_unify a_show_unused a_show_unchanged a_use_flash_size a_use_dwarf a_output_file a_sort a_filter a_sort_diff a_sort_reverse c_quiet c_no_color c_force_terminal];
    try exact F; try exact N;
    try (match goal with |- switched ?s _ _ => apply (get_flag_said s); [intros [H|H]; discriminate H|reflexivity|reflexivity] end);
    try (match goal with |- get_text _ _ = last_value ?s _ => apply (get_text_said s); [discriminate|reflexivity] end).
  - destruct (lto_get l) as (o & G & L). rewrite G. destruct o; exact L.
  - rewrite (get_text_said Sort) by (discriminate || reflexivity). destruct (last_value Sort l); reflexivity.
  - unfold get_filter. rewrite filter_said. destruct (values Filter l) eqn:E; [reflexivity|]. split; [reflexivity|discriminate].
  - unfold switched, get_flag. change (tx "sort_reverse") with (op_dest (switch_opt SortReverse)). destruct (flag_said SortReverse l ltac:(intros [H|H]; discriminate H)) as [A B].
    destruct (in_dec (fun i j : item => ltac:(repeat decide equality)) (Switch SortReverse) l) as [I|I].
    + rewrite (A I). now split.
    + rewrite (B I). split; [discriminate|contradiction].
  - change (tx "force_terminal") with (op_dest (switch_opt ForceTerminal)). destruct (flag_said ForceTerminal l ltac:(intros [H|H]; discriminate H)) as [A B].
    destruct (in_dec (fun i j : item => ltac:(repeat decide equality)) (Switch ForceTerminal) l) as [I|I].
    + rewrite (A I). split; [discriminate|]. split; auto.
    + rewrite (B I). destruct env; (split; [discriminate|]); split; auto; try discriminate. intros [J|J]; [contradiction|discriminate].
Qed.

Lemma read_items ws l : says ws l -> process_args ws [] [] = Some (opts_of l, files l).
Proof.
  intros H. etransitivity; [apply (says_read _ _ H)|]. f_equal. etransitivity; [apply surjective_pairing|]. f_equal. apply (files_snd l [] []).
Qed.
Lemma parse_says env ws l : says ws l -> understood env l (parse_command_line env ws).
Proof.
  intros H. unfold parse_command_line. rewrite (read_items _ _ H).
  pose proof (eager_said l) as G. destruct (eager (opts_of l)) as [a|].
  - destruct G as (s & A & B). destruct s; try discriminate A; injection A as <-; exact B.
  - destruct G as [D P]. destruct (get_format (opts_of l)) as [f|] eqn:Ef.
    + apply get_format_said in Ef. destruct (files l) as [|x [|y r]] eqn:Fl; cbn [understood].
      * split; [exact D|split; [exact P|]]. intros c M. destruct M. congruence.
      * split; [exact D|split; [exact P|]]. now apply cmd_means.
      * split; [exact D|split; [exact P|]]. intros c M. destruct M. congruence.
    + cbn [understood]. split; [exact D|split; [exact P|]]. intros c M. apply mn_format in M. apply get_format_said in M. congruence.
Qed.
Lemma parse_said env ws : parse_command_line env ws <> AskNonsense -> exists l, says ws l.
Proof.
  unfold parse_command_line. intros N. destruct (process_args ws [] []) as [r|] eqn:E; [|now destruct N]. exact (read_said _ _ _ _ E).
Qed.
