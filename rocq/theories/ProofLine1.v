(** * Proofs about the command line: the words and the items *)
From Coq Require Import Ascii String List Bool Arith Lia.
From Verif Require Import Base MemMap PyStr Main CommandLine SpecLetters SpecLine.
Import ListNotations.
Open Scope list_scope.
Local Notation tx := list_ascii_of_string.

Definition switch_opt (s : switch) : opt :=
  match s with
  | Archives => flag ["--archives"%string] "archives"
  | ArchiveDependencies => flag ["--archive-dependencies"%string; "--archive-deps"%string] "archive_dependencies"
  | DepSymbols => flag ["--dep-symbols"%string; "--dep-syms"%string] "dep_symbols"
  | DepReverse => flag ["--dep-reverse"%string; "--dep-rev"%string] "dep_reverse"
  | Files => flag ["--files"%string] "files"
  | NoAbbrev => flag ["--no-abbrev"%string] "no_abbrev"
  | Unify => flag ["--unify"%string] "unify"
  | ShowUnused => flag ["--show-unused"%string] "show_unused"
  | ShowUnchanged => flag ["--show-unchanged"%string] "show_unchanged"
  | UseFlashSize => flag ["--use-flash-size"%string] "use_flash_size"
  | Lto => flag ["--lto"%string] "use_dwarf"
  | NoLto => Opt [tx "--no-lto"] (tx "use_dwarf") (AConst false)
  | Debug => flag ["-d"%string; "--debug"%string] "debug"
  | SortDiff => flag ["--sort-diff"%string] "sort_diff"
  | SortReverse => Opt [tx "--sort-reverse"] (tx "sort_reverse") (AConst false)
  | Quiet => flag ["-q"%string; "--quiet"%string] "quiet"
  | NoColor => flag ["--no-color"%string] "no_color"
  | ForceTerminal => flag ["--force-terminal"%string] "force_terminal"
  | Doc => flag ["--doc"%string] "doc"
  | Help => flag ["-h"%string; "--help"%string] "help"
  end.
Definition setting_opt (s : setting) : opt :=
  match s with
  | Format => valued ["--format"%string] "format"
  | ArchiveDetails => valued ["--archive-details"%string; "--archive_details"%string] "archive_details"
  | Diff => valued ["--diff"%string] "diff"
  | OutputFile => valued ["-o"%string; "--output-file"%string] "output_file"
  | Sort => valued ["-s"%string; "--sort"%string] "sort"
  | Filter => Opt [tx "-F"; tx "--filter"] (tx "filter") AAppend
  end.

Definition state := (dict str cval * list str)%type.
Definition apply (st : state) (i : item) : state :=
  match i with
  | Switch s => (process (switch_opt s) [] (fst st), snd st)
  | Set_ s x => (process (setting_opt s) x (fst st), snd st)
  | File x => (fst st, snd st ++ [x])
  end.
Definition apply_all (l : list item) (st : state) : state := fold_left apply l st.
Lemma apply_files fs : forall o la, apply_all (map File fs) (o, la) = (o, la ++ fs).
Proof.
  induction fs as [|f fs IH]; intros o la; [now rewrite app_nil_r|]. cbn [map apply_all fold_left apply fst snd]. unfold apply_all in IH. rewrite IH, <- app_assoc. reflexivity.
Qed.
Lemma apply_app a b st : apply_all (a ++ b) st = apply_all b (apply_all a st).
Proof. apply fold_left_app. Qed.

(** ** the names *)
Lemma switch_name s n : In n (switch_names s) ->
  split_eq (tx n) = (tx n, None) /\ long_opt (tx n) = Some (switch_opt s) /\ is_option (tx n) = true /\ ((tx n : str) =?= [dash; dash]) = false /\ takes_value (switch_opt s) = false.
Proof.
  destruct s; cbn [switch_names In]; intros H; repeat (destruct H as [<-|H]; [vm_compute; repeat split|]); destruct H.
Qed.
Lemma cut_at_app (n x : str) : (forall c, In c n -> c <> "="%char) -> cut_at "="%char (n ++ "="%char :: x) = Some (n, x).
Proof.
  induction n as [|c n IH]; intros H; cbn [app cut_at].
  - now rewrite keq_refl.
  - rewrite (proj2 (keq_neq c "="%char)) by (apply H; now left). rewrite IH; [reflexivity|]. intros d D. apply H. now right.
Qed.
Lemma setting_name s n : In n (setting_names s) ->
  split_eq (tx n) = (tx n, None) /\ long_opt (tx n) = Some (setting_opt s) /\ is_option (tx n) = true /\ ((tx n : str) =?= [dash; dash]) = false /\
  takes_value (setting_opt s) = true /\ (forall c, In c (tx n) -> c <> "="%char) /\ exists x, tx n = dash :: dash :: x /\ x <> [].
Proof.
  destruct s; cbn [setting_names In]; intros H;
    repeat (destruct H as [<-|H];
      [repeat match goal with |- _ /\ _ => split end;
        [vm_compute; reflexivity|vm_compute; reflexivity|vm_compute; reflexivity|vm_compute; reflexivity|vm_compute; reflexivity|
         cbn [list_ascii_of_string In]; intros c C; intros ->; repeat (destruct C as [C|C]; [discriminate C|]); destruct C|eexists; split; [reflexivity|discriminate]]|]); destruct H.
Qed.
Lemma switch_letter_opt s c : switch_letter s c -> short_opt c = Some (switch_opt s) /\ takes_value (switch_opt s) = false.
Proof. destruct 1; vm_compute; split; reflexivity. Qed.
Lemma setting_letter_opt s c : setting_letter s c -> short_opt c = Some (setting_opt s) /\ takes_value (setting_opt s) = true.
Proof. destruct 1; vm_compute; split; reflexivity. Qed.

Lemma letters_ok cs k : letters cs k -> forall o la, exists o', match_short cs o = SDone o' /\ apply_all k (o, la) = (o', la).
Proof.
  induction 1 as [|s c cs l L H IH|s c x L N]; intros o la; cbn [match_short].
  - now exists o.
  - destruct (switch_letter_opt _ _ L) as [E V]. rewrite E, V. destruct (IH (process (switch_opt s) [] o) la) as (o' & A & B). exists o'. auto.
  - destruct (setting_letter_opt _ _ L) as [E V]. rewrite E, V. destruct x as [|d x]; [now destruct N|]. eexists. split; reflexivity.
Qed.
Lemma letters_before_ok cs k s : letters_before cs k s -> forall o la, exists o', match_short cs o = SNext (setting_opt s) o' /\ apply_all k (o, la) = (o', la).
Proof.
  induction 1 as [s c L|s c cs l t L H IH]; intros o la; cbn [match_short].
  - destruct (setting_letter_opt _ _ L) as [E V]. rewrite E, V. now exists o.
  - destruct (switch_letter_opt _ _ L) as [E V]. rewrite E, V. destruct (IH (process (switch_opt s) [] o) la) as (o' & A & B). exists o'. auto.
Qed.

(** a word of letters is no long option *)
Lemma short_letter c o : short_opt c = Some o -> In c ["d"; "q"; "h"; "o"; "s"; "F"]%char.
Proof. destruct c as [[] [] [] [] [] [] [] []]; vm_compute; intros E; try discriminate E; auto 10. Qed.
Lemma split_eq_head c w : c <> "="%char -> fst (split_eq (c :: w)) = c :: fst (split_eq w).
Proof.
  intros N. unfold split_eq. cbn [cut_at]. rewrite (proj2 (keq_neq _ _) N). destruct (cut_at "="%char w) as [[a b]|]; reflexivity.
Qed.
Lemma long_two n o : long_opt n = Some o -> exists x, n = dash :: dash :: x /\ x <> [].
Proof.
  unfold long_opt. destruct (is_short n) eqn:S; [discriminate|]. intros F. apply find_some in F. destruct F as [I M].
  unfold mem in M. apply existsb_exists in M. destruct M as (m & J & E). apply keq_true in E. subst m.
  cbn [options In] in I. repeat (destruct I as [<-|I]; [cbn in J; repeat (destruct J as [<-|J]; [first [discriminate S|eexists; split; [reflexivity|discriminate]]|]); destruct J|]). destruct I.
Qed.
Lemma no_long c cs : In c ["d"; "q"; "h"; "o"; "s"; "F"]%char -> long_opt (fst (split_eq (dash :: c :: cs))) = None /\ two_dashes (dash :: c :: cs) = false /\
  is_option (dash :: c :: cs) = true /\ ((dash :: c :: cs : str) =?= [dash; dash]) = false.
Proof.
  intros I. assert (N : c <> dash) by (cbn [In] in I; intros ->; repeat (destruct I as [I|I]; [discriminate I|]); destruct I).
  assert (Q : c <> "="%char) by (cbn [In] in I; intros ->; repeat (destruct I as [I|I]; [discriminate I|]); destruct I).
  split; [|split; [|split; [reflexivity|]]].
  - destruct (long_opt _) eqn:E; [|reflexivity]. apply long_two in E. destruct E as (x & E & _).
    rewrite split_eq_head, split_eq_head in E by (assumption || discriminate). injection E as E _. congruence.
  - unfold two_dashes. rewrite (proj2 (keq_neq _ _) N). apply andb_false_r.
  - apply keq_neq. intros E. injection E as E _. congruence.
Qed.
Lemma word_letters c cs o : In c ["d"; "q"; "h"; "o"; "s"; "F"]%char -> process_opts (dash :: c :: cs) o = match_short (c :: cs) o.
Proof.
  intros I. destruct (no_long c cs I) as (L & T & _). unfold process_opts. destruct (split_eq (dash :: c :: cs)) as [n v] eqn:E. cbn [fst] in L. rewrite L, T. reflexivity.
Qed.
Lemma letters_first cs k : letters cs k -> cs <> [] -> exists c r, cs = c :: r /\ In c ["d"; "q"; "h"; "o"; "s"; "F"]%char.
Proof. destruct 1 as [|s c cs l L H|s c x L N]; intros E; [now destruct E| |]; eexists _, _; (split; [reflexivity|]); destruct L; cbn; auto 10. Qed.
Lemma letters_before_first cs k s : letters_before cs k s -> exists c r, cs = c :: r /\ In c ["d"; "q"; "h"; "o"; "s"; "F"]%char.
Proof. destruct 1 as [s c L|s c cs l t L H]; eexists _, _; (split; [reflexivity|]); destruct L; cbn; auto 10. Qed.

Lemma not_option w : no_option w <-> is_option w = false.
Proof.
  unfold no_option, is_option. destruct w as [|a [|b w]].
  - split; [reflexivity|]. left. discriminate.
  - split; [reflexivity|]. intros _. destruct (keqP a "-"%char) as [->|N]; [now right|]. left. intros x E. injection E as E _. congruence.
  - unfold dash. rewrite keq_neq. split; [intros [H|H] ->; [now apply (H (b :: w))|discriminate]|]. intros N. left. intros x E. injection E as E _. congruence.
Qed.

(** ** reading what is said *)
Lemma says_read ws l : says ws l -> forall o la, process_args ws o la = Some (apply_all l (o, la)).
Proof.
  induction 1 as [|fs|w ws l N H IH|s n ws l N H IH|s n x ws l N H IH|s n x ws l N H IH|cs k ws l NE L H IH|cs k s x ws l L H IH]; intros o la.
  - reflexivity.
  - cbn [process_args]. rewrite apply_files. reflexivity.
  - cbn [process_args]. assert (D : (w =?= [dash; dash]) = false) by (apply keq_neq; intros ->; destruct N as [N|N]; [now apply (N [dash])|discriminate]).
    rewrite D, (proj1 (not_option w) N), IH. reflexivity.
  - destruct (switch_name _ _ N) as (E & F & G & D & V). cbn [process_args]. rewrite D, G. unfold process_opts. rewrite E, F, V. rewrite IH. reflexivity.
  - destruct (setting_name _ _ N) as (E & F & G & D & V & _). cbn [process_args]. rewrite D, G. unfold process_opts. rewrite E, F, V. rewrite IH. reflexivity.
  - destruct (setting_name _ _ N) as (E & F & G & D & V & Q & y & T & NE). cbn [process_args].
    assert (G' : is_option (tx n ++ "="%char :: x) = true) by (rewrite T; destruct y; reflexivity).
    assert (D' : ((tx n ++ "="%char :: x : str) =?= [dash; dash]) = false) by (apply keq_neq; rewrite T; destruct y; discriminate).
    rewrite D', G'. unfold process_opts, split_eq. rewrite (cut_at_app _ x Q), F, V, IH. reflexivity.
  - destruct (letters_first _ _ L NE) as (c & r & -> & I). destruct (no_long c r I) as (_ & _ & G & D). cbn [process_args]. fold dash. rewrite D, G, word_letters by exact I.
    destruct (letters_ok _ _ L o la) as (o' & A & B). rewrite A, IH, apply_app, B. reflexivity.
  - destruct (letters_before_first _ _ _ L) as (c & r & -> & I). destruct (no_long c r I) as (_ & _ & G & D). cbn [process_args]. fold dash. rewrite D, G, word_letters by exact I.
    destruct (letters_before_ok _ _ _ L o la) as (o' & A & B). rewrite A, IH, apply_app, B. reflexivity.
Qed.

(** ** everything that is read is said *)
Lemma letter_kind c o : short_opt c = Some o ->
  (exists s, switch_letter s c /\ o = switch_opt s /\ takes_value o = false) \/ (exists s, setting_letter s c /\ o = setting_opt s /\ takes_value o = true).
Proof.
  intros E. pose proof (short_letter _ _ E) as I. cbn [In] in I.
  destruct I as [<-|[<-|[<-|[<-|[<-|[<-|[]]]]]]]; vm_compute in E; injection E as <-.
  - left. exists Debug. repeat split; constructor.
  - left. exists Quiet. repeat split; constructor.
  - left. exists Help. repeat split; constructor.
  - right. exists OutputFile. repeat split; constructor.
  - right. exists Sort. repeat split; constructor.
  - right. exists Filter. repeat split; constructor.
Qed.
Lemma short_said cs : forall o, match match_short cs o with SBad => True | SDone _ => exists k, letters cs k | SNext p _ => exists k s, letters_before cs k s /\ p = setting_opt s end.
Proof.
  induction cs as [|c cs IH]; intros o; cbn [match_short]; [exists []; constructor|].
  destruct (short_opt c) as [p|] eqn:E; [|exact I]. destruct (letter_kind _ _ E) as [(s & L & -> & V)|(s & L & -> & V)]; rewrite V.
  - specialize (IH (process (switch_opt s) [] o)). destruct (match_short cs _); [exact I| |].
    + destruct IH as (k & K). exists (Switch s :: k). now constructor.
    + destruct IH as (k & t & K & ->). exists (Switch s :: k), t. split; [now constructor|reflexivity].
  - destruct cs as [|d cs].
    + exists [], s. split; [now constructor|reflexivity].
    + exists [Set_ s (d :: cs)]. now constructor.
Qed.
Lemma long_kind n o : long_opt n = Some o ->
  (exists s m, n = tx m /\ In m (switch_names s) /\ o = switch_opt s /\ takes_value o = false) \/ (exists s m, n = tx m /\ In m (setting_names s) /\ o = setting_opt s /\ takes_value o = true).
Proof.
  unfold long_opt. destruct (is_short n) eqn:S; [discriminate|]. intros F. apply find_some in F. destruct F as [I M].
  unfold mem in M. apply existsb_exists in M. destruct M as (m & J & E). apply keq_true in E. subst m.
  cbn [options In] in I.
  Ltac pick s := left; exists s; match goal with |- exists m, ?n = _ /\ _ => exists (string_of_list_ascii n) end; split; [reflexivity|split; [vm_compute; tauto|split; reflexivity]].
  Ltac pickv s := right; exists s; match goal with |- exists m, ?n = _ /\ _ => exists (string_of_list_ascii n) end; split; [reflexivity|split; [vm_compute; tauto|split; reflexivity]].
  repeat (destruct I as [<-|I]; [cbn in J; repeat (destruct J as [<-|J];
    [first [discriminate S
     |pick Archives|pick ArchiveDependencies|pick DepSymbols|pick DepReverse|pick Files|pick NoAbbrev|pick Unify|pick ShowUnused|pick ShowUnchanged|pick UseFlashSize
     |pick Lto|pick NoLto|pick Debug|pick SortDiff|pick SortReverse|pick Quiet|pick NoColor|pick ForceTerminal|pick Doc|pick Help
     |pickv Format|pickv ArchiveDetails|pickv Diff|pickv OutputFile|pickv Sort|pickv Filter]|]); destruct J|]).
  destruct I.
Qed.
Lemma cut_at_some w : forall n x, cut_at "="%char w = Some (n, x) -> w = n ++ "="%char :: x.
Proof.
  induction w as [|c w IH]; intros n x E; cbn [cut_at] in E; [discriminate|]. destruct (keqP c "="%char) as [->|N]; [injection E as <- <-; reflexivity|].
  destruct (cut_at "="%char w) as [[a b]|]; [|discriminate]. injection E as <- <-. cbn [app]. f_equal. now apply IH.
Qed.
Lemma word_said w o : is_option w = true ->
  match process_opts w o with
  | SBad => True
  | SDone _ => forall ws l, says ws l -> exists m, says (w :: ws) m
  | SNext p _ => forall x ws l, says ws l -> exists m, says (w :: x :: ws) m
  end.
Proof.
  intros P. destruct w as [|a [|b w]]; try discriminate P. cbn [is_option] in P. apply keq_true in P. subst a.
  unfold process_opts. destruct (split_eq (dash :: b :: w)) as [n v] eqn:E. destruct (long_opt n) as [p|] eqn:L.
  - destruct (long_kind _ _ L) as [(s & m & -> & I & -> & V)|(s & m & -> & I & -> & V)]; rewrite V.
    + destruct v; [exact Logic.I|]. unfold split_eq in E. destruct (cut_at _ _) as [[x y]|]; [discriminate E|]. injection E as E. rewrite E. intros ws l H. eexists. apply says_switch; eassumption.
    + unfold split_eq in E. destruct v as [v|].
      * destruct (cut_at _ _) as [[x y]|] eqn:C; [|discriminate E]. injection E as -> ->. apply cut_at_some in C. rewrite C. intros ws l H. eexists. apply says_equals; eassumption.
      * destruct (cut_at _ _) as [[x y]|]; [discriminate E|]. injection E as E. rewrite E. intros x ws l H. eexists. apply says_setting; eassumption.
  - destruct (two_dashes _); [exact Logic.I|]. cbn [tl]. pose proof (short_said (b :: w) o) as S. destruct (match_short (b :: w) o); [exact Logic.I| |].
    + destruct S as (k & K). intros ws l H. eexists. apply says_letters; [discriminate|eassumption|eassumption].
    + destruct S as (k & s & K & _). intros x ws l H. eexists. apply says_letters_value; eassumption.
Qed.
Lemma read_said ws : forall o la r, process_args ws o la = Some r -> exists l, says ws l.
Proof.
  enough (G : forall n ws, List.length ws <= n -> forall o la r, process_args ws o la = Some r -> exists l, says ws l) by (intros; eapply (G (List.length ws)); eauto).
  induction n as [|n IH]; intros w Ln o la r E.
  - destruct w; [|cbn in Ln; lia]. exists []. constructor.
  - destruct w as [|w ws']; [exists []; constructor|]. cbn in Ln. cbn [process_args] in E.
    destruct (keqP w [dash; dash]) as [->|D]; [exists (map File ws'); apply says_rest|].
    destruct (is_option w) eqn:O.
    + pose proof (word_said w o O) as W. destruct (process_opts w o) as [|o'|p o']; [discriminate E| |].
      * destruct (IH ws' ltac:(lia) _ _ _ E) as (l & H). exact (W _ _ H).
      * destruct ws' as [|v ws']; [discriminate E|]. cbn in Ln. destruct (IH ws' ltac:(lia) _ _ _ E) as (l & H). exact (W v _ _ H).
    + destruct (IH ws' ltac:(lia) _ _ _ E) as (l & H). exists (File w :: l). apply says_file; [now apply not_option|exact H].
Qed.
