(** * Proofs about JSON texts with markup and DOT texts *)
From Coq Require Import Ascii String List ZArith Lia Bool.
From Verif Require Import Base MemMap Filter PyStr Pipeline MapFile Deps Table SpecTable SpecMap ProofTable Formats Markup Project Main JsonText Text SpecText ProofText1 ProofText2.
Import ListNotations.
Open Scope list_scope.

(** ** JSON *)
Lemma escape_free c : c <> lbracket -> no_bracket (escape_char c).
Proof. destruct c as [[] [] [] [] [] [] [] []]; intros N; try (now elim N); unfold no_bracket; vm_compute; intuition discriminate. Qed.
Lemma string_quiet s : no_bracket s -> quiet (json_string s).
Proof.
  intros N. unfold json_string. change (quote :: ?x) with ([quote] ++ x). apply quiet_app; [repeat split; discriminate|].
  apply quiet_before; [|discriminate|repeat split; discriminate]. intros I. apply in_flat_map in I. destruct I as (c & I & E). apply (escape_free c); [|exact E].
  intros ->. exact (N I).
Qed.
Lemma spaces_quiet n : quiet (repeat " "%char n).
Proof. apply quiet_clean. intros c I. apply repeat_spec in I. subst c. split; discriminate. Qed.
Lemma new_line_quiet n : quiet (new_line n).
Proof. unfold new_line. split; [discriminate|]. split; [discriminate|]. apply spaces_quiet. Qed.
Lemma join_quiet n l : Forall quiet l -> quiet (join_with (","%char :: new_line n) l).
Proof.
  induction 1 as [|x l Q F IH]; [exact I|]. destruct l as [|y l]; [exact Q|]. change (join_with (","%char :: new_line n) (x :: y :: l)) with (x ++ (","%char :: new_line n) ++ join_with (","%char :: new_line n) (y :: l)).
  apply quiet_app; [exact Q|]. apply quiet_app; [|exact IH]. split; [discriminate|]. split; [discriminate|]. apply new_line_quiet.
Qed.
Lemma single_quiet c : c <> lbracket -> c <> backslash -> quiet [c].
Proof. intros A B. repeat split; intros; contradiction. Qed.

Lemma dumps_quiet j : names_free j -> forall n, quiet (dumps n j).
Proof.
  induction j as [|b|z|s|l IH|d IH] using json_rect'; intros N n.
  - repeat split; discriminate.
  - destruct b; repeat split; discriminate.
  - apply number_quiet, show_Z_chars.
  - now apply string_quiet.
  - destruct l as [|x l]; [repeat split; try discriminate; now intros _|].
    change (dumps n (JList (x :: l))) with (("["%char :: new_line (S n)) ++ join_with (","%char :: new_line (S n)) (map (dumps (S n)) (x :: l)) ++ new_line n ++ ["]"%char]).
    apply quiet_app; [split; [reflexivity|]; split; [discriminate|apply new_line_quiet]|].
    apply quiet_app; [|apply quiet_app; [apply new_line_quiet|apply single_quiet; discriminate]]. apply join_quiet.
    revert N. generalize (x :: l) IH. clear. induction 1 as [|x l H F IH]; intros N; constructor; [apply H, N|]. apply IH, N.
  - destruct d as [|x d]; [repeat split; discriminate|].
    change (dumps n (JObj (x :: d))) with (("{"%char :: new_line (S n)) ++ join_with (","%char :: new_line (S n)) (map (member_text (S n)) (x :: d)) ++ new_line n ++ ["}"%char]).
    apply quiet_app; [split; [discriminate|]; split; [discriminate|apply new_line_quiet]|].
    apply quiet_app; [|apply quiet_app; [apply new_line_quiet|apply single_quiet; discriminate]]. apply join_quiet.
    revert N. generalize (x :: d) IH. clear. induction 1 as [|x d H F IH]; intros N; constructor; [|apply IH, N].
    destruct N as (N1 & N2 & _). unfold member_text. apply quiet_app; [now apply string_quiet|]. apply quiet_app; [repeat split; discriminate|]. now apply H.
Qed.
Lemma dumps_shown nm j : names_free j -> shown_as nm (dumps 0 j) (dumps 0 j).
Proof. intros N. unfold shown_as. eapply seg_plain. now apply seg_quiet, dumps_quiet. Qed.

(** ** DOT: markup *)
Lemma tag_text_here t rest : Forall (fun c => c <> lbracket /\ c <> rbracket) t -> tag_text (t ++ rbracket :: rest) = Some t.
Proof.
  induction 1 as [|c t [A B] F IH]; cbn [app tag_text]; [now rewrite keq_refl|]. destruct (keqP c rbracket); [contradiction|]. destruct (keqP c lbracket); [contradiction|]. now rewrite IH.
Qed.
Lemma parse_skip a : forall acc rest, parse (length a) acc (a ++ rest) = parse 0 acc rest.
Proof. induction a as [|c a IH]; intros acc rest; [reflexivity|]. cbn [length app parse]. apply IH. Qed.
Lemma unescape_free s : no_bracket s -> unescape s = s.
Proof.
  induction s as [|c s IH]; intros N; [reflexivity|]. cbn [unescape]. rewrite IH by (intros H; apply N; now right).
  destruct s as [|d s]; [reflexivity|]. destruct (keqP d lbracket) as [->|D]; [elim N; right; now left|]. now rewrite andb_false_r.
Qed.
Lemma parse_tag acc c s k t : tag_here (c :: s) = Some (k, t) ->
  parse 0 acc (c :: s) = flush acc ++ flush (repeat backslash (Nat.div2 k)) ++ (if Nat.odd k then Txt (lbracket :: t ++ [rbracket]) else Tag t) :: parse (k + length t + 1) [] s.
Proof. intros T. cbn [parse]. now rewrite T. Qed.
Section Rich.
Variable nm : str -> str.
Lemma seg_escaped c t : tag_start c = true -> Forall (fun c => c <> lbracket /\ c <> rbracket) (c :: t) ->
  seg nm (backslash :: lbracket :: (c :: t) ++ [rbracket]) (lbracket :: (c :: t) ++ [rbracket]) (fun st => st).
Proof.
  intros C F st rest. unfold out. set (u := c :: t) in *.
  assert (E : (backslash :: lbracket :: u ++ [rbracket]) ++ rest = backslash :: lbracket :: u ++ rbracket :: rest) by (cbn [app]; now rewrite <- app_assoc).
  rewrite E. assert (T : tag_here (backslash :: lbracket :: u ++ rbracket :: rest) = Some (1%nat, u)).
  { unfold tag_here. cbn [backslashes]. rewrite keq_refl. replace (lbracket =?= backslash) with false by reflexivity.
    cbv iota. subst u. cbn [app]. rewrite keq_refl, C. cbn [andb]. change (c :: t ++ rbracket :: rest) with ((c :: t) ++ rbracket :: rest). now rewrite tag_text_here. }
  rewrite (parse_tag _ _ _ _ _ T). change (Nat.odd 1) with true. change (flush (repeat backslash (Nat.div2 1))) with (@nil token). change (flush []) with (@nil token). cbv iota. rewrite !app_nil_l.
  assert (P : parse (1 + length u + 1) [] (lbracket :: u ++ rbracket :: rest) = parse 0 [] rest).
  { generalize u. clear. intros u. replace (1 + length u + 1)%nat with (length (lbracket :: u ++ [rbracket])) by (cbn [length]; rewrite app_length; cbn [length]; lia).
    replace (lbracket :: u ++ rbracket :: rest) with ((lbracket :: u ++ [rbracket]) ++ rest) by (cbn [app]; now rewrite <- app_assoc). apply parse_skip. }
  rewrite P. cbn [render]. 
  assert (N : no_bracket (u ++ [rbracket])).
  { intros I. apply in_app_or in I. destruct I as [I|[I|[]]]; [|discriminate]. rewrite Forall_forall in F. destruct (F _ I) as [A _]. now apply A. }
  assert (U : unescape (lbracket :: u ++ [rbracket]) = lbracket :: u ++ [rbracket]).
  { subst u. cbn [app]. rewrite unescape_cons. replace (lbracket =?= backslash) with false by reflexivity. cbn [andb]. change (c :: t ++ [rbracket]) with ((c :: t) ++ [rbracket]). now rewrite unescape_free. }
  rewrite U. reflexivity.
Qed.
End Rich.

Definition name_char (c : ascii) : Prop := ~ In c ["["%char; "]"%char; """"%char; "\"%char].
Lemma name_quiet s : dot_name s -> quiet s.
Proof. intros F. apply quiet_clean. intros c I. unfold dot_name in F. rewrite Forall_forall in F. specialize (F c I). split; intros ->; apply F; cbn; auto. Qed.
Definition bracket_free (s : str) : Prop := Forall (fun c => c <> lbracket /\ c <> rbracket) s.
Lemma name_free s : dot_name s -> bracket_free s.
Proof. intros F. eapply Forall_impl; [|exact F]. cbv beta. intros c N. split; intros ->; apply N; cbn; auto. Qed.
Lemma number_free s : forallb number_char s = true -> bracket_free s.
Proof. intros F. apply Forall_forall. intros c I. rewrite forallb_forall in F. specialize (F c I). split; intros ->; discriminate F. Qed.
Lemma number_name s : forallb number_char s = true -> dot_name s.
Proof. intros F. apply Forall_forall. intros c I H. rewrite forallb_forall in F. specialize (F c I). cbn [In] in H. repeat (destruct H as [<-|H]; [discriminate F|]). contradiction. Qed.
Lemma join_names l : Forall dot_name l -> dot_name (join_lines l).
Proof.
  induction 1 as [|x l N F IH]; [constructor|]. destruct l as [|y l]; [exact N|]. change (join_lines (x :: y :: l)) with (x ++ newline :: join_lines (y :: l)).
  apply Forall_app. split; [exact N|]. constructor; [cbn; intuition discriminate|exact IH].
Qed.

(** the text of a line without escapes *)
Definition shown_line (l : dot_line) : str :=
  match l with
  | DotNode name label size outer =>
    key """" ++ name ++ key """ [shape=" ++ key (if outer then "box" else "ellipse") ++ key ", label=""" ++ label ++
    key " (" ++ show_Z size ++ key ")"", style=filled, fillcolor=""" ++ key (if outer then "darkorange3" else "azure") ++ key """]"
  | DotEdge x y syms =>
    key """" ++ x ++ key """ -> """ ++ y ++ key """" ++
    match syms with Some l => key " [label=""" ++ join_lines l ++ key """]" | None => [] end
  end.
Ltac lit := apply seg_quiet; repeat split; discriminate.
Ltac free_lit := repeat constructor; discriminate.
Lemma line_shown nm l : dot_names l -> seg nm (dot_line_text l) (shown_line l) (fun st => st).
Proof.
  destruct l as [name label size outer|x y [syms|]]; cbn [dot_names]; intros H.
  - destruct H as [N L]. unfold dot_line_text, shown_line. apply seg_app_id; [lit|]. apply seg_app_id; [now apply seg_quiet, name_quiet|].
    change (key """ \[shape=") with (key """ " ++ backslash :: lbracket :: key "shape="). change (key """ [shape=") with (key """ " ++ lbracket :: key "shape=").
    rewrite <- !app_assoc. apply seg_app_id; [lit|]. cbn [app].
    set (u := key "hape=" ++ key (if outer then "box" else "ellipse") ++ key ", label=""" ++ label ++ key " (" ++ show_Z size ++ key ")"", style=filled, fillcolor=""" ++ key (if outer then "darkorange3" else "azure") ++ key """").
    assert (E : forall X, X = key "shape=" ++ key (if outer then "box" else "ellipse") ++ key ", label=""" ++ label ++ key " (" ++ show_Z size ++ key ")"", style=filled, fillcolor=""" ++ key (if outer then "darkorange3" else "azure") ++ key """]" ->
      X = ("s"%char :: u) ++ [rbracket]).
    { intros X ->. subst u. cbn [app list_ascii_of_string]. rewrite <- !app_assoc. cbn [app]. repeat (rewrite <- ?app_assoc; cbn [app list_ascii_of_string]). reflexivity. }
    rewrite (E _ eq_refl). apply seg_escaped; [reflexivity|]. constructor; [split; discriminate|]. subst u. change (bracket_free (key "hape=" ++ key (if outer then "box" else "ellipse") ++ key ", label=""" ++ label ++ key " (" ++ show_Z size ++ key ")"", style=filled, fillcolor=""" ++ key (if outer then "darkorange3" else "azure") ++ key """")).
    unfold bracket_free. rewrite !Forall_app. repeat split; [free_lit|destruct outer; free_lit|free_lit|now apply name_free|free_lit|apply number_free, show_Z_chars|free_lit|destruct outer; free_lit|free_lit].
  - destruct H as (X & Y & S). unfold dot_line_text, shown_line. apply seg_app_id; [lit|]. apply seg_app_id; [now apply seg_quiet, name_quiet|]. apply seg_app_id; [lit|].
    apply seg_app_id; [now apply seg_quiet, name_quiet|]. change (key """" ++ key " \[label=""" ++ ?r) with (key """ " ++ backslash :: lbracket :: key "label=""" ++ r).
    change (key """" ++ key " [label=""" ++ ?r) with (key """ " ++ lbracket :: key "label=""" ++ r). apply seg_app_id; [lit|].
    change (key "label=""" ++ ?r ++ key """]") with ("l"%char :: key "abel=""" ++ r ++ key """" ++ [rbracket]). 
    assert (E : "l"%char :: key "abel=""" ++ join_lines syms ++ key """" ++ [rbracket] = ("l"%char :: key "abel=""" ++ join_lines syms ++ key """") ++ [rbracket]) by (cbn [app]; now rewrite <- !app_assoc).
    rewrite E. apply seg_escaped; [reflexivity|]. constructor; [split; discriminate|]. rewrite !Forall_app. repeat split; [free_lit|now apply name_free, join_names|free_lit].
  - destruct H as (X & Y & _). unfold dot_line_text, shown_line. apply seg_app_id; [lit|]. apply seg_app_id; [now apply seg_quiet, name_quiet|]. apply seg_app_id; [lit|].
    apply seg_app_id; [now apply seg_quiet, name_quiet|]. rewrite app_nil_r. lit.
Qed.
Lemma join_shown nm l' l : Forall2 (fun x y => seg nm x y (fun st => st)) l' l -> seg nm (join_lines l') (join_lines l) (fun st => st).
Proof.
  induction 1 as [|x y l' l S H IH]; [apply seg_nil|]. destruct H as [|x2 y2 l' l S2 H]; [exact S|].
  change (join_lines (x :: x2 :: l')) with (x ++ [newline] ++ join_lines (x2 :: l')). change (join_lines (y :: y2 :: l)) with (y ++ [newline] ++ join_lines (y2 :: l)).
  apply seg_app_id; [exact S|]. apply seg_app_id; [lit|exact IH].
Qed.
Definition shown_dot (l : list dot_line) : str := join_lines (key "strict digraph {" :: map shown_line l ++ [key "}"]).
Lemma dot_shown nm l : Forall dot_names l -> shown_as nm (dot_text l) (shown_dot l).
Proof.
  intros F. unfold shown_as. eapply seg_plain. apply join_shown. constructor; [lit|]. apply Forall2_app; [|repeat constructor; lit].
  induction F as [|x l N F IH]; constructor; [now apply line_shown|exact IH].
Qed.

(** ** DOT: reading *)
Definition emits (st : dot_state) (s : str) (t : list dot_token) (st' : dot_state) : Prop :=
  forall rest, dot_tokens st (s ++ rest) = option_map (app t) (dot_tokens st' rest).
Lemma emits_app st a t st1 b u st2 : emits st a t st1 -> emits st1 b u st2 -> emits st (a ++ b) (t ++ u) st2.
Proof. intros A B rest. rewrite <- app_assoc, A, B. destruct (dot_tokens st2 rest); [|reflexivity]. cbn. now rewrite app_assoc. Qed.
Lemma emits_nil st : emits st [] [] st.
Proof. intros rest. now destruct (dot_tokens st ([] ++ rest)) eqn:E; cbn [app] in E; rewrite E. Qed.
Lemma emits_name s : dot_name s -> forall acc, emits (InString acc) s [] (InString (acc ++ s)).
Proof.
  induction 1 as [|c s N F IH]; intros acc; [rewrite app_nil_r; apply emits_nil|].
  intros rest. cbn [app dot_tokens dot_step]. destruct (keqP c """"%char) as [->|A]; [elim N; cbn; auto|]. destruct (keqP c "\"%char) as [->|B]; [elim N; cbn; auto|].
  rewrite (IH (acc ++ [c]) rest), <- app_assoc. cbn [app]. now destruct (dot_tokens _ rest).
Qed.
Lemma emits_step st c s t st1 u st2 : dot_step st c = Some (t, st1) -> emits st1 s u st2 -> emits st (c :: s) (t ++ u) st2.
Proof. intros E H rest. cbn [app dot_tokens]. rewrite E, H. destruct (dot_tokens st2 rest); [|reflexivity]. cbn. now rewrite app_assoc. Qed.
Lemma emits_close acc : emits (InString acc) (key """") [DotId acc] Between.
Proof. apply (emits_step (InString acc) quote [] [DotId acc] Between []); [reflexivity|apply emits_nil]. Qed.
Lemma emits_open : emits Between (key """") [] (InString []).
Proof. apply (emits_step Between quote [] [] (InString []) []); [reflexivity|apply emits_nil]. Qed.
Lemma emits_string s : dot_name s -> emits Between (key """" ++ s ++ key """") [DotId s] Between.
Proof.
  intros N. apply (emits_app _ _ [] _ _ _ _ emits_open). apply (emits_app _ _ [] (InString s)); [exact (emits_name s N [])|apply emits_close].
Qed.
(** fixed texts *)
Fixpoint token_run (st : dot_state) (s : str) : option (list dot_token * dot_state) :=
  match s with
  | [] => Some ([], st)
  | c :: s' => match dot_step st c with
    | Some (t, st') => match token_run st' s' with Some (u, st2) => Some (t ++ u, st2) | None => None end
    | None => None
    end
  end.
Lemma emits_run st s t st' : token_run st s = Some (t, st') -> emits st s t st'.
Proof.
  revert st t. induction s as [|c s IH]; intros st t E; cbn [token_run] in E; [injection E as <- <-; apply emits_nil|].
  destruct (dot_step st c) as [[t1 st1]|] eqn:D; [|discriminate]. destruct (token_run st1 s) as [[u st2]|] eqn:R; [|discriminate]. injection E as <- <-.
  apply (emits_step _ _ _ _ st1); [exact D|]. now apply IH.
Qed.

Definition attr_tokens (kv : str * str) : list dot_token := [DotId (fst kv); DotPunct "="%char; DotId (snd kv)].
Fixpoint attrs_tokens (l : list (str * str)) : list dot_token :=
  match l with [] => [] | [x] => attr_tokens x | x :: r => attr_tokens x ++ DotPunct ","%char :: attrs_tokens r end.
Definition stmt_tokens (s : dot_stmt) : list dot_token :=
  match s with
  | NodeStmt x a => DotId x :: match a with [] => [] | _ => DotPunct "["%char :: attrs_tokens a ++ [DotPunct "]"%char] end
  | EdgeStmt x y a => [DotId x; DotArrow; DotId y] ++ match a with [] => [] | _ => DotPunct "["%char :: attrs_tokens a ++ [DotPunct "]"%char] end
  end.
Lemma read_attrs_ok a rest : read_attrs (attrs_tokens a ++ DotPunct "]"%char :: rest) = Some (a, rest).
Proof.
  induction a as [|[k v] a IH]; [reflexivity|]. destruct a as [|[k2 v2] a]; [reflexivity|].
  change (attrs_tokens ((k, v) :: (k2, v2) :: a) ++ DotPunct "]"%char :: rest) with
    (DotId k :: DotPunct "="%char :: DotId v :: DotPunct ","%char :: (attrs_tokens ((k2, v2) :: a) ++ DotPunct "]"%char :: rest)).
  cbn [read_attrs]. cbn [read_attrs] in IH. now rewrite IH.
Qed.
(** what follows a statement *)
Definition next_ok (l : list dot_token) : Prop := match l with DotPunct "["%char :: _ => False | DotArrow :: _ => False | _ => True end.
Lemma opt_attrs_ok a rest : next_ok rest ->
  opt_attrs (match a with [] => [] | _ => DotPunct "["%char :: attrs_tokens a ++ [DotPunct "]"%char] end ++ rest) = Some (a, rest).
Proof.
  intros N. destruct a as [|x a].
  - cbn [app]. destruct rest as [|[s|c|] rest]; try reflexivity. cbn [opt_attrs]. destruct c as [[] [] [] [] [] [] [] []]; try reflexivity. contradiction.
  - cbn [app opt_attrs]. rewrite <- app_assoc. cbn [app]. apply read_attrs_ok.
Qed.
Lemma read_stmts_ok l : forall f, (length (flat_map stmt_tokens l) < f)%nat -> read_stmts f (flat_map stmt_tokens l ++ [DotPunct "}"%char]) = Some l.
Proof.
  induction l as [|s l IH]; intros f F; (destruct f as [|f]; [lia|]); [reflexivity|].
  assert (N : next_ok (flat_map stmt_tokens l ++ [DotPunct "}"%char])) by (destruct l as [|[x a|x y a] l]; exact I).
  cbn [flat_map] in *. rewrite app_length in F. rewrite <- app_assoc. set (R := flat_map stmt_tokens l ++ [DotPunct "}"%char]) in *.
  assert (L : (length (flat_map stmt_tokens l) < f)%nat) by (destruct s; cbn [stmt_tokens length app] in F; lia). specialize (IH f L).
  destruct s as [x a|x y a]; cbn [stmt_tokens app].
  - pose proof (opt_attrs_ok a R N) as O. assert (E : read_stmts (S f) (DotId x :: (match a with [] => [] | _ => DotPunct "["%char :: attrs_tokens a ++ [DotPunct "]"%char] end) ++ R)
      = match opt_attrs ((match a with [] => [] | _ => DotPunct "["%char :: attrs_tokens a ++ [DotPunct "]"%char] end) ++ R) with
        | Some (a0, r') => option_map (cons (NodeStmt x a0)) (read_stmts f r') | None => None end).
    { destruct a as [|y a]; [|reflexivity]. cbn [app]. clearbody R. destruct R as [|[| |] R]; try reflexivity. contradiction. }
    rewrite E, O, IH. reflexivity.
  - cbn [read_stmts]. rewrite (opt_attrs_ok a R N), IH. reflexivity.
Qed.

Definition stmt_of (l : dot_line) : dot_stmt :=
  match l with
  | DotNode name label size outer =>
    NodeStmt name
      [(key "shape", key (if outer then "box" else "ellipse"));
       (key "label", label ++ key " (" ++ show_Z size ++ key ")");
       (key "style", key "filled");
       (key "fillcolor", key (if outer then "darkorange3" else "azure"))]
  | DotEdge x y None => EdgeStmt x y []
  | DotEdge x y (Some symbols) => EdgeStmt x y [(key "label", join_lines symbols)]
  end.
Lemma line_tokens l : dot_names l -> emits Between (shown_line l ++ [newline]) (stmt_tokens (stmt_of l)) Between.
Proof.
  destruct l as [name label size outer|x y [syms|]]; cbn [dot_names]; intros H.
  - destruct H as [N L]. assert (LN : dot_name (label ++ key " (" ++ show_Z size ++ key ")")).
    { unfold dot_name. rewrite !Forall_app. split; [exact L|]. split; [repeat constructor; cbn; intuition discriminate|]. split; [apply number_name, show_Z_chars|repeat constructor; cbn; intuition discriminate]. }
    set (nv := label ++ key " (" ++ show_Z size ++ key ")") in *.
    assert (E : shown_line (DotNode name label size outer) ++ [newline] =
      (key """" ++ name ++ key """") ++ key (" [shape=" ++ (if outer then "box" else "ellipse") ++ ", label=") ++
      (key """" ++ nv ++ key """") ++ (key (", style=filled, fillcolor=""" ++ (if outer then "darkorange3" else "azure") ++ """]") ++ [newline])).
    { subst nv. unfold shown_line. destruct outer; repeat (rewrite <- ?app_assoc; cbn [app list_ascii_of_string String.append]); reflexivity. }
    rewrite E. change (stmt_tokens (stmt_of (DotNode name label size outer))) with
      ([DotId name] ++ [DotPunct "["%char; DotId (key "shape"); DotPunct "="%char; DotId (key (if outer then "box" else "ellipse")); DotPunct ","%char; DotId (key "label"); DotPunct "="%char] ++
       [DotId nv] ++ [DotPunct ","%char; DotId (key "style"); DotPunct "="%char; DotId (key "filled"); DotPunct ","%char; DotId (key "fillcolor"); DotPunct "="%char; DotId (key (if outer then "darkorange3" else "azure")); DotPunct "]"%char]).
    apply (emits_app _ _ _ Between); [now apply emits_string|]. apply (emits_app _ _ _ Between); [apply emits_run; destruct outer; reflexivity|].
    apply (emits_app _ _ _ Between); [now apply emits_string|]. apply emits_run. destruct outer; reflexivity.
  - destruct H as (X & Y & S). apply join_names in S. 
    assert (E : shown_line (DotEdge x y (Some syms)) ++ [newline] = (key """" ++ x ++ key """") ++ key " -> " ++ (key """" ++ y ++ key """") ++ key " [label=" ++ (key """" ++ join_lines syms ++ key """") ++ ["]"%char; newline]).
    { unfold shown_line. repeat (rewrite <- ?app_assoc; cbn [app list_ascii_of_string]). reflexivity. }
    rewrite E. change (stmt_tokens (stmt_of (DotEdge x y (Some syms)))) with ([DotId x] ++ [DotArrow] ++ [DotId y] ++ [DotPunct "["%char; DotId (key "label"); DotPunct "="%char] ++ [DotId (join_lines syms)] ++ [DotPunct "]"%char]).
    apply (emits_app _ _ _ Between); [now apply emits_string|]. apply (emits_app _ _ _ Between); [apply emits_run; reflexivity|]. apply (emits_app _ _ _ Between); [now apply emits_string|].
    apply (emits_app _ _ _ Between); [apply emits_run; reflexivity|]. apply (emits_app _ _ _ Between); [now apply emits_string|]. apply emits_run; reflexivity.
  - destruct H as (X & Y & _). 
    assert (E : shown_line (DotEdge x y None) ++ [newline] = (key """" ++ x ++ key """") ++ key " -> " ++ (key """" ++ y ++ key """") ++ [newline]).
    { unfold shown_line. repeat (rewrite <- ?app_assoc; cbn [app list_ascii_of_string]). reflexivity. }
    rewrite E. change (stmt_tokens (stmt_of (DotEdge x y None))) with ([DotId x] ++ [DotArrow] ++ [DotId y] ++ []).
    apply (emits_app _ _ _ Between); [now apply emits_string|]. apply (emits_app _ _ _ Between); [apply emits_run; reflexivity|]. apply (emits_app _ _ _ Between); [now apply emits_string|].
    apply emits_run; reflexivity.
Qed.
Lemma join_lines_app (l : list str) (x : str) : join_lines (l ++ [x]) = flat_map (fun s => s ++ [newline]) l ++ x.
Proof.
  induction l as [|y l IH]; [reflexivity|]. cbn [flat_map]. rewrite <- !app_assoc, <- IH. cbn [app]. now destruct l.
Qed.
Lemma dot_reads l : Forall dot_names l -> read_dot (shown_dot l) = Some (map stmt_of l).
Proof.
  intros F. unfold shown_dot. assert (E : join_lines (key "strict digraph {" :: map shown_line l ++ [key "}"]) = (key "strict digraph {" ++ [newline]) ++ flat_map (fun s => s ++ [newline]) (map shown_line l) ++ key "}").
  { rewrite (app_comm_cons _ _ (key "strict digraph {")). rewrite join_lines_app. cbn [flat_map]. now rewrite <- app_assoc. }
  rewrite E. assert (T : emits Between (flat_map (fun s => s ++ [newline]) (map shown_line l)) (flat_map stmt_tokens (map stmt_of l)) Between).
  { induction F as [|x l N F IH]; [apply emits_nil|]. cbn [map flat_map]. apply (emits_app _ _ _ Between); [now apply line_tokens|]. apply IH.
    rewrite (app_comm_cons _ _ (key "strict digraph {")). rewrite join_lines_app. cbn [flat_map]. now rewrite <- app_assoc. }
  unfold read_dot. assert (H : emits Between (key "strict digraph {" ++ [newline]) [DotId (key "strict"); DotId (key "digraph"); DotPunct "{"%char] Between) by (apply emits_run; reflexivity).
  rewrite H, T. change (dot_tokens Between (key "}")) with (Some [DotPunct "}"%char]). cbn [option_map app]. rewrite !keq_refl. cbn [andb].
  apply read_stmts_ok. rewrite app_length. cbn [length]. lia.
Qed.
Lemma join_separated l : separated (ascii_of_nat 10) l (join_lines l).
Proof.
  induction l as [|x l IH]; [constructor|]. destruct l as [|y l]; [constructor|]. change (join_lines (x :: y :: l)) with (x ++ newline :: join_lines (y :: l)).
  apply sep_more; [discriminate|exact IH].
Qed.
Lemma stmt_states l : states (stmt_of l) l.
Proof.
  destruct l as [name label size outer|x y [syms|]]; cbn [states stmt_of]; [|exists (join_lines syms); split; [apply join_separated|reflexivity]|reflexivity].
  exists (show_Z size). split; [apply show_Z_written|]. reflexivity.
Qed.
Lemma dot_ok nm l : Forall dot_names l -> exists s g, shown_as nm (dot_text l) s /\ read_dot s = Some g /\ Forall2 states g l.
Proof.
  intros F. exists (shown_dot l), (map stmt_of l). split; [now apply dot_shown|]. split; [now apply dot_reads|].
  clear. induction l as [|x l IH]; constructor; [apply stmt_states|exact IH].
Qed.

(** ** messages *)
Lemma seg_bold nm x : quiet x -> seg nm (key "[bold]" ++ x ++ key "[/]") x (fun st => st).
Proof.
  intros Q st rest. rewrite <- !app_assoc.
  change (out nm st (key "[bold]" ++ x ++ key "[/]" ++ rest)) with (out nm (nm (key "bold") :: st) (x ++ key "[/]" ++ rest)). rewrite (seg_quiet nm x Q). f_equal.
Qed.
Lemma diff_info_shown nm cur ref : no_bracket cur -> no_bracket ref ->
  Forall2 (shown_as nm) (color_diff_info cur ref)
    [key "CURRENT   project file: """ ++ cur ++ key """"; key "REFERENCE project file: """ ++ ref ++ key """";
     key "Difference is counted as CURRENT - REFERENCE, i.e. a positive number means that CURRENT is larger."].
Proof.
  intros C R. assert (N : forall s, no_bracket s -> seg nm (s ++ key """") (s ++ key """") (fun st => st)).
  { intros s H. apply seg_quiet, quiet_before; [exact H|discriminate|repeat split; discriminate]. }
  constructor; [|constructor; [|constructor; [|constructor]]]; unfold shown_as; eapply seg_plain.
  - change (key "[bold]CURRENT[/]   project file: """) with ((key "[bold]" ++ key "CURRENT" ++ key "[/]") ++ key "   project file: """). change (key "CURRENT   project file: """) with (key "CURRENT" ++ key "   project file: """).
    apply seg_app_id; [|now apply N]. apply seg_app_id; [apply seg_bold|apply seg_quiet]; repeat split; discriminate.
  - change (key "[bold]REFERENCE[/] project file: """) with ((key "[bold]" ++ key "REFERENCE" ++ key "[/]") ++ key " project file: """). change (key "REFERENCE project file: """) with (key "REFERENCE" ++ key " project file: """).
    apply seg_app_id; [|now apply N]. apply seg_app_id; [apply seg_bold|apply seg_quiet]; repeat split; discriminate.
  - change (key "Difference is counted as [bold]CURRENT - REFERENCE[/], i.e. a positive number means that [bold]CURRENT[/] is larger.") with
      (key "Difference is counted as " ++ (key "[bold]" ++ key "CURRENT - REFERENCE" ++ key "[/]") ++ key ", i.e. a positive number means that " ++ (key "[bold]" ++ key "CURRENT" ++ key "[/]") ++ key " is larger.").
    change (key "Difference is counted as CURRENT - REFERENCE, i.e. a positive number means that CURRENT is larger.") with
      (key "Difference is counted as " ++ key "CURRENT - REFERENCE" ++ key ", i.e. a positive number means that " ++ key "CURRENT" ++ key " is larger.").
    apply seg_app_id; [lit|]. apply seg_app_id; [apply seg_bold; repeat split; discriminate|]. apply seg_app_id; [lit|]. apply seg_app_id; [apply seg_bold; repeat split; discriminate|]. lit.
Qed.
Lemma image_info_shown nm d n k : exists t, cell_text d (n, k) t /\ shown_as nm (color_image_info d n k) (key "Total image size: " ++ t ++ key " bytes (.bin may be padded larger)").
Proof.
  exists (num_cell d n k). split; [apply num_cell_text|]. unfold shown_as. eapply seg_plain. apply seg_app_id; [lit|]. apply seg_app_id; [apply seg_color_diff|lit].
Qed.
