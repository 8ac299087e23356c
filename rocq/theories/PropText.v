(** * Properties C98 to C100: the texts that are printed *)
From Coq Require Import Ascii String List ZArith Lia Bool.
From Verif Require Import Base MemMap Filter PyStr Pipeline MapFile Deps Table SpecTable SpecMap ProofTable Formats Markup Project Main JsonText Text SpecText ProofText1 ProofText2 ProofText3 ProofText4 ProofText5 ProofText6 FixElf.
Import ListNotations.
Open Scope list_scope.
Open Scope Z_scope.

(** ** C98: what rich shows of the coloured texts is the text without colours *)

(** a number with its difference; the tags around the difference are closed again *)
Theorem c98_difference : forall normalize diff size sdiff, exists t,
  rendered normalize (color_diff diff size sdiff) = Some (t, []) /\ cell_text diff (size, sdiff) t.
Proof. intros nm d n k. exists (num_cell d n k). split; [exact (seg_rendered nm _ _ _ (seg_color_diff nm d n k))|apply num_cell_text]. Qed.
Print Assumptions c98_difference.
(** the numbers of the last columns *)
Theorem c98_size : forall normalize diff size sdiff, exists t,
  shown_as normalize (color_size diff size sdiff) t /\ cell_text diff (size, sdiff) t.
Proof. intros nm d n k. exists (num_cell d n k). split; [exact (seg_plain nm _ _ _ (seg_color_size nm d n k))|apply num_cell_text]. Qed.
Print Assumptions c98_size.
(** the tags of a growing size stay open *)
Theorem c98_size_refuted : forall normalize, exists size sdiff t open,
  rendered normalize (color_size true size sdiff) = Some (t, open) /\ open <> [].
Proof. intros nm. exists 10, 5. eexists. eexists. split; [exact (seg_rendered nm _ _ _ (seg_color_size nm true 10 5))|]. discriminate. Qed.
Print Assumptions c98_size_refuted.

(** the summary as a table and as CSV lines: cell by cell what C95 says, if no name of a
    memory type or a section has an opening bracket *)
Theorem c98_summary_table : forall normalize f m a, float_texts (ft_num f) (ft_diff f) ->
  match color_summary f m a, get_summary_table (plain_pct f) m a with
  | TOk t', TOk t => rows_plain t -> table_shown_as normalize t' t /\ Forall2 (shown_as normalize) (csv_lines t') (csv_lines t)
  | TDie e', TDie e => e' = e
  | _, _ => False
  end.
Proof. exact summary_shown. Qed.
Print Assumptions c98_summary_table.
(** the tables of archives, object files and symbols *)
Theorem c98_entries_table : forall normalize a first d,
  match color_entries a first d, entries_table a first d with
  | TOk t', TOk t => titles_plain t -> rows_plain t -> table_shown_as normalize t' t /\ Forall2 (shown_as normalize) (csv_lines t') (csv_lines t)
  | TDie e', TDie e => e' = e
  | _, _ => False
  end.
Proof. exact entries_shown. Qed.
Print Assumptions c98_entries_table.
(** tables without colours, such as that of dependencies *)
Theorem c98_other_tables : forall normalize t, titles_plain t -> Forall (Forall no_bracket) (tb_rows t) ->
  table_shown_as normalize t t /\ Forall2 (shown_as normalize) (csv_lines t) (csv_lines t).
Proof. exact free_table. Qed.
Print Assumptions c98_other_tables.
(** trees *)
Theorem c98_tree : forall normalize m a, Forall (fun x => no_bracket (snd x)) (tree_lines m a) -> tree_shown_as normalize (color_tree m a) (tree_lines m a).
Proof. exact tree_ok. Qed.
Print Assumptions c98_tree.
(** the messages on the projects compared and on the image size *)
Theorem c98_messages : forall normalize cur ref diff size sdiff, no_bracket cur -> no_bracket ref ->
  Forall2 (shown_as normalize) (color_diff_info cur ref)
    [tx "CURRENT   project file: """ ++ cur ++ tx """"; tx "REFERENCE project file: """ ++ ref ++ tx """";
     tx "Difference is counted as CURRENT - REFERENCE, i.e. a positive number means that CURRENT is larger."] /\
  exists t, cell_text diff (size, sdiff) t /\ shown_as normalize (color_image_info diff size sdiff) (tx "Total image size: " ++ t ++ tx " bytes (.bin may be padded larger)").
Proof. intros nm cur ref d n k C R. split; [exact (diff_info_shown nm cur ref C R)|exact (image_info_shown nm d n k)]. Qed.
Print Assumptions c98_messages.

(** ** names with brackets *)
(** a text without backslashes is shown as it is if, and only if, nothing in it looks like a tag *)
Theorem c98_as_it_is : forall normalize s, ~ In "092"%char s -> (shown_as normalize s s <-> ~ has_tag s).
Proof. exact shown_itself. Qed.
Print Assumptions c98_as_it_is.
Example c98_as_it_is_example : ~ In "092"%char (tx "lib[x[Y]].a") /\ ~ has_tag (tx "lib[x[Y]].a") /\ has_tag (tx "lib[[x].a").
Proof.
  split; [cbn; intuition discriminate|]. split.
  - apply (c98_as_it_is (fun s => s)); [cbn; intuition discriminate|]. vm_compute. reflexivity.
  - exists (tx "lib["), "x"%char, [], (tx ".a"). split; [reflexivity|]. split; [left; cbn; lia|constructor].
Qed.

Definition bx_args : args := Args FTable true false false false None false None false false false false false false None None (tx "1") None false false.
Definition bx_rows (name : string) : dict str sentry := [(tx name, SEntry (tx name) 8 0 [])].
(** archives with different names are shown with the same name: what stands in brackets is
    taken for a colour *)
Theorem c98_names_refuted : forall normalize, exists d t t' r r',
  NoDup (map fst d) /\ color_entries bx_args (tx "Archive File") d = TOk t /\ tb_rows t = [r; r'] /\
  hd [] r <> hd [] r' /\ shown_as normalize (hd [] r) t' /\ shown_as normalize (hd [] r') t' /\ t' = tx "liba.a".
Proof.
  intros nm. exists (bx_rows "liba[one].a" ++ bx_rows "liba[two].a"). do 4 eexists. split; [repeat constructor; cbn; intuition discriminate|].
  split; [vm_compute; reflexivity|]. split; [reflexivity|]. split; [discriminate|]. split; [reflexivity|]. split; reflexivity.
Qed.
Print Assumptions c98_names_refuted.
(** a closing tag in a name is an error: the table cannot be printed *)
Theorem c98_markup_error_refuted : forall normalize, exists d t r,
  color_entries bx_args (tx "Archive File") d = TOk t /\ tb_rows t = [r] /\ plain normalize (hd [] r) = None.
Proof. intros nm. exists (bx_rows "out[/x]/liba.a"). do 2 eexists. split; [vm_compute; reflexivity|]. split; reflexivity. Qed.
Print Assumptions c98_markup_error_refuted.

(** ** C99: the JSON texts can be read back *)

(** by a reader of RFC 8259; and what is printed is the JSON text, if there is no opening
    bracket in the names *)
Theorem c99_json_text : forall normalize p t, json_text p = Some t ->
  exists j, read_json t = Some j /\ says j p /\ (Forall no_bracket (piece_names p) -> shown_as normalize t t).
Proof. exact json_text_ok. Qed.
Print Assumptions c99_json_text.
(** every JSON value, indented as it is *)
Theorem c99_dumps : forall j, read_json (dumps 0 j) = Some j.
Proof. exact dumps_json. Qed.
Print Assumptions c99_dumps.
(** the text has printable ASCII characters and new lines only *)
Theorem c99_ascii : forall p t, json_text p = Some t -> Forall printable t.
Proof. exact text_printable. Qed.
Print Assumptions c99_ascii.
(** with brackets in the names the printed text is a JSON text of other names, or none is printed *)
Theorem c99_names_refuted : forall normalize, exists d d' t t' s,
  json_text (PEntries d) = Some t /\ shown_as normalize t s /\ read_json s <> read_json t /\ json_text (PEntries d') = Some t' /\ plain normalize t' = None.
Proof.
  intros nm. exists (bx_rows "liba[one].a"), (bx_rows "out[/x]/liba.a"). do 3 eexists. split; [vm_compute; reflexivity|]. split; [reflexivity|].
  split; [vm_compute; discriminate|]. split; [vm_compute; reflexivity|]. reflexivity.
Qed.
Print Assumptions c99_names_refuted.

(** ** C100: the DOT graph can be read back *)
Theorem c100_dot_text : forall normalize l, Forall dot_names l ->
  exists s g, shown_as normalize (dot_text l) s /\ read_dot s = Some g /\ Forall2 states g l.
Proof. exact dot_ok. Qed.
Print Assumptions c100_dot_text.
(** two archives become one node if their names differ in brackets only, and a quotation
    mark in a name makes the graph unreadable *)
Theorem c100_names_refuted : forall normalize, exists l l' s s',
  shown_as normalize (dot_text l) s /\ read_dot s = Some [NodeStmt (tx "liba.a") (map (fun kv => (tx (fst kv), tx (snd kv))) [("shape", "box"); ("label", "liba.a (1)"); ("style", "filled"); ("fillcolor", "darkorange3")]%string);
                                                          NodeStmt (tx "liba.a") (map (fun kv => (tx (fst kv), tx (snd kv))) [("shape", "box"); ("label", "liba.a (2)"); ("style", "filled"); ("fillcolor", "darkorange3")]%string)] /\
  l = [DotNode (tx "liba[one].a") (tx "liba.a") 1 true; DotNode (tx "liba[two].a") (tx "liba.a") 2 true] /\
  l' = [DotNode (tx "lib""a.a") (tx "liba.a") 1 true] /\ shown_as normalize (dot_text l') s' /\ read_dot s' = None.
Proof.
  intros nm. do 4 eexists. split; [|split; [|split; [reflexivity|split; [reflexivity|split]]]].
  - vm_compute. reflexivity.
  - vm_compute. reflexivity.
  - vm_compute. reflexivity.
  - vm_compute. reflexivity.
Qed.
Print Assumptions c100_names_refuted.

(** ** examples *)
Example c98_example : color_diff true 100 12 = tx "100[red]    +12[/red]" /\ color_diff true 100 (-12) = tx "100[green]    -12[/green]" /\
  color_size true 100 12 = tx "100[green]    +12[green]" /\ plain (fun s => s) (color_size true 100 12) = Some (tx "100    +12") /\
  plain (fun s => s) (tx "Used \[bytes]") = Some (tx "Used [bytes]") /\
  exists t, color_entries bx_args (tx "Archive File") (bx_rows "liba.a") = TOk t /\ titles_plain t /\ rows_plain t /\ tb_rows t = [[tx "liba.a"; tx "8"]].
Proof.
  repeat (split; [vm_compute; reflexivity|]). eexists. split; [vm_compute; reflexivity|]. split; [|split; [|reflexivity]].
  - repeat constructor; intros X; vm_compute in X; repeat (destruct X as [X|X]; [discriminate X|]); contradiction.
  - repeat constructor; intros X; vm_compute in X; repeat (destruct X as [X|X]; [discriminate X|]); contradiction.
Qed.
Definition bx_text : str := flat_map (fun l => tx l ++ [newline])
  ["{"; "    ""a\\b"": ["; "        1,"; "        -20"; "    ],"; "    ""c"": {},"; "    ""d"": null"]%string ++ tx "}".
Example c99_example : dumps 0 (JObj [(tx "a\b", JList [JNum 1; JNum (-20)]); (tx "c", JObj []); (tx "d", JNull)]) = bx_text /\
  exists t, json_text (PEntries (bx_rows "liba.a")) = Some t /\ Forall no_bracket (piece_names (PEntries (bx_rows "liba.a"))).
Proof.
  split; [vm_compute; reflexivity|]. eexists. split; [reflexivity|].
  repeat constructor; intros X; vm_compute in X; repeat (destruct X as [X|X]; [discriminate X|]); contradiction.
Qed.
Definition bx_graph : list dot_line := [DotNode (tx "x/liba.a") (tx "liba.a") 12 true; DotNode (tx "libc.a") (tx "libc.a") 3 false; DotEdge (tx "x/liba.a") (tx "libc.a") (Some [tx "puts"; tx "exit"])].
Example c100_example : Forall dot_names bx_graph /\ exists s, shown_as (fun s => s) (dot_text bx_graph) s /\
  splitlines s = map tx ["strict digraph {"; """x/liba.a"" [shape=box, label=""liba.a (12)"", style=filled, fillcolor=""darkorange3""]";
    """libc.a"" [shape=ellipse, label=""libc.a (3)"", style=filled, fillcolor=""azure""]"; """x/liba.a"" -> ""libc.a"" [label=""puts"; "exit""]"; "}"]%string.
Proof.
  split; [repeat constructor; cbn; intuition discriminate|]. eexists. split; [vm_compute; reflexivity|]. vm_compute. reflexivity.
Qed.
