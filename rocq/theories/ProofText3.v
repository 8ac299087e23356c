(** * Proofs about coloured tables, CSV lines and trees *)
From Coq Require Import Ascii String List ZArith Lia Bool.
From Verif Require Import Base MemMap Filter PyStr Pipeline MapFile Deps Table SpecTable SpecMap ProofPyStr ProofTable ProofTable2 ProofTable3 Formats ProofFormats Markup Project Main JsonText Text SpecText ProofText1 ProofText2.
Import ListNotations.
Open Scope list_scope.
Open Scope Z_scope.

Notation pct_texts f := (float_texts (ft_num f) (ft_diff f)).

Lemma forall2_map {A B C} (R : B -> C -> Prop) (f : A -> B) (g : A -> C) l : (forall x, In x l -> R (f x) (g x)) -> Forall2 R (map f l) (map g l).
Proof. induction l as [|x l IH]; intros H; constructor; [apply H; now left|]. apply IH. intros y I. apply H. now right. Qed.
Lemma forall2_flat_map {A B C} (R : B -> C -> Prop) (f : A -> list B) (g : A -> list C) l :
  (forall x, In x l -> Forall2 R (f x) (g x)) -> Forall2 R (flat_map f l) (flat_map g l).
Proof. induction l as [|x l IH]; intros H; [constructor|]. cbn [flat_map]. apply Forall2_app; [apply H; now left|]. apply IH. intros y I. apply H. now right. Qed.
Lemma forall2_with {B C} (P : C -> Prop) (R S : B -> C -> Prop) l' l : (forall x y, P y -> R x y -> S x y) -> Forall P l -> Forall2 R l' l -> Forall2 S l' l.
Proof. intros H F G. induction G as [|x y l' l G1 G IH]; [constructor|]. inversion F; subst. constructor; auto. Qed.

Section Rich.
Variable nm : str -> str.
Local Notation q := quote.

(** a cell of a table and of a CSV line *)
Definition cell_ok (c' c : str) : Prop :=
  plain nm c' = Some c /\ exists f, seg nm (strip c' ++ [q]) (strip c ++ [q]) f.

Lemma quiet_quote : quiet [q].
Proof. repeat split; discriminate. Qed.
Lemma free_quote s : no_bracket s -> seg nm (s ++ [q]) (s ++ [q]) (fun st => st).
Proof. intros N. apply seg_quiet, quiet_before; [exact N|discriminate|apply quiet_quote]. Qed.
Lemma strip_free s : no_bracket s -> no_bracket (strip s).
Proof. intros N I. apply N, strip_In, I. Qed.
Lemma cell_free s : no_bracket s -> cell_ok s s.
Proof. intros N. split; [unfold plain; now rewrite plain_free|]. exists (fun st => st). now apply free_quote, strip_free. Qed.
Lemma cell_seg c' c f : seg nm c' c f -> trimmed c' -> trimmed c -> cell_ok c' c.
Proof.
  intros S T' T. split; [now apply (seg_plain nm _ _ f)|]. rewrite !strip_idem by assumption.
  eexists. apply seg_app; [exact S|]. apply seg_quiet, quiet_quote.
Qed.

(** ** numbers *)
Lemma digit_word c d : digit_is c d -> ~ ws c.
Proof. intros [[L U] E] W. unfold ws in W. rewrite E in W. cbn [In] in W. lia. Qed.
Lemma decimal_word s n : decimal s n -> s <> [] /\ Forall (fun c => ~ ws c) s.
Proof.
  induction 1 as [c d D|s n c d H [N F] D]; [split; [discriminate|]|split; [now destruct s|]].
  - repeat constructor. now apply (digit_word c d).
  - apply Forall_app. split; [exact F|]. repeat constructor. now apply (digit_word c d).
Qed.
Lemma word_begins' s : s <> [] -> Forall (fun c => ~ ws c) s -> begins s.
Proof. intros N F. destruct s as [|c s]; [contradiction|]. inversion F; subst. now exists c, s. Qed.
Lemma word_ends' s : s <> [] -> Forall (fun c => ~ ws c) s -> SpecMap.ends s.
Proof.
  intros N F. destruct (exists_last N) as (r & c & ->). exists r, c. split; [reflexivity|]. apply Forall_app in F. destruct F as [_ F]. now inversion F.
Qed.
Lemma show_word z : show_Z z <> [] /\ Forall (fun c => ~ ws c) (show_Z z).
Proof.
  destruct (show_Z_written z) as [(_ & D & _)|(_ & r & -> & D & _)]; [exact (decimal_word _ _ D)|].
  split; [discriminate|]. constructor; [|apply (decimal_word _ _ D)]. unfold ws. cbn. lia.
Qed.
Lemma show_begins z : begins (show_Z z).
Proof. now apply word_begins'; apply show_word. Qed.
Lemma show_ends z : SpecMap.ends (show_Z z).
Proof. now apply word_ends'; apply show_word. Qed.
Lemma signed_ends z : SpecMap.ends (show_signed z).
Proof. unfold show_signed. destruct (z <? 0); [apply show_ends|]. apply (ends_app ["+"%char]), show_ends. Qed.
Lemma pad6_ends s : SpecMap.ends s -> SpecMap.ends (pad6 s).
Proof. intros E. now apply ends_app. Qed.
Lemma ends_cons c s : SpecMap.ends s -> SpecMap.ends (c :: s).
Proof. exact (ends_app [c] s). Qed.
Lemma bracket_ends x : SpecMap.ends (x ++ ["]"%char]).
Proof. exists x, "]"%char. split; [reflexivity|]. unfold ws. cbn. lia. Qed.
Lemma colored_ends o c x : (exists y, list_ascii_of_string c = y ++ ["]"%char]) -> SpecMap.ends (colored o c x).
Proof. intros (y & E). unfold colored. rewrite E. do 2 apply ends_app. apply bracket_ends. Qed.

Lemma num_cell_trimmed d n k : trimmed (num_cell d n k).
Proof.
  unfold num_cell. destruct d; cbn [negb]; [|split; [apply show_begins|apply show_ends]]. split; [apply begins_app, show_begins|].
  apply ends_app, ends_cons, pad6_ends. destruct (k =? 0); [apply show_ends|apply signed_ends].
Qed.
Ltac closing := apply colored_ends; eexists (removelast _); vm_compute; reflexivity.
Lemma color_diff_trimmed d n k : trimmed (color_diff d n k).
Proof.
  unfold color_diff. destruct d; cbn [negb]; [|split; [apply show_begins|apply show_ends]].
  destruct (k <? 0); [|destruct (0 <? k)]; (split; [apply begins_app, show_begins|apply ends_app]).
  - apply colored_ends. now exists (list_ascii_of_string "[/green").
  - apply colored_ends. now exists (list_ascii_of_string "[/red").
  - apply ends_cons, pad6_ends, show_ends.
Qed.
Lemma color_size_trimmed d n k : trimmed (color_size d n k).
Proof.
  unfold color_size. destruct d; cbn [negb]; [|split; [apply show_begins|apply show_ends]].
  destruct (k <? 0); [|destruct (0 <? k)]; (split; [apply begins_app, show_begins|apply ends_app]).
  - apply colored_ends. now exists (list_ascii_of_string "[/red").
  - apply colored_ends. now exists (list_ascii_of_string "[green").
  - apply ends_cons, pad6_ends, show_ends.
Qed.
Lemma cell_diff d n k : cell_ok (color_diff d n k) (num_cell d n k).
Proof. apply (cell_seg _ _ _ (seg_color_diff nm d n k)); [apply color_diff_trimmed|apply num_cell_trimmed]. Qed.
Lemma cell_size d n k : cell_ok (color_size d n k) (num_cell d n k).
Proof. apply (cell_seg _ _ _ (seg_color_size nm d n k)); [apply color_size_trimmed|apply num_cell_trimmed]. Qed.

(** ** percentages *)
Lemma numeral_quiet s : numeral s -> quiet s.
Proof. intros [_ F]. apply quiet_clean. intros c I. rewrite Forall_forall in F. apply (F c I). Qed.
Lemma numeral_word s : numeral s -> s <> [] /\ Forall (fun c => ~ ws c) s.
Proof. intros [N F]. split; [exact N|]. eapply Forall_impl; [|exact F]. intros c H. apply H. Qed.
Lemma diff_quiet f x : pct_texts f -> quiet (" "%char :: ft_diff f x).
Proof.
  intros [_ H]. destruct (H x) as (k & s & -> & N). change (" "%char :: repeat " "%char k ++ s) with (repeat " "%char (S k) ++ s).
  apply quiet_app; [|now apply numeral_quiet]. apply quiet_clean. intros c I. apply repeat_spec in I. subst c. split; discriminate.
Qed.
Lemma seg_pct f d p x : pct_texts f -> seg nm (color_pct f d p x) (plain_pct f d p x) (fun st => st).
Proof.
  intros F. pose proof (diff_quiet f x F) as D. destruct F as [F _]. assert (A : seg nm (ft_num f p) (ft_num f p) (fun st => st)) by apply seg_quiet, numeral_quiet, F.
  unfold color_pct, plain_pct. destruct d; cbn [negb]; [|exact A]. destruct (ft_sign f x); apply seg_app_id; try exact A; [apply seg_quiet|apply seg_in_green|apply seg_in_red]; exact D.
Qed.
Lemma pct_trimmed f d p x : pct_texts f -> trimmed (color_pct f d p x) /\ trimmed (plain_pct f d p x).
Proof.
  intros [F G]. destruct (numeral_word _ (F p)) as [N W]. pose proof (word_begins' _ N W) as B. pose proof (word_ends' _ N W) as E.
  destruct (G x) as (k & s & Ds & Ns). destruct (numeral_word _ Ns) as [N' W']. pose proof (word_ends' _ N' W') as E'.
  assert (T : trimmed (ft_num f p ++ " "%char :: ft_diff f x)) by (split; [now apply begins_app|]; apply ends_app, ends_cons; rewrite Ds; now apply ends_app).
  unfold color_pct, plain_pct. destruct d; cbn [negb]; [|split; split; assumption]. split; [|exact T]. destruct (ft_sign f x); [exact T| |];
    (split; [now apply begins_app|apply ends_app, colored_ends]); [now exists (list_ascii_of_string "[/green")|now exists (list_ascii_of_string "[/red")].
Qed.
Lemma cell_pct f d p x : pct_texts f -> cell_ok (color_pct f d p x) (plain_pct f d p x).
Proof. intros F. destruct (pct_trimmed f d p x F). now apply (cell_seg _ _ _ (seg_pct f d p x F)). Qed.

(** ** tables *)
Definition row_ok (r' r : list str) : Prop := no_bracket (hd [] r) -> Forall2 cell_ok r' r.

Lemma cell_nil : cell_ok [] [].
Proof. apply cell_free. intros []. Qed.
Lemma type_row_ok f a name t : pct_texts f -> row_ok (color_type_row f a name t) (type_row (plain_pct f) a name t).
Proof.
  intros F N. unfold color_type_row, type_row in *. cbn [hd] in N. constructor; [now apply cell_free|]. constructor; [apply cell_diff|].
  destruct (t_size t =? 0); cbn [negb]; repeat constructor; first [apply cell_nil|now apply cell_pct|apply cell_size].
Qed.
Lemma sect_row_ok f a t kv : pct_texts f -> row_ok (color_sect_row f a t kv) (sect_row (plain_pct f) a t kv).
Proof.
  intros F N. unfold color_sect_row, sect_row in *. cbn [hd] in N. constructor; [now apply cell_free|]. constructor; [apply cell_diff|].
  destruct (t_size t =? 0); cbn [negb]; repeat constructor; first [apply cell_nil|now apply cell_pct].
Qed.
Lemma entry_row_ok a kv :
  row_ok (tr_name (color_row a kv) :: map cl_info (tr_columns (color_row a kv))) (tr_name (entry_row a kv) :: map cl_info (tr_columns (entry_row a kv))).
Proof.
  intros N. cbn [hd] in N. constructor; [now apply cell_free|]. cbn [entry_row color_row tr_columns]. unfold color_columns, entry_columns. cbn [map]. constructor; [apply cell_diff|].
  induction (se_types (snd kv)) as [|t l IH]; [constructor|]. cbn [flat_map map app]. constructor; [apply cell_diff|]. rewrite !map_app. apply Forall2_app; [|exact IH].
  rewrite !map_map. apply forall2_map. intros x _. apply cell_diff.
Qed.

(** the two tables: the same error, or cell by cell *)
Definition same_result (r' r : tres table) (R : table -> table -> Prop) : Prop :=
  match r', r with TOk t', TOk t => R t' t | TDie e', TDie e => e' = e | _, _ => False end.

Definition rows_ok (t' t : table) : Prop := Forall2 row_ok (tb_rows t') (tb_rows t).

Lemma summary_ok f m a : pct_texts f ->
  same_result (color_summary f m a) (get_summary_table (plain_pct f) m a)
    (fun t' t => tb_headers t' = color_headers /\ tb_headers t = usage_headers /\ rows_ok t' t).
Proof.
  intros F. unfold color_summary, get_summary_table. destruct (sort_column usage_headers (a_sort a)) as [z|e]; [|reflexivity].
  destruct (py_nth [ByUsed; ByPct; ByRemain; ByTotal] (key_index z)) as [k|]; [|reflexivity].
  split; [reflexivity|]. split; [reflexivity|]. unfold rows_ok. cbn [tb_rows]. apply forall2_flat_map. intros t _. constructor; [now apply type_row_ok|].
  apply forall2_map. intros s _. now apply sect_row_ok.
Qed.

Lemma columns_same a e : map cl_size (color_columns a e) = map cl_size (entry_columns a e) /\ map cl_diff (color_columns a e) = map cl_diff (entry_columns a e).
Proof.
  unfold color_columns, entry_columns. cbn [map]. induction (se_types e) as [|t l [IH1 IH2]]; [split; reflexivity|].
  cbn [flat_map map app]. rewrite !map_app, !map_map. cbn [cl_size cl_diff color_column mk_column] in *.
  injection IH1 as IH1. injection IH2 as IH2. split; f_equal; f_equal; f_equal; assumption.
Qed.
Lemma py_nth_map {A B} (f : A -> B) l i : option_map f (py_nth l i) = py_nth (map f l) i.
Proof. unfold py_nth. rewrite map_length. destruct (0 <=? i); [now rewrite nth_error_map|]. destruct (0 <=? _); [now rewrite nth_error_map|reflexivity]. Qed.
Lemma row_key_same a z kv : row_key a z (color_row a kv) = row_key a z (entry_row a kv).
Proof.
  unfold row_key. destruct (columns_same a (snd kv)) as [S D]. cbn [color_row entry_row tr_columns].
  destruct (a_sort_diff a); [rewrite (py_nth_map cl_diff), (py_nth_map cl_diff), D|rewrite (py_nth_map cl_size), (py_nth_map cl_size), S]; reflexivity.
Qed.
Lemma insert_ext {A} (k1 k2 : A -> Z) r x l : (forall y, k1 y = k2 y) -> insert_sorted k1 r x l = insert_sorted k2 r x l.
Proof. intros E. induction l as [|y l IH]; [reflexivity|]. cbn [insert_sorted]. unfold before. now rewrite !E, IH. Qed.
Lemma py_sorted_ext {A} (k1 k2 : A -> Z) r l : (forall y, k1 y = k2 y) -> py_sorted k1 r l = py_sorted k2 r l.
Proof. intros E. induction l as [|x l IH]; [reflexivity|]. cbn [py_sorted]. now rewrite IH, (insert_ext k1 k2). Qed.
Lemma last_map {A B} (f : A -> B) l d : last (map f l) (f d) = f (last l d).
Proof. induction l as [|x [|y l] IH]; [reflexivity|reflexivity|]. exact IH. Qed.
Lemma columns_length a (kv : str * sentry) : length (color_columns a (snd kv)) = length (entry_columns a (snd kv)).
Proof. destruct (columns_same a (snd kv)) as [S _]. now rewrite <- (map_length cl_size), S, map_length. Qed.
Lemma entries_ok a first d :
  same_result (color_entries a first d) (entries_table a first d)
    (fun t' t => tb_headers t' = tb_headers t /\ rows_ok t' t).
Proof.
  unfold color_entries, entries_table, color_table_sorted, get_table_sorted. set (h := summary_headers a first d).
  destruct (sort_column h (a_sort a)) as [z|e]; [|reflexivity].
  assert (B : forallb (fun r => match row_key a z r with Some _ => true | None => false end) (map (color_row a) d)
            = forallb (fun r => match row_key a z r with Some _ => true | None => false end) (map (entry_row a) d)).
  { induction d as [|kv d IH]; [reflexivity|]. cbn [map forallb]. rewrite row_key_same. f_equal. exact IH. }
  rewrite B. destruct (forallb _ (map (entry_row a) d)).
  - split; [reflexivity|]. unfold rows_ok. cbn [tb_rows]. rewrite !py_sorted_map, !map_map.
    rewrite (py_sorted_ext (fun y => match row_key a z (color_row a y) with Some k => k | None => 0 end)
                           (fun y => match row_key a z (entry_row a y) with Some k => k | None => 0 end)) by (intros y; now rewrite row_key_same).
    apply forall2_map. intros kv _. apply entry_row_ok.
  - cbn [same_result]. rewrite !map_map. assert (L : length (last (map (fun x => tr_columns (color_row a x)) d) []) = length (last (map (fun x => tr_columns (entry_row a x)) d) [])).
    { clear. induction d as [|x [|y d] IH]; [reflexivity|cbn; exact (columns_length a x)|]. exact IH. }
    now rewrite L.
Qed.

(** titles *)
Lemma seg_bytes x : In x [key "Used "; key "Remain "; key "Total "] -> seg nm (x ++ key "\[bytes]") (x ++ key "[bytes]") (fun st => st).
Proof.
  intros H. assert (Q : quiet x) by (cbn [In] in H; destruct H as [<-|[<-|[<-|[]]]]; repeat split; intros; discriminate).
  apply seg_app_id; [now apply seg_quiet|]. intros st rest. unfold out. change (parse 0 [] (key "\[bytes]" ++ rest)) with (Txt (key "[bytes]") :: parse 0 [] rest). cbn [render].
  replace (unescape (key "[bytes]")) with (key "[bytes]") by reflexivity. reflexivity.
Qed.
Lemma seg_percent : seg nm (key "Used \[%]") (key "Used [%]") (fun st => st).
Proof.
  intros st rest. unfold out. change (parse 0 [] (key "Used \[%]" ++ rest)) with (parse 0 (key "Used \[%") (key "]" ++ rest)).
  rewrite parse_quiet by (repeat split; discriminate). rewrite <- (app_nil_r (key "Used \[%" ++ key "]")), parse_acc; [reflexivity|]. apply (ends_well_snoc (key "Used \[%") "]"%char). discriminate.
Qed.
Lemma title_ok x y f : seg nm x y f -> shown_as nm x y /\ exists f, seg nm (x ++ [q]) (y ++ [q]) f.
Proof. intros S. split; [exact (seg_plain nm _ _ _ S)|]. eexists. apply seg_app; [exact S|]. apply seg_quiet, quiet_quote. Qed.
Lemma titles_ok : Forall2 (fun x y => shown_as nm x y /\ exists f, seg nm (x ++ [q]) (y ++ [q]) f) color_headers usage_headers.
Proof.
  unfold color_headers, usage_headers. repeat constructor; eapply title_ok.
  - apply seg_quiet. repeat split; discriminate.
  - exact (seg_bytes (key "Used ") (or_introl eq_refl)).
  - exact seg_percent.
  - exact (seg_bytes (key "Remain ") (or_intror (or_introl eq_refl))).
  - exact (seg_bytes (key "Total ") (or_intror (or_intror (or_introl eq_refl)))).
Qed.

(** ** CSV lines *)
Lemma seg_line l' l : Forall2 (fun x y => exists f, seg nm (x ++ [q]) (y ++ [q]) f) l' l -> exists f, seg nm (join_commas (map quoted l')) (join_commas (map quoted l)) f.
Proof.
  assert (Q : forall x y f, seg nm (x ++ [q]) (y ++ [q]) f -> seg nm (quoted x) (quoted y) f).
  { intros x y f S. apply (seg_app_id nm [q] [q]); [apply seg_quiet, quiet_quote|exact S]. }
  induction 1 as [|x y l' l (f & S) H (g & IH)]; [exists (fun st => st); apply seg_nil|].
  destruct H as [|x2 y2 l2' l2 H2 H].
  - exists f. now apply Q.
  - exists (fun st => g (f st)). cbn [map join_commas] in *.
    apply (seg_app nm (quoted x) (quoted y) f); [now apply Q|]. apply (seg_app_id nm [","%char] [","%char]); [apply seg_quiet; repeat split; discriminate|exact IH].
Qed.
Lemma csv_ok t' t : Forall2 (fun x y => exists f, seg nm (x ++ [q]) (y ++ [q]) f) (tb_headers t') (tb_headers t) ->
  Forall2 (Forall2 cell_ok) (tb_rows t') (tb_rows t) -> Forall2 (shown_as nm) (csv_lines t') (csv_lines t).
Proof.
  intros H R. unfold csv_lines. constructor; [destruct (seg_line _ _ H) as (f & S); exact (seg_plain nm _ _ _ S)|].
  induction R as [|r' r l' l C R IH]; [constructor|]. cbn [map]. constructor; [|exact IH].
  rewrite <- !(map_map strip quoted). destruct (seg_line (map strip r') (map strip r)) as (f & S); [|exact (seg_plain nm _ _ _ S)].
  clear -C. induction C as [|c' c l' l [_ C1] C IH]; constructor; [exact C1|exact IH].
Qed.

Lemma rows_cells t' t : rows_ok t' t -> rows_plain t -> Forall2 (Forall2 cell_ok) (tb_rows t') (tb_rows t).
Proof. intros R P. eapply forall2_with; [|exact P|exact R]. cbv beta. intros r' r N H. exact (H N). Qed.
Lemma cells_shown t' t : Forall2 (Forall2 cell_ok) (tb_rows t') (tb_rows t) -> Forall2 (Forall2 (shown_as nm)) (tb_rows t') (tb_rows t).
Proof.
  intros R. induction R as [|r' r l' l C R IH]; constructor; [|exact IH]. clear -C. induction C as [|c' c l' l [C1 _] C IH]; constructor; [exact C1|exact IH].
Qed.

Lemma summary_shown f m a : pct_texts f ->
  match color_summary f m a, get_summary_table (plain_pct f) m a with
  | TOk t', TOk t => rows_plain t -> table_shown_as nm t' t /\ Forall2 (shown_as nm) (csv_lines t') (csv_lines t)
  | TDie e', TDie e => e' = e
  | _, _ => False
  end.
Proof.
  intros F. pose proof (summary_ok f m a F) as S. unfold same_result in S.
  destruct (color_summary f m a) as [t'|e'], (get_summary_table (plain_pct f) m a) as [t|e]; try exact S. destruct S as (H' & H & R). intros P.
  pose proof (rows_cells t' t R P) as C. split; [split; [|now apply cells_shown]|apply csv_ok; [|exact C]]; rewrite H', H.
  - clear. pose proof titles_ok as T. induction T as [|x y l' l [A _] T IH]; constructor; [exact A|exact IH].
  - clear. pose proof titles_ok as T. induction T as [|x y l' l [_ A] T IH]; constructor; [exact A|exact IH].
Qed.
Lemma free_titles (l : list str) : Forall no_bracket l ->
  Forall2 (shown_as nm) l l /\ Forall2 (fun x y => exists f, seg nm (x ++ [q]) (y ++ [q]) f) l l.
Proof.
  induction 1 as [|x l N F [IH1 IH2]]; split; constructor; try assumption.
  - unfold shown_as, plain. now rewrite plain_free.
  - exists (fun st => st). now apply free_quote.
Qed.
Lemma entries_shown a first d :
  match color_entries a first d, entries_table a first d with
  | TOk t', TOk t => titles_plain t -> rows_plain t -> table_shown_as nm t' t /\ Forall2 (shown_as nm) (csv_lines t') (csv_lines t)
  | TDie e', TDie e => e' = e
  | _, _ => False
  end.
Proof.
  pose proof (entries_ok a first d) as S. unfold same_result in S.
  destruct (color_entries a first d) as [t'|e'], (entries_table a first d) as [t|e]; try exact S. destruct S as (H & R). intros T P.
  pose proof (rows_cells t' t R P) as C. destruct (free_titles _ T) as [A B]. split; [split; [|now apply cells_shown]|apply csv_ok; [|exact C]]; rewrite H; assumption.
Qed.

(** tables without colours *)
Lemma free_table t : titles_plain t -> Forall (Forall no_bracket) (tb_rows t) -> table_shown_as nm t t /\ Forall2 (shown_as nm) (csv_lines t) (csv_lines t).
Proof.
  intros T R. destruct (free_titles _ T) as [A B]. assert (C : Forall2 (Forall2 cell_ok) (tb_rows t) (tb_rows t)).
  { induction R as [|r l F R IH]; constructor; [|exact IH]. induction F as [|c r' N F IHF]; constructor; [now apply cell_free|exact IHF]. }
  split; [split; [exact A|now apply cells_shown]|now apply csv_ok].
Qed.

(** ** trees *)
Definition line_ok (x' x : nat * str) : Prop := fst x' = fst x /\ (no_bracket (snd x) -> shown_as nm (snd x') (snd x)).
Lemma free_app a b : no_bracket (a ++ b) -> no_bracket a.
Proof. intros N I. apply N, in_or_app. now left. Qed.
Lemma seg_name n rest t f : no_bracket n -> seg nm rest t f -> seg nm (n ++ " "%char :: rest) (n ++ " "%char :: t) f.
Proof.
  intros N S. change (" "%char :: rest) with ([" "%char] ++ rest). change (" "%char :: t) with ([" "%char] ++ t). rewrite !app_assoc.
  apply seg_app_id; [|exact S]. apply seg_quiet, quiet_before; [exact N|discriminate|]. repeat split; discriminate.
Qed.
Lemma label_ok a name n k : no_bracket (tree_label a name n k) -> shown_as nm (color_label a name n k) (tree_label a name n k).
Proof. intros N. eapply seg_plain. apply seg_name; [exact (free_app _ _ N)|apply seg_color_diff]. Qed.
Lemma node_ok {C} a depth name (sub' sub : str * C -> list (nat * str)) n : (forall x, Forall2 line_ok (sub' x) (sub x)) ->
  Forall2 line_ok (color_node a depth name sub' n) (tree_node a depth name sub n).
Proof. intros H. constructor; [split; [reflexivity|]; exact (label_ok a name (n_size n) (n_diff n))|]. apply forall2_flat_map. intros x _. apply H. Qed.
Lemma type_ok a kv : Forall2 line_ok (color_type a kv) (tree_type a kv).
Proof.
  unfold color_type, tree_type. constructor.
  - split; [reflexivity|]. cbn [snd]. intros N. destruct (t_size (snd kv) =? 0).
    + eapply seg_plain. apply seg_name; [exact (free_app _ _ N)|]. apply seg_app_id; [apply seg_color_diff|apply seg_nil].
    + eapply seg_plain. apply seg_name; [exact (free_app _ _ N)|]. apply seg_app_id; [apply seg_color_diff|].
      apply seg_app_id; [apply seg_quiet; repeat split; discriminate|apply seg_color_size].
  - apply forall2_flat_map. intros s _. apply node_ok. intros ar. apply node_ok. intros o. apply node_ok. intros y. constructor; [|constructor].
    split; [reflexivity|]. exact (label_ok a (fst y) (y_size (snd y)) (y_diff (snd y))).
Qed.
Lemma tree_ok m a : Forall (fun x => no_bracket (snd x)) (tree_lines m a) -> tree_shown_as nm (color_tree m a) (tree_lines m a).
Proof.
  intros F. unfold tree_shown_as. eapply (forall2_with _ line_ok); [|exact F|].
  - intros x y N [E H]. split; [exact E|exact (H N)].
  - unfold color_tree, tree_lines. constructor; [split; [reflexivity|]; intros N; unfold shown_as, plain; now rewrite plain_free|].
    apply forall2_flat_map. intros t _. apply type_ok.
Qed.
Lemma free_tree (l : list (nat * str)) : Forall (fun x => no_bracket (snd x)) l -> tree_shown_as nm l l.
Proof. induction 1 as [|x l N F IH]; constructor; [split; [reflexivity|]; unfold shown_as, plain; now rewrite plain_free|exact IH]. Qed.
End Rich.
