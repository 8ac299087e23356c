(** * The CSV reports in the output file *)
From Coq Require Import Ascii String List ZArith Lia Bool Permutation Sorted.
From Verif Require Import Base MemMap SpecTree SpecOps Filter SpecFilter Pipeline SpecPipe SpecBuild SpecBytes SpecShape PyStr MapFile SpecMap
  ElfRead SpecElf Project SpecProject SpecEnd Chips SpecChips ProofChips Deps Table SpecTable ProofTable ProofTable3 Formats ProofFormats Main SpecMain ProofMain Command SpecCommand ProofCommand1 ProofCommand3 ProofCommand6 SpecFail SpecReport ProofReport2 ProofReport3 ProofReport4 ProofReport5 ProofReport6
  Text SpecText ProofText1 ProofText2 ProofText3 ProofText5 ProofText6 Percent ProofPercent4 SpecLines SpecSyms SpecSymbols ProofSymbols3 ProofSymbols4 ProofSymbols5 SpecFile ProofFile SpecCsv ProofDwarf4.
Import ListNotations.
Open Scope list_scope.
Open Scope Z_scope.

(** ** what is printed *)
Lemma csv_done x M a o s1 s2 s : show x M (final_args a) o s1 = (Done tt, s2) -> s_printed s1 = [] -> s_printed s = s_printed s2 -> a_format a = FCsv ->
  exists tb t t', table_of x M (final_args a) o t = (Done tb, t') /\ s_printed s = map PLine (csv_lines tb).
Proof.
  intros Sh P1 P2 Fo. set (f := final_args a) in *. unfold show in Sh. change (a_format f) with (a_format a) in Sh. rewrite Fo in Sh.
  assert (Ta : forall t tb t', table_of x M f o t = (Done tb, t') -> s_printed t' = s_printed t).
  { intros t tb t' E. unfold table_of in E. destruct (a_archives f); [now apply table_done in E|]. destruct (given (a_archive_details f)).
    - apply andthen_done in E. destruct E as (q & t1 & E1 & E). apply cod_done in E1. apply table_done in E. destruct E1 as (_ & E1), E as (_ & E). congruence.
    - destruct (a_archive_dependencies f); [now apply cod_done in E|]. destruct (a_files f); now apply table_done in E. }
  unfold csv_show in Sh. apply andthen_done in Sh. destruct Sh as (tb & t1 & S1 & Sh). pose proof (Ta _ _ _ S1) as Q1. apply print_all_done in Sh.
  exists tb, s1, t1. split; [exact S1|]. rewrite P2, Sh, Q1, P1. reflexivity.
Qed.

(** ** names *)
Definition quote_free_b (s : str) : bool := forallb (fun c => negb (c =?= """"%char)) s.
Lemma quote_free_ok s : quote_free_b s = true -> no_quote s.
Proof. intros H I. unfold quote_free_b in H. rewrite forallb_forall in H. specialize (H _ I). rewrite keq_refl in H. discriminate. Qed.
Lemma chips_quoteless_checked : forallb (fun c => match get_memory_types chip_info (fst c) with Ok types => forallb (fun t => quote_free_b (ct_name t)) types | Err _ => false end) chip_files = true.
Proof. vm_compute. reflexivity. Qed.
Lemma chips_quoteless c types t : get_memory_types chip_info c = Ok types -> In t types -> no_quote (ct_name t).
Proof.
  intros E It. pose proof (chip_names c types E) as I. pose proof chips_quoteless_checked as H. rewrite forallb_forall in H.
  apply List.in_map_iff in I. destruct I as ((k & v) & Ek & I). cbn [fst] in Ek. subst k. specialize (H _ I). cbn [fst] in H. rewrite E in H. rewrite forallb_forall in H. apply quote_free_ok, H, It.
Qed.
Definition quoteless_types (k : account) (r : option account) : Prop :=
  (forall t, In t (ac_types k) -> no_quote (ct_name t)) /\ match r with Some k' => forall t, In t (ac_types k') -> no_quote (ct_name t) | None => True end.
Lemma built_quoteless d dir name text rs l crt im types : built d dir name text rs l crt im types -> forall t, In t types -> no_quote (ct_name t).
Proof. intros B t I. destruct (bt_types _ _ _ _ _ _ _ _ _ B) as (target & _ & E). eapply chips_quoteless; eassumption. Qed.
Lemma reported_quoteless d c k r : reported d c k r -> quoteless_types k r.
Proof.
  assert (G : forall a fn q, project_at d a fn q -> forall t, In t (ac_types q) -> no_quote (ct_name t)). { intros a fn q (dir & name & text & crt & _ & B & _) t I. eapply built_quoteless; eassumption. }
  intros (P & Q & _). split; [eapply G; exact P|]. destruct r as [k'|]; [|exact Logic.I]. destruct Q as (fn & _ & Q). eapply G; exact Q.
Qed.
Lemma symbols_quoteless d c k r : symbols_reported d c k r -> quoteless_types k r.
Proof.
  assert (G : forall a fn q, symbols_project d a fn q -> forall t, In t (ac_types q) -> no_quote (ct_name t)). { intros a fn q (dir & name & text & crt & k0 & ys & _ & B & _ & _ & _ & _ & ->) t I. eapply built_quoteless; eassumption. }
  intros (P & Q & _). split; [eapply G; exact P|]. destruct r as [k'|]; [|exact Logic.I]. destruct Q as (fn & _ & Q). eapply G; exact Q.
Qed.
Lemma after_last_quote c s b : after_last c s b -> no_quote s -> no_quote b.
Proof. intros (_ & [<-|(pre & ->)]) N I; apply N; [exact I|]. apply in_app_iff. right. right. exact I. Qed.
Lemma cat_quote a b c : no_quote a -> no_quote b -> c <> """"%char -> no_quote (a ++ c :: b).
Proof. intros A B C I. apply in_app_iff in I. destruct I as [I|[I|I]]; [now apply A|congruence|now apply B]. Qed.
Lemma app_quote a b : no_quote a -> no_quote b -> no_quote (a ++ b).
Proof. intros A B I. apply in_app_iff in I. destruct I as [I|I]; [now apply A|now apply B]. Qed.
Lemma section_quote a n s : shown_section a n s -> no_quote n -> no_quote s.
Proof.
  unfold shown_section. destruct (a_no_abbrev a && negb (a_unify a)); [now intros ->|]. intros (b & A & ->) N. apply (cat_quote []); [intros []|exact (after_last_quote _ _ _ A N)|discriminate].
Qed.
Section Names.
Variables (k : account) (r : option account) (a : args).
Hypothesis Pl : quoteless_project k r.
Hypothesis Fr : quoteless_types k r.
Lemma type_quote T : present k r (lists_type a T) -> no_quote T.
Proof.
  destruct Fr as (F1 & F2). intros [((c & I & <-) & _)|H]; [now apply F1|]. destruct r as [k'|]; [|contradiction]. destruct H as ((c & I & <-) & _). now apply F2.
Qed.
Lemma section_name_quote T N : present k r (lists_section T N) -> no_quote N.
Proof.
  assert (G : forall q, quoteless q -> lists_section T N q -> no_quote N).
  { intros q P (n & (keep & b & K & B & ->) & Pos). destruct (filter keep (ac_l q)) as [|o l] eqn:E; [cbn in Pos; lia|].
    assert (I : In o (filter keep (ac_l q))) by (rewrite E; now left). apply filter_In in I. destruct I as (I & Ko). apply K in Ko. destruct Ko as (C & <-).
    unfold quoteless in P. rewrite Forall_forall in P. exact (proj1 (P o I C)). }
  destruct Pl as (P1 & P2). intros [H|H]; [now apply (G k)|]. destruct r as [k'|]; [|contradiction]. now apply (G k').
Qed.
Lemma item_quote i : present k r (places i) -> no_quote (it_archive i) /\ no_quote (it_object i) /\ no_quote (it_name i).
Proof.
  assert (G : forall q, quoteless q -> places i q -> no_quote (it_archive i) /\ no_quote (it_object i) /\ no_quote (it_name i)).
  { intros q P (o & Io & C & Ii & Z). unfold quoteless in P. rewrite Forall_forall in P. destruct (P o Io C) as (_ & Q). rewrite Forall_forall in Q. exact (Q i Ii Z). }
  destruct Pl as (P1 & P2). intros [H|H]; [now apply (G k)|]. destruct r as [k'|]; [|contradiction]. now apply (G k').
Qed.
End Names.

(** ** numbers *)
Lemma chars_quote s : forallb ProofText2.number_char s = true -> no_quote s.
Proof. intros H I. rewrite forallb_forall in H. specialize (H _ I). discriminate H. Qed.
Lemma written_quote s z : written s z -> no_quote s.
Proof.
  intros [(_ & D & _)|(_ & r & -> & D & _)]; [exact (chars_quote _ (decimal_chars _ _ D))|]. apply (cat_quote []); [intros []|exact (chars_quote _ (decimal_chars _ _ D))|discriminate].
Qed.
Lemma spaces_quote l : Forall (eq " "%char) l -> no_quote l.
Proof. intros F I. rewrite Forall_forall in F. discriminate (F _ I). Qed.
Lemma cell_quote d v s : cell_text d v s -> no_quote s.
Proof.
  unfold cell_text. destruct d; [|apply written_quote]. intros (n & e & pad & W1 & W2 & -> & P & _). apply cat_quote; [exact (written_quote _ _ W1)| |discriminate].
  apply app_quote; [now apply spaces_quote|]. apply written_quote in W2. destruct (snd v <? 0); [apply (cat_quote []); [intros []|exact W2|discriminate]|].
  destruct (0 <? snd v); [apply (cat_quote []); [intros []|exact W2|discriminate]|exact W2].
Qed.
Lemma show_quote z : no_quote (show_Z z).
Proof. exact (chars_quote _ (show_Z_chars z)). Qed.
Lemma one_quote c : c <> """"%char -> no_quote [c].
Proof. intros N [E|[]]. congruence. Qed.
Lemma rounded_quote x : no_quote (rounded_text x).
Proof.
  unfold rounded_text. apply app_quote; [destruct (negative x); [apply one_quote; discriminate|intros []]|]. unfold hundredths_text. cbv zeta.
  apply cat_quote; [apply show_quote| |discriminate]. destruct (_ =? 0); [apply show_quote|]. destruct (_ <? 10); [|apply show_quote]. apply (cat_quote []); [intros []|apply show_quote|discriminate].
Qed.
Lemma rounded_diff_quote x : no_quote (rounded_diff x).
Proof.
  unfold rounded_diff, pad6. apply app_quote; [apply spaces_quote, Forall_forall; intros c I; symmetry; exact (repeat_spec _ _ _ I)|].
  destruct (rounded_sign x); [apply rounded_quote|apply rounded_quote|]. apply (cat_quote []); [intros []|apply rounded_quote|discriminate].
Qed.
Lemma pct_quote d p x : no_quote (plain_pct python_floats d p x).
Proof. unfold plain_pct. destruct d; cbn [negb python_floats ft_num ft_diff]; [apply cat_quote; [apply rounded_quote|apply rounded_diff_quote|discriminate]|apply rounded_quote]. Qed.

(** ** the file *)
Lemma join_length l : Z.of_nat (length (join_commas (map quoted l))) + (if match l with [] => true | _ => false end then 0 else 1) = zsum (map (fun c => Z.of_nat (length c) + 3) l).
Proof.
  induction l as [|x r IH]; [reflexivity|]. destruct r as [|y r'].
  - cbn [map join_commas]. unfold quoted. cbn [length]. rewrite app_length. cbn [length]. cbn [zsum]. lia.
  - cbn [map] in *. cbn [zsum]. cbn [zsum] in IH. rewrite <- IH. change (join_commas (quoted x :: quoted y :: map quoted r')) with (quoted x ++ ","%char :: join_commas (quoted y :: map quoted r')).
    rewrite app_length. cbn [length]. unfold quoted at 1. cbn [length]. rewrite app_length. cbn [length]. lia.
Qed.
Lemma join_unbroken l : Forall unbroken_text l -> unbroken_text (join_commas (map quoted l)).
Proof.
  intros F c B. assert (Q : c <> """"%char /\ c <> ","%char) by (split; intros ->; cbn in B; repeat (destruct B as [B|B]; [discriminate|]); contradiction). destruct Q as (Q1 & Q2).
  assert (G : forall x, unbroken_text x -> ~ In c (quoted x)). { intros x U I. destruct I as [E|I]; [congruence|]. apply in_app_iff in I. destruct I as [I|[E|[]]]; [exact (U c B I)|congruence]. }
  induction F as [|x r U F IH]; [intros []|]. destruct r as [|y r']; [exact (G x U)|]. cbn [map] in *.
  change (join_commas (quoted x :: quoted y :: map quoted r')) with (quoted x ++ ","%char :: join_commas (quoted y :: map quoted r')).
  intros I. apply in_app_iff in I. destruct I as [I|[E|I]]; [exact (G x U I)|congruence|exact (IH I)].
Qed.
Lemma line_fits r : fits_row r -> fits_line (join_commas (map quoted r)).
Proof. intros (U & L). split; [now apply join_unbroken|]. pose proof (join_length r) as J. destruct r; [cbn; lia|lia]. Qed.
Lemma lines_fit tb : Forall fits_row (tb_headers tb :: map (map strip) (tb_rows tb)) -> Forall fits_line (csv_lines tb).
Proof.
  intros F. inversion F as [|? ? H R]; subst. constructor; [now apply line_fits|]. apply Forall_forall. intros l I. apply List.in_map_iff in I. destruct I as (r & <- & I).
  rewrite <- (map_map strip quoted). apply line_fits. rewrite Forall_forall in R. apply R, List.in_map, I.
Qed.
Lemma csv_written normalize render encode ord pf projects c fn o fs s tb t' :
  console_lines normalize render -> output c fn -> c_quiet c = false ->
  run_cmd render encode ord pf projects c o (start fs) = (Done tt, s) ->
  (forall s1, run_cmd render encode ord pf projects (to_stdout c) no_faults (start fs) = (Done tt, s1) -> s_printed s1 = map PLine (csv_lines tb)) ->
  handed t' tb -> Forall2 (shown_as normalize) (csv_lines t') (csv_lines tb) -> plain_table tb -> csv_file encode fn s tb.
Proof.
  intros Cs Ou Cq R P Ha Sh Pl. destruct (run_success _ _ _ _ _ _ _ _ _ _ Ou R) as (s1 & R1 & F). apply P in R1. rewrite R1 in F.
  unfold csv_file. cbv zeta. intros Fi. exists (lines_text (csv_lines tb)). split.
  - rewrite F, dget_dset_eq. rewrite (Cs (file_console c) t' tb Cq Ha Sh (lines_fit tb Fi)). reflexivity.
  - rewrite <- (csv_reads tb Pl). unfold csv_text, lines_text. now rewrite flat_map_concat_map.
Qed.

(** ** the summary *)
Lemma made_quote f g rs : made (plain_pct python_floats) f g rs -> Forall (fun r => Forall no_quote (tl r)) rs.
Proof.
  intros (T & t & ss & _ & ->). assert (N : forall d a b, no_quote (num_cell d a b)) by (intros; exact (cell_quote _ _ _ (num_cell_text _ _ _))).
  assert (E : no_quote []) by intros []. constructor.
  - unfold type_row. cbv zeta. cbn [tl]. constructor; [apply N|]. destruct (negb (t_size t =? 0)); repeat (constructor; [first [apply pct_quote|apply N|exact E]|]); constructor.
  - apply Forall_forall. intros r I. apply List.in_map_iff in I. destruct I as (kv & <- & _). unfold sect_row. cbv zeta. cbn [tl]. constructor; [apply N|].
    destruct (negb (t_size t =? 0)); repeat (constructor; [first [apply pct_quote|apply N|exact E]|]); constructor.
Qed.
Lemma group_names (P : str -> Prop) a g rs : pgroup_rows a g rs -> P (pg_type g) -> (forall s v name, In (s, v) (pg_sections g) -> shown_section a s name -> P (list_ascii_of_string "   " ++ name)) ->
  Forall (fun r => r <> [] /\ P (hd [] r)) rs.
Proof.
  intros (used & pct & remain & total & rest & -> & _ & _ & F) T H. constructor; [split; [discriminate|exact T]|].
  apply Forall_forall. intros r I. destruct (Forall2_In_r _ _ _ _ F I) as ((s & v) & Is & name & u & p & -> & Sh & _). split; [discriminate|]. exact (H _ _ _ Is Sh).
Qed.
Lemma no_spaces (P : ascii -> Prop) s c : ~ In c s -> c <> " "%char -> ~ In c (list_ascii_of_string "   " ++ s).
Proof. intros N S I. apply in_app_iff in I. destruct I as [I|I]; [|now apply N]. cbn in I. intuition congruence. Qed.
Lemma groups_names (P : str -> Prop) k r a groups rows : Forall2 (pgroup_rows a) groups rows -> Forall (pgroup_right k r a) groups ->
  (forall T, In T (map pg_type groups) <-> present k r (lists_type a T) /\ exists v, measured k r (used_bytes T) v /\ differs a v) ->
  (forall T, present k r (lists_type a T) -> P T) -> (forall T N name, present k r (lists_section T N) -> shown_section a N name -> P (list_ascii_of_string "   " ++ name)) ->
  Forall (fun row => row <> [] /\ P (hd [] row)) (concat rows).
Proof.
  intros F R Ty Pt Ps. apply Forall_forall. intros row I. apply in_concat in I. destruct I as (rs & Ir & I). destruct (Forall2_In_r _ _ _ _ F Ir) as (g & Ig & G).
  rewrite Forall_forall in R. pose proof (R g Ig) as Rg. assert (H : Forall (fun r => r <> [] /\ P (hd [] r)) rs).
  { apply (group_names P a g rs G).
    - apply Pt, Ty, List.in_map, Ig.
    - intros s v name Is Sh. apply (pg_sections_are _ _ _ _ Rg) in Is. exact (Ps _ _ _ (proj1 Is) Sh). }
  rewrite Forall_forall in H. exact (H row I).
Qed.
Lemma summary_csv d c k r o fn fs s normalize render encode ord :
  console_lines normalize render -> output c fn -> c_quiet c = false ->
  reported d c k r -> of_types (c_args c) -> a_format (c_args c) = FCsv -> plain_project k r -> quoteless_project k r ->
  run_files d (get_memory_types chip_info) render encode ord (plain_pct python_floats) c o (start fs) = (Done tt, s) ->
  exists tb i groups rows, csv_file encode fn s tb /\ tb_headers tb = usage_headers /\ tb_rows tb = concat rows /\ Forall2 (pgroup_rows (c_args c)) groups rows /\
    NoDup (map pg_type groups) /\
    (forall T, In T (map pg_type groups) <-> present k r (lists_type (c_args c) T) /\ exists v, measured k r (used_bytes T) v /\ differs (c_args c) v) /\
    Forall (pgroup_right k r (c_args c)) groups /\
    names_column usage_headers (a_sort (c_args c)) i /\
    (i <> 2%nat -> StronglySorted (fun x y => in_order (a_sort_reverse (c_args c)) (pick (a_sort_diff (c_args c)) (pg_value i x)) (pick (a_sort_diff (c_args c)) (pg_value i y))) groups) /\
    (i = 1%nat -> Forall (fun g => StronglySorted (fun x y => in_order (a_sort_reverse (c_args c)) (pick (a_sort_diff (c_args c)) (snd x)) (pick (a_sort_diff (c_args c)) (snd y))) (pg_sections g)) groups).
Proof.
  intros Cs Ou Cq Rp (Ta & Td & Tp & Tf) Fo Pl Ql R. destruct (run_success _ _ _ _ _ _ _ _ _ _ Ou R) as (s0 & R0 & _). pose proof Rp as (_ & _ & Au & Ad).
  assert (Rp0 : reported d (to_stdout c) k r) by exact Rp.
  destruct (shown_map _ _ _ _ _ _ _ _ _ _ _ Rp0 (fun X => ltac:(cbn in X; congruence)) (fun X => ltac:(cbn in X; congruence)) R0) as (M & x & s1 & s2 & fu & fi & fo & F & _ & Xp & P1 & Sh & P2 & N2).
  destruct (csv_done x M (c_args (to_stdout c)) _ s1 s2 s0 Sh P1 P2 Fo) as (tb & t & t' & E & Pr).
  unfold table_of in E. set (f0 := final_args (c_args (to_stdout c))) in *.
  change (a_archives f0) with (a_archives (c_args c)) in E. change (a_archive_details f0) with (a_archive_details (c_args c)) in E.
  change (a_archive_dependencies f0) with (a_archive_dependencies (c_args c)) in E. change (a_files f0) with (a_files (c_args c)) in E. rewrite Ta, Td, Tp, Tf in E.
  apply table_done in E. destruct E as (E & _). rewrite Xp in E. destruct (summary_report_rows _ _ _ _ _ _ _ _ _ F Au Ad E) as (i & groups & rows & H1 & H2 & H3 & H4 & H5 & H6 & H7 & H8 & H9 & H10).
  assert (G3 : Forall2 (pgroup_rows (c_args c)) groups rows) by exact H3.
  assert (G6 : Forall (pgroup_right k r (c_args c)) groups). { eapply Forall_impl; [|exact H6]. intros g [X1 X2 X3 X4 X5]. split; assumption. }
  exists tb, i, groups, rows. split; [|repeat (split; [assumption|]); assumption].
  assert (Fr : free_all k r) by (eapply reported_free; exact Rp). assert (Qt : quoteless_types k r) by (eapply reported_quoteless; exact Rp).
  assert (Rn : rows_plain tb).
  { unfold rows_plain. rewrite H2. eapply Forall_impl; [|apply (groups_names no_bracket k r (c_args c) groups rows G3 G6 H5)].
    - intros row X. exact (proj2 X).
    - intros T. apply type_free; assumption.
    - intros T N name X Y. apply no_spaces; [exact (fun _ => True)| |discriminate]. eapply shown_free; [exact Y|]. eapply section_free; eassumption. }
  pose proof (summary_shown normalize python_floats M f0 python_texts) as Su. rewrite E in Su.
  destruct (color_summary python_floats M f0) as [tc|] eqn:Ec; [|contradiction]. destruct (Su Rn) as (_ & Sl).
  eapply (csv_written normalize render encode ord _ _ c fn o fs s tb tc); try eassumption.
  - intros s3 R3. unfold run_files in R0. rewrite R0 in R3. injection R3 as <-. exact Pr.
  - exact (handed_summary _ _ _ _ Ec E).
  - split; [rewrite H1; discriminate|]. split; [rewrite H1; repeat (constructor; [apply quote_free_ok; reflexivity|]); constructor|]. rewrite H2.
    assert (Q1 : Forall (fun row => row <> [] /\ no_quote (hd [] row)) (concat rows)).
    { apply (groups_names no_quote k r (c_args c) groups rows G3 G6 H5).
      - intros T. apply type_quote; assumption.
      - intros T N name X Y. apply no_spaces; [exact (fun _ => True)| |discriminate]. eapply section_quote; [exact Y|]. eapply section_name_quote; eassumption. }
    apply Forall_forall. intros row I. rewrite Forall_forall in Q1. destruct (Q1 row I) as (Ne & Hd). split; [exact Ne|].
    apply in_concat in I. destruct I as (rs & Ir & I). destruct (Forall2_In_r _ _ _ _ H10 Ir) as (g & _ & G). apply made_quote in G. rewrite Forall_forall in G. specialize (G row I).
    destruct row as [|h tl0]; [congruence|]. constructor; [exact Hd|exact G].
Qed.

(** ** archives, object files and symbols *)
Lemma entries_plain k r a first (tb : table) (groups : list (str * list str)) titles (P : str -> Prop) :
  tb_headers tb = first :: titles -> Forall2 (column_title a) (columns groups) titles -> columns_right k r a groups -> P first -> P (list_ascii_of_string "Total Size") ->
  (forall T, present k r (lists_type a T) -> P T) -> (forall T N name, present k r (lists_section T N) -> shown_section a N name -> P name) -> Forall P (tb_headers tb).
Proof.
  intros H C (_ & Ty & Se) Pf Pt PT PN. rewrite H. constructor; [exact Pf|]. apply Forall_forall. intros h I. destruct (Forall2_In_r _ _ _ _ C I) as (c & Ic & Hc).
  destruct Ic as [<-|Ic]; [cbn in Hc; now rewrite Hc|]. apply in_flat_map in Ic. destruct Ic as ((T & Ns) & Ig & Ic). cbn [fst snd] in Ic. destruct Ic as [<-|Ic].
  - cbn in Hc. subst h. apply PT, Ty, List.in_map_iff. exists (T, Ns). now split.
  - apply List.in_map_iff in Ic. destruct Ic as (N & <- & In_). cbn in Hc. eapply PN; [|exact Hc]. apply (Se T Ns Ig), In_.
Qed.

Lemma entries_csv d c k r o files fn ps fs s normalize render encode ord pf :
  console_lines normalize render -> output c fn -> c_quiet c = false ->
  reported d c k r -> asked files (c_args c) -> (given (a_archive_details (c_args c)) = true -> a_use_dwarf (c_args c) <> Some true) -> tells_files files k r -> asked_filter (c_args c) ps ->
  a_format (c_args c) = FCsv -> plain_project k r -> quoteless_project k r ->
  run_files d (get_memory_types chip_info) render encode ord pf c o (start fs) = (Done tt, s) ->
  exists tb is, csv_file encode fn s tb /\ table_items files k r (c_args c) ps is /\
    let first := list_ascii_of_string (if files then "Object File" else "Archive File") in
    (is = [] -> tb_headers tb = [first; list_ascii_of_string "Total Size"] /\ tb_rows tb = []) /\
    (is <> [] -> exists groups titles i col, columns_right k r (c_args c) groups /\ tb_headers tb = first :: titles /\ Forall2 (column_title (c_args c)) (columns groups) titles /\
       Forall2 (table_row files k r (c_args c) (columns groups)) is (tb_rows tb) /\
       names_column (tb_headers tb) (a_sort (c_args c)) (S i) /\ nth_error (columns groups) i = Some col /\
       StronglySorted (fun x y => forall v w, measured k r (own_bytes (row_own files x) col) v -> measured k r (own_bytes (row_own files y) col) w ->
         in_order (a_sort_reverse (c_args c)) (pick (a_sort_diff (c_args c)) v) (pick (a_sort_diff (c_args c)) w)) is).
Proof.
  intros Cs Ou Cq Rp As Dw Tf Fl Fo Pl Ql R. destruct (run_success _ _ _ _ _ _ _ _ _ _ Ou R) as (s0 & R0 & _). pose proof Rp as (_ & _ & Au & Ad).
  assert (Rp0 : reported d (to_stdout c) k r) by exact Rp.
  destruct (shown_map _ _ _ _ _ _ _ _ _ _ _ Rp0 Dw (fun X => ltac:(cbn in X; congruence)) R0) as (M & x & s1 & s2 & fu & fi & fo & F & _ & _ & P1 & Sh & P2 & N2).
  destruct (csv_done x M (c_args (to_stdout c)) _ s1 s2 s0 Sh P1 P2 Fo) as (tb & t & t' & E & Pr).
  set (first := if files then list_ascii_of_string "Object File" else list_ascii_of_string "Archive File"). set (f0 := final_args (c_args (to_stdout c))) in *.
  set (base := get_summary_filtered (if files then get_object_files_summary M f0 else get_archives_summary M f0) f0).
  assert (Et : entries_table f0 first base = TOk tb /\ is_report M f0 first base (TOk tb)).
  { unfold table_of in E. change (a_archives f0) with (a_archives (c_args c)) in E. change (a_archive_details f0) with (a_archive_details (c_args c)) in E.
    change (a_archive_dependencies f0) with (a_archive_dependencies (c_args c)) in E. change (a_files f0) with (a_files (c_args c)) in E. unfold first, base.
    destruct files; cbn [asked] in As.
    - destruct As as (A1 & A2 & A3). rewrite A1, A2, Ad, A3 in E. apply table_done in E. destruct E as (E & _). split; [exact E|]. right. left. split; [reflexivity|]. split; [reflexivity|]. now symmetry.
    - rewrite As in E. apply table_done in E. destruct E as (E & _). split; [exact E|]. left. split; [reflexivity|]. split; [reflexivity|]. now symmetry. }
  destruct Et as (Et & Ir). destruct (table_shown _ _ _ _ _ _ _ F Au Ad files Tf ps tb Fl Ir) as (is & Ti & T1 & T2).
  exists tb, is. split; [|split; [exact Ti|destruct files; cbv zeta; (split; [exact T1|exact T2])]].
  assert (Fr : free_all k r) by (eapply reported_free; exact Rp). assert (Qt : quoteless_types k r) by (eapply reported_quoteless; exact Rp).
  assert (Fs : no_bracket first /\ no_quote first) by (unfold first; destruct files; split; (apply free_ok + apply quote_free_ok); reflexivity).
  assert (Ft : no_bracket (list_ascii_of_string "Total Size") /\ no_quote (list_ascii_of_string "Total Size")) by (split; (apply free_ok + apply quote_free_ok); reflexivity).
  destruct Fs as (Fs1 & Fs2), Ft as (Ft1 & Ft2).
  assert (All : titles_plain tb /\ rows_plain tb /\ plain_table tb).
  { destruct is as [|i0 is0] eqn:Ei.
    - destruct (T1 eq_refl) as (H1 & H2). unfold titles_plain, rows_plain, plain_table. change (if files then _ else _) with first in H1. rewrite H1, H2. repeat split; repeat (constructor; try assumption); discriminate.
    - rewrite <- Ei in *. assert (Ne : is <> []) by (rewrite Ei; discriminate). destruct (T2 Ne) as (groups & titles & i & col & C & H1 & H2 & H3 & _).
      assert (H1' : tb_headers tb = first :: titles) by exact H1. assert (H2' : Forall2 (column_title (c_args c)) (columns groups) titles) by exact H2.
      assert (C' : columns_right k r (c_args c) groups) by exact C.
      assert (Nm : forall row, In row (tb_rows tb) -> exists name cells, row = name :: cells /\ no_bracket name /\ no_quote name /\ Forall no_quote cells).
      { intros row I. destruct (Forall2_In_r _ _ _ _ H3 I) as (it & Ii & name & cells & -> & Sn & Cl). exists name, cells. split; [reflexivity|].
        assert (P : present k r (places it)). { destruct Ti as (_ & Ti & _). rewrite Forall_forall in Ti. exact (Ti it Ii). }
        assert (IB : no_bracket (it_archive it) /\ no_bracket (it_object it) /\ no_bracket (it_name it)) by (eapply item_free; eassumption). assert (IQ : no_quote (it_archive it) /\ no_quote (it_object it) /\ no_quote (it_name it)) by (eapply item_quote; eassumption). destruct IB as (B1 & B2 & _), IQ as (Q1 & Q2 & _).
        unfold shown_name in Sn. split; [|split].
        - destruct (a_no_abbrev _); [subst name; unfold row_key; destruct files; [apply cat_free; [exact B1|exact B2|discriminate]|exact B1]|].
          eapply after_last_free; [exact Sn|]. unfold row_file. destruct files; assumption.
        - destruct (a_no_abbrev _); [subst name; unfold row_key; destruct files; [apply cat_quote; [exact Q1|exact Q2|discriminate]|exact Q1]|].
          eapply after_last_quote; [exact Sn|]. unfold row_file. destruct files; assumption.
        - apply Forall_forall. intros cell Ic. destruct (Forall2_In_r _ _ _ _ Cl Ic) as (q & _ & v & _ & Ct). exact (cell_quote _ _ _ Ct). }
      split; [|split; [|split; [rewrite H1'; discriminate|split]]].
      + apply (entries_plain k r (c_args c) first tb groups titles no_bracket H1' H2' C' Fs1 Ft1); [intros T; apply type_free; assumption|].
        intros T N name X Y. eapply shown_free; [exact Y|]. eapply section_free; eassumption.
      + apply Forall_forall. intros row I. destruct (Nm row I) as (name & cells & -> & B & _). exact B.
      + apply (entries_plain k r (c_args c) first tb groups titles no_quote H1' H2' C' Fs2 Ft2); [intros T; apply type_quote; assumption|].
        intros T N name X Y. eapply section_quote; [exact Y|]. eapply section_name_quote; eassumption.
      + apply Forall_forall. intros row I. destruct (Nm row I) as (name & cells & -> & _ & Q & Qc). split; [discriminate|]. constructor; assumption. }
  destruct All as (Tp & Rn & Pt). pose proof (entries_shown normalize f0 first base) as Su. rewrite Et in Su.
  destruct (color_entries f0 first base) as [tc|] eqn:Ec; [|contradiction]. destruct (Su Tp Rn) as (_ & Sl).
  eapply (csv_written normalize render encode ord _ _ c fn o fs s tb tc); try eassumption.
  - intros s3 R3. unfold run_files in R0. rewrite R0 in R3. injection R3 as <-. exact Pr.
  - exact (handed_entries _ _ _ _ _ Ec Et).
Qed.
Lemma symbols_csv d c x q r o fn ps fs s normalize render encode ord pf :
  console_lines normalize render -> output c fn -> c_quiet c = false ->
  symbols_reported d c q r -> asked_symbols (c_args c) x -> tells_symbols q r -> asked_filter (c_args c) ps ->
  a_format (c_args c) = FCsv -> plain_project q r -> quoteless_project q r ->
  run_files d (get_memory_types chip_info) render encode ord pf c o (start fs) = (Done tt, s) ->
  exists tb is, csv_file encode fn s tb /\ (exists i, symbol_of x q r i) /\ symbol_items x q r (c_args c) ps is /\
    let first := list_ascii_of_string "Symbol" in
    (is = [] -> tb_headers tb = [first; list_ascii_of_string "Total Size"] /\ tb_rows tb = []) /\
    (is <> [] -> exists groups titles i col, columns_right q r (c_args c) groups /\ tb_headers tb = first :: titles /\ Forall2 (column_title (c_args c)) (columns groups) titles /\
       Forall2 (symbol_row q r (c_args c) (columns groups)) is (tb_rows tb) /\
       names_column (tb_headers tb) (a_sort (c_args c)) (S i) /\ nth_error (columns groups) i = Some col /\
       StronglySorted (fun y z => forall v w, measured q r (own_bytes (of_symbol y) col) v -> measured q r (own_bytes (of_symbol z) col) w ->
         in_order (a_sort_reverse (c_args c)) (pick (a_sort_diff (c_args c)) v) (pick (a_sort_diff (c_args c)) w)) is).
Proof.
  intros Cs Ou Cq Rp As Tf Fl Fo Pl Ql R. destruct (run_success _ _ _ _ _ _ _ _ _ _ Ou R) as (s0 & R0 & _). pose proof Rp as (_ & _ & Au & Ad). pose proof As as (A1 & A2 & A3).
  assert (Rp0 : symbols_reported d (to_stdout c) q r) by exact Rp. assert (As0 : asked_symbols (c_args (to_stdout c)) x) by exact As.
  destruct (shown_smap _ _ _ _ _ _ _ _ _ _ _ _ Rp0 As0 R0) as (M & e & s1 & s2 & fo & F & P1 & Sh & P2 & N2).
  destruct (csv_done e M (c_args (to_stdout c)) _ s1 s2 s0 Sh P1 P2 Fo) as (tb & t & t' & E & Pr).
  set (first := list_ascii_of_string "Symbol"). set (f0 := final_args (c_args (to_stdout c))) in *.
  unfold table_of in E. change (a_archives f0) with (a_archives (c_args c)) in E. change (a_archive_details f0) with (a_archive_details (c_args c)) in E.
  rewrite A1, A2, (given_some x A3) in E. apply andthen_done in E. destruct E as (tr & t1 & E1 & E). apply cod_done in E1. destruct E1 as (E1 & _). apply table_done in E. destruct E as (-> & _).
  assert (Bs : exists base, get_symbols_summary M f0 = Ok base).
  { unfold get_symbols_table in E1. destruct (get_symbols_summary M f0) as [b|]; [eauto|discriminate]. }
  destruct Bs as (base & Bs). assert (Et : entries_table f0 first (get_summary_filtered base f0) = TOk tb). { unfold get_symbols_table in E1. rewrite Bs in E1. cbn [bind] in E1. injection E1 as E1. exact E1. }
  destruct (stable_shown _ _ _ _ _ _ F Au Ad A2 Tf base Bs ps tb Fl) as (is & Ti & T1 & T2).
  { right. right. split; [reflexivity|]. exists base. split; [exact Bs|]. split; [reflexivity|exact E1]. }
  exists tb, is. split; [|split; [exact (symbols_exist _ _ _ _ _ _ F A2 base Bs)|split; [exact Ti|cbv zeta; split; [exact T1|exact T2]]]].
  assert (Fr : free_all q r) by (eapply symbols_reported_free; exact Rp). assert (Qt : quoteless_types q r) by (eapply symbols_quoteless; exact Rp).
  assert (Fs : no_bracket first /\ no_quote first) by (unfold first; split; (apply free_ok + apply quote_free_ok); reflexivity).
  assert (Ft : no_bracket (list_ascii_of_string "Total Size") /\ no_quote (list_ascii_of_string "Total Size")) by (split; (apply free_ok + apply quote_free_ok); reflexivity).
  destruct Fs as (Fs1 & Fs2), Ft as (Ft1 & Ft2).
  assert (All : titles_plain tb /\ rows_plain tb /\ plain_table tb).
  { destruct is as [|i0 is0] eqn:Ei.
    - destruct (T1 eq_refl) as (H1 & H2). unfold titles_plain, rows_plain, plain_table. rewrite H1, H2. repeat split; repeat (constructor; try assumption); discriminate.
    - rewrite <- Ei in *. assert (Ne : is <> []) by (rewrite Ei; discriminate). destruct (T2 Ne) as (groups & titles & i & col & C & H1 & H2 & H3 & _).
      assert (H1' : tb_headers tb = first :: titles) by exact H1. assert (H2' : Forall2 (column_title (c_args c)) (columns groups) titles) by exact H2.
      assert (C' : columns_right q r (c_args c) groups) by exact C.
      assert (Nm : forall row, In row (tb_rows tb) -> exists name cells, row = name :: cells /\ no_bracket name /\ no_quote name /\ Forall no_quote cells).
      { intros row I. destruct (Forall2_In_r _ _ _ _ H3 I) as (it & Ii & name & cells & -> & Sn & Cl). exists name, cells. split; [reflexivity|].
        assert (P : present q r (places it)). { destruct Ti as (_ & Ti & _). rewrite Forall_forall in Ti. exact (proj1 (Ti it Ii)). }
        assert (IB : no_bracket (it_archive it) /\ no_bracket (it_object it) /\ no_bracket (it_name it)) by (eapply item_free; eassumption). assert (IQ : no_quote (it_archive it) /\ no_quote (it_object it) /\ no_quote (it_name it)) by (eapply item_quote; eassumption). destruct IB as (B1 & B2 & B3), IQ as (Q1 & Q2 & Q3).
        unfold symbol_shown in Sn. split; [|split].
        - subst name. destruct (a_no_abbrev _); [|exact B3]. unfold symbol_key. apply cat_free; [exact B1| |discriminate]. apply cat_free; [exact B2|exact B3|discriminate].
        - subst name. destruct (a_no_abbrev _); [|exact Q3]. unfold symbol_key. apply cat_quote; [exact Q1| |discriminate]. apply cat_quote; [exact Q2|exact Q3|discriminate].
        - apply Forall_forall. intros cell Ic. destruct (Forall2_In_r _ _ _ _ Cl Ic) as (y & _ & v & _ & Ct). exact (cell_quote _ _ _ Ct). }
      split; [|split; [|split; [rewrite H1'; discriminate|split]]].
      + apply (entries_plain q r (c_args c) first tb groups titles no_bracket H1' H2' C' Fs1 Ft1); [intros T; apply type_free; assumption|].
        intros T N name X Y. eapply shown_free; [exact Y|]. eapply section_free; eassumption.
      + apply Forall_forall. intros row I. destruct (Nm row I) as (name & cells & -> & B & _). exact B.
      + apply (entries_plain q r (c_args c) first tb groups titles no_quote H1' H2' C' Fs2 Ft2); [intros T; apply type_quote; assumption|].
        intros T N name X Y. eapply section_quote; [exact Y|]. eapply section_name_quote; eassumption.
      + apply Forall_forall. intros row I. destruct (Nm row I) as (name & cells & -> & _ & Q & Qc). split; [discriminate|]. constructor; assumption. }
  destruct All as (Tp & Rn & Pt). pose proof (entries_shown normalize f0 first (get_summary_filtered base f0)) as Su. rewrite Et in Su.
  destruct (color_entries f0 first (get_summary_filtered base f0)) as [tc|] eqn:Ec; [|contradiction]. destruct (Su Tp Rn) as (_ & Sl).
  eapply (csv_written normalize render encode ord _ _ c fn o fs s tb tc); try eassumption.
  - intros s3 R3. unfold run_files in R0. rewrite R0 in R3. injection R3 as <-. exact Pr.
  - exact (handed_entries _ _ _ _ _ Ec Et).
Qed.
