From Coq Require Import Ascii String List ZArith Lia Bool.
From Verif Require Import Base MemMap SpecTree SpecOps Filter SpecFilter Pipeline SpecPipe SpecBuild SpecBytes SpecShape PyStr MapFile SpecMap
  ElfRead SpecElf Project SpecProject SpecEnd Chips SpecChips ProofChips Deps Table SpecTable Formats JsonText Main SpecMain ProofMain Command SpecCommand ProofCommand3 ProofCommand6 SpecFail SpecReport ProofReport5 ProofReport6
  SpecText ProofText1 ProofText5 ProofText6 SpecLines SpecSyms SpecSymbols ProofSymbols4 ProofSymbols5 SpecFile.
Import ListNotations.
Open Scope list_scope.
Open Scope Z_scope.

(** ** the file *)
Lemma printed_file normalize render encode ord pf projects c fn o fs s p :
  console_shows normalize render -> keeps_ascii encode -> output c fn -> c_quiet c = false ->
  run_cmd render encode ord pf projects c o (start fs) = (Done tt, s) ->
  (forall s1, run_cmd render encode ord pf projects (to_stdout c) no_faults (start fs) = (Done tt, s1) -> s_printed s1 = [p]) ->
  json_of_piece p <> None -> Forall no_bracket (piece_names p) -> file_says fn s p.
Proof.
  intros Cs Ka Ou Cq R P J N. destruct (run_success _ _ _ _ _ _ _ _ _ _ Ou R) as (s1 & R1 & F). apply P in R1. rewrite R1 in F.
  assert (exists t, json_text p = Some t) as (t & T). { unfold json_text. destruct (json_of_piece p); [eexists; reflexivity|congruence]. }
  destruct (json_text_ok normalize p t T) as (j & Rj & Sj & Sh). exists t, j. split; [exact T|]. split; [exact Rj|]. split; [exact Sj|]. intros Nw. rewrite F, dget_dset_eq.
  rewrite (Cs (file_console c) p t t Cq T (Sh N) Nw). f_equal. apply Ka. apply Forall_app. split; [eapply text_printable; exact T|]. constructor; [left; reflexivity|constructor].
Qed.

(** ** names *)
Definition free_b (s : str) : bool := forallb (fun c => negb (c =?= "["%char)) s.
Lemma free_ok s : free_b s = true -> no_bracket s.
Proof. intros H I. unfold free_b in H. rewrite forallb_forall in H. specialize (H _ I). rewrite keq_refl in H. discriminate. Qed.
Lemma chips_free_checked : forallb (fun c => match get_memory_types chip_info (fst c) with Ok types => forallb (fun t => free_b (ct_name t)) types | Err _ => false end) chip_files = true.
Proof. vm_compute. reflexivity. Qed.
Lemma chips_free c types t : get_memory_types chip_info c = Ok types -> In t types -> no_bracket (ct_name t).
Proof.
  intros E It. pose proof (chip_names c types E) as I. pose proof chips_free_checked as H. rewrite forallb_forall in H.
  apply List.in_map_iff in I. destruct I as ((k & v) & Ek & I). cbn [fst] in Ek. subst k. specialize (H _ I). cbn [fst] in H. rewrite E in H. rewrite forallb_forall in H. apply free_ok, H, It.
Qed.
Definition free_types (k : account) : Prop := forall t, In t (ac_types k) -> no_bracket (ct_name t).
Definition free_all (k : account) (r : option account) : Prop := free_types k /\ match r with Some k' => free_types k' | None => True end.

Lemma after_last_free c s b : after_last c s b -> no_bracket s -> no_bracket b.
Proof. intros (_ & [<-|(pre & ->)]) N I; apply N; [exact I|]. apply in_app_iff. right. right. exact I. Qed.
Lemma label_free N l : label [N] l -> no_bracket N -> no_bracket l.
Proof. intros (b & A & ->) F [E|I]; [discriminate|]. exact (after_last_free _ _ _ A F I). Qed.
Lemma cat_free a b c : no_bracket a -> no_bracket b -> c <> "["%char -> no_bracket (a ++ c :: b).
Proof. intros A B C I. apply in_app_iff in I. destruct I as [I|[I|I]]; [now apply A|congruence|now apply B]. Qed.

Section Names.
Variables (k : account) (r : option account) (a : args).
Hypothesis Pl : plain_project k r.
Hypothesis Fr : free_all k r.
Lemma type_free T : present k r (lists_type a T) -> no_bracket T.
Proof.
  destruct Fr as (F1 & F2). intros [((c & I & <-) & _)|H]; [now apply F1|]. destruct r as [k'|]; [|contradiction]. destruct H as ((c & I & <-) & _). now apply F2.
Qed.
Lemma section_free T N : present k r (lists_section T N) -> no_bracket N.
Proof.
  assert (G : forall q, plain_names q -> lists_section T N q -> no_bracket N).
  { intros q P (n & (keep & b & K & B & ->) & Pos). destruct (filter keep (ac_l q)) as [|o l] eqn:E; [cbn in Pos; lia|].
    assert (I : In o (filter keep (ac_l q))) by (rewrite E; now left). apply filter_In in I. destruct I as (I & Ko). apply K in Ko. destruct Ko as (C & <-).
    unfold plain_names in P. rewrite Forall_forall in P. exact (proj1 (P o I C)). }
  destruct Pl as (P1 & P2). intros [H|H]; [now apply (G k)|]. destruct r as [k'|]; [|contradiction]. now apply (G k').
Qed.
Lemma item_free i : present k r (places i) -> no_bracket (it_archive i) /\ no_bracket (it_object i) /\ no_bracket (it_name i).
Proof.
  assert (G : forall q, plain_names q -> places i q -> no_bracket (it_archive i) /\ no_bracket (it_object i) /\ no_bracket (it_name i)).
  { intros q P (o & Io & C & Ii & Z). unfold plain_names in P. rewrite Forall_forall in P. destruct (P o Io C) as (_ & Q). rewrite Forall_forall in Q. exact (Q i Ii Z). }
  destruct Pl as (P1 & P2). intros [H|H]; [now apply (G k)|]. destruct r as [k'|]; [|contradiction]. now apply (G k').
Qed.
Lemma entry_free own e : entry_right k r a own e -> no_bracket (se_abbrev e) -> Forall no_bracket (entry_names e).
Proof.
  intros R A. constructor; [exact A|]. apply Forall_flat_map, Forall_forall. intros (T & st) It. cbn [fst snd]. constructor.
  - apply type_free, (er_types _ _ _ _ _ R), List.in_map_iff. exists (T, st). now split.
  - apply Forall_flat_map, Forall_forall. intros (N & q) Iq. cbn [fst snd].
    assert (FN : no_bracket N). { eapply section_free, (er_sections _ _ _ _ _ R T st N It), List.in_map_iff. exists (N, q). now split. }
    constructor; [exact FN|]. constructor; [|constructor]. eapply label_free; [exact (er_label _ _ _ _ _ R _ _ _ _ It Iq)|exact FN].
Qed.
Lemma rows_free (rows : dict str sentry) : (forall n e, In (n, e) rows -> no_bracket n /\ no_bracket (se_abbrev e) /\ exists own, entry_right k r a own e) ->
  Forall no_bracket (piece_names (PEntries rows)).
Proof.
  intros H. cbn [piece_names]. apply Forall_flat_map, Forall_forall. intros (n & e) I. cbn [fst snd]. destruct (H n e I) as (F1 & F2 & own & R). constructor; [exact F1|]. eapply entry_free; eassumption.
Qed.
Lemma entries_free files rows : entries_right files k r a rows -> Forall no_bracket (piece_names (PEntries rows)).
Proof.
  intros (_ & _ & H). apply rows_free. intros n e I. destruct (H n e I) as (i & P & -> & A & R). destruct (item_free i P) as (F1 & F2 & _). split; [|split].
  - destruct files; cbn [row_key]; [|exact F1]. apply cat_free; [exact F1|exact F2|discriminate].
  - eapply after_last_free; [exact A|]. destruct files; assumption.
  - eauto.
Qed.
Lemma symbols_free x rows : symbols_right x k r a rows -> Forall no_bracket (piece_names (PEntries rows)).
Proof.
  intros (_ & _ & H). apply rows_free. intros n e I. destruct (H n e I) as (i & (P & _) & -> & A & R). destruct (item_free i P) as (F1 & F2 & F3). split; [|split].
  - unfold symbol_key. apply cat_free; [exact F1| |discriminate]. apply cat_free; [exact F2|exact F3|discriminate].
  - now rewrite A.
  - eauto.
Qed.
End Names.

Lemma built_free d dir name text rs l crt im types : built d dir name text rs l crt im types -> forall t, In t types -> no_bracket (ct_name t).
Proof. intros B t I. destruct (bt_types _ _ _ _ _ _ _ _ _ B) as (target & _ & E). eapply chips_free; eassumption. Qed.
Lemma reported_free d c k r : reported d c k r -> free_all k r.
Proof.
  assert (G : forall a fn q, project_at d a fn q -> free_types q). { intros a fn q (dir & name & text & crt & _ & B & _) t I. eapply built_free; eassumption. }
  intros (P & Q & _). split; [eapply G; exact P|]. destruct r as [k'|]; [|exact Logic.I]. destruct Q as (fn & _ & Q). eapply G; exact Q.
Qed.
Lemma symbols_reported_free d c k r : symbols_reported d c k r -> free_all k r.
Proof.
  assert (G : forall a fn q, symbols_project d a fn q -> free_types q). { intros a fn q (dir & name & text & crt & k0 & ys & _ & B & _ & _ & _ & _ & ->) t I. eapply built_free; eassumption. }
  intros (P & Q & _). split; [eapply G; exact P|]. destruct r as [k'|]; [|exact Logic.I]. destruct Q as (fn & _ & Q). eapply G; exact Q.
Qed.

(** ** the reports *)
Lemma entry_output k r a fn own e : entry_right k r (set_output fn a) own e -> entry_right k r a own e.
Proof. intros [H1 H2 H3 H4 H5 H6 H7 H8]. split; assumption. Qed.
Lemma entries_output files k r a fn rows : entries_right files k r (set_output fn a) rows -> entries_right files k r a rows.
Proof.
  intros (H1 & H2 & H3). split; [exact H1|]. split; [exact H2|]. intros n e I. destruct (H3 n e I) as (i & P & E & A & R). exists i. split; [exact P|]. split; [exact E|]. split; [exact A|]. eapply entry_output; exact R.
Qed.
Lemma symbols_output x k r a fn rows : symbols_right x k r (set_output fn a) rows -> symbols_right x k r a rows.
Proof.
  intros (H1 & H2 & H3). split; [exact H1|]. split; [exact H2|]. intros n e I. destruct (H3 n e I) as (i & P & E & A & R). exists i. split; [exact P|]. split; [exact E|]. split; [exact A|]. eapply entry_output; exact R.
Qed.
Lemma entries_file d c k r o files fn fs s normalize render encode ord pf :
  console_shows normalize render -> keeps_ascii encode -> output c fn -> c_quiet c = false ->
  reported d c k r -> asked files (c_args c) -> (given (a_archive_details (c_args c)) = true -> a_use_dwarf (c_args c) <> Some true) ->
  tells_files files k r -> a_format (c_args c) = FJson2 -> plain_project k r ->
  run_files d (get_memory_types chip_info) render encode ord pf c o (start fs) = (Done tt, s) ->
  exists rows, file_says fn s (PEntries rows) /\ entries_right files k r (c_args c) rows /\ entries_sorted (c_args c) rows.
Proof.
  intros Cs Ka Ou Cq Re As Ad Te Fm Pl R. destruct (run_success _ _ _ _ _ _ _ _ _ _ Ou R) as (s1 & R1 & _).
  destruct (entries_json d (to_stdout c) k r no_faults files fs s1 render encode ord pf Re As Ad Te Fm R1) as (rows & P & Er & Es). apply entries_output in Er.
  exists rows. split; [|split; [exact Er|exact Es]]. eapply printed_file; try eassumption.
  - intros s2 R2. rewrite R1 in R2. injection R2 as <-. exact P.
  - discriminate.
  - eapply entries_free; [exact Pl|eapply reported_free; exact Re|exact Er].
Qed.
Lemma symbols_file d c x q r o fn fs s normalize render encode ord pf :
  console_shows normalize render -> keeps_ascii encode -> output c fn -> c_quiet c = false ->
  symbols_reported d c q r -> asked_symbols (c_args c) x -> tells_symbols q r -> a_format (c_args c) = FJson2 -> plain_project q r ->
  run_files d (get_memory_types chip_info) render encode ord pf c o (start fs) = (Done tt, s) ->
  exists rows, file_says fn s (PEntries rows) /\ (exists i, symbol_of x q r i) /\ symbols_right x q r (c_args c) rows /\ entries_sorted (c_args c) rows.
Proof.
  intros Cs Ka Ou Cq Re As Te Fm Pl R. destruct (run_success _ _ _ _ _ _ _ _ _ _ Ou R) as (s1 & R1 & _).
  destruct (symbols_json d (to_stdout c) x q r no_faults fs s1 render encode ord pf Re As Te Fm R1) as (rows & P & Ex & Er & Es). apply symbols_output in Er.
  exists rows. split; [|split; [exact Ex|split; [exact Er|exact Es]]]. eapply printed_file; try eassumption.
  - intros s2 R2. rewrite R1 in R2. injection R2 as <-. exact P.
  - discriminate.
  - eapply symbols_free; [exact Pl|eapply symbols_reported_free; exact Re|exact Er].
Qed.

Lemma shown_free a n s : shown_section a n s -> no_bracket n -> no_bracket s.
Proof. unfold shown_section. destruct (a_no_abbrev a && negb (a_unify a)); [now intros ->|]. intros H. apply (label_free n s). exact H. Qed.
Lemma summary_file d dir name text rs l crt im types c o fn fs s normalize render encode ord pf :
  console_shows normalize render -> keeps_ascii encode -> output c fn -> c_quiet c = false ->
  built d dir name text rs l crt im types -> c_input c = in_dir dir name -> alone (c_args c) -> of_types (c_args c) -> a_format (c_args c) = FJson2 -> no_lto d dir (c_args c) ->
  (a_show_unused (c_args c) = true \/ filled im types l) -> distinct_shown (c_args c) im l -> plain_names (Account rs l im types) ->
  run_files d (get_memory_types chip_info) render encode ord pf c o (start fs) = (Done tt, s) ->
  exists js groups, file_says fn s (PJson js) /\ Forall2 (region_parts types) (filter listed_region rs) groups /\
    NoDup (map j_name (js_layout js)) /\ (forall T, In T (map j_name (js_layout js)) <-> listed_type im types l (c_args c) T) /\
    Forall (type_report im types l (concat groups) (c_args c)) (js_layout js) /\ image_bytes im l (js_total_size js).
Proof.
  intros Cs Ka Ou Cq B In1 Al Ty Fm Lt Fi Di Pl R. destruct (run_success _ _ _ _ _ _ _ _ _ _ Ou R) as (s1 & R1 & _).
  destruct (json_report _ _ _ _ _ _ _ _ _ B (to_stdout c) no_faults fs s1 render encode ord pf In1 Al Ty Fm Lt Fi R1) as (js & groups & P & G & N & L & T & Im).
  exists js, groups. assert (T' : Forall (type_report im types l (concat groups) (c_args c)) (js_layout js)). { eapply Forall_impl; [|exact T]. intros j [H1 H2 H3 H4]. split; assumption. }
  split; [|split; [exact G|split; [exact N|split; [exact L|split; [exact T'|exact Im]]]]]. eapply printed_file; try eassumption.
  - intros s2 R2. rewrite R1 in R2. injection R2 as <-. exact P.
  - discriminate.
  - cbn [piece_names]. apply Forall_flat_map, Forall_forall. intros j Ij. constructor.
    + assert (I : In (j_name j) (map j_name (js_layout js))) by now apply List.in_map. apply L in I. destruct I as ((t & It & <-) & _). eapply built_free; eassumption.
    + apply Forall_forall. intros n I. apply List.in_map_iff in I. destruct I as ((n0 & z) & <- & I). cbn [fst]. rewrite Forall_forall in T'.
      destruct (tr_parts _ _ _ _ _ _ (T' j Ij) Di) as (_ & H). apply H in I. destruct I as (ob & Io & C & S & _). eapply shown_free; [exact S|].
      unfold plain_names in Pl. rewrite Forall_forall in Pl. exact (proj1 (Pl ob Io C)).
Qed.
