From Coq Require Import Ascii String List ZArith Lia Bool Permutation Sorted.
From Verif Require Import Base MemMap SpecTree SpecOps Filter SpecFilter ProofFilter Pipeline SpecPipe SpecBuild SpecBytes SpecShape ProofOps ProofTrim ProofDiff ProofDiff2 ProofSummary ProofSummary2 ProofSummary3 Fixtures ProofBuild ProofBytes PyStr MapFile SpecMap
  ElfRead SpecElf Project SpecProject SpecEnd ProofEnd Chips SpecChips ProofChips ProofShape Deps Table SpecTable ProofTable ProofTable3 Formats ProofFormats Main SpecMain ProofMain ProofMain4 ProofMain5 Command SpecCommand SpecFail SpecReport
  ProofCommand1 ProofCommand2 ProofCommand3 ProofCommand4 ProofCommand5 ProofCommand6 ProofReport1 ProofReport2 ProofReport3 ProofReport4 ProofReport5 ProofReport6 SpecSyms SpecSymbols ProofSymbols1 ProofSymbols2 ProofSymbols3 SpecWhole ProofWhole1 ProofWhole2.
Import ListNotations.
Open Scope list_scope.
Open Scope Z_scope.

(** ** what is listed for a section in one memory type has bytes *)
Lemma whole_bytes d a fn k own T N i n : project_at d a fn k -> all_in T N k -> in_section N i k -> own i = true -> own_bytes own (ColSect T N) k n -> 0 < n.
Proof.
  intros (dir & name & text & crt & _ & Bt & _) A (o & Io & Co & En & Ii & Nz) Ow (keep & b & K & Bb & ->).
  pose proof (bt_sections _ _ _ _ _ _ _ _ _ Bt) as Se. rewrite Forall_forall in Se. destruct (Se o Io Co) as (_ & _ & In0).
  unfold items_in in In0. rewrite Forall_forall in In0. specialize (In0 i Ii).
  destruct (printed_nonneg _ _ _ _ (bt_map _ _ _ _ _ _ _ _ _ Bt)) as (_ & Sz). rewrite Forall_forall in Sz. destruct (Sz o Io) as (_ & Sz'). rewrite Forall_forall in Sz'. specialize (Sz' i Ii).
  assert (P : 0 < it_size i) by lia.
  apply (zsumf_pos _ _ o).
  - intros o' _. apply zsumf_nonneg. intros; apply bytes_nonneg.
  - apply filter_In. split; [exact Io|]. apply K. now split.
  - apply (zsumf_pos _ _ i); [intros; apply bytes_nonneg|apply filter_In; now split|]. apply bytes_pos. exists (it_addr i). split; [lia|]. apply Bb. apply (A o Io Co En). lia.
Qed.
Lemma whole_present d c k r own T N i v : reported d c k r -> both k r (all_in T N) -> present k r (in_section N i) -> own i = true ->
  measured k r (own_bytes own (ColSect T N)) v -> present k r (has_bytes own T N).
Proof.
  intros (Pk & Rr & _) (A & A') P Ow (M1 & M2). destruct P as [P|P].
  - left. exists (fst v). split; [exact M1|]. eapply whole_bytes; eassumption.
  - destruct r as [k'|]; [|destruct P]. right. destruct M2 as (n' & M2 & _). destruct Rr as (fn & _ & Pr). exists n'. split; [exact M2|]. eapply whole_bytes; eassumption.
Qed.
Lemma of_archive_own i x : it_archive i = x -> of_archive x i = true.
Proof. intros <-. unfold of_archive. apply keq_refl. Qed.
Lemma of_object_own i x o : it_archive i = x -> it_object i = o -> of_object x o i = true.
Proof. intros <- <-. unfold of_object. now rewrite !keq_refl. Qed.

Lemma raw_filled d c k r o files s render encode ord pf M T N :
  reported d c k r -> a_use_dwarf (c_args c) <> Some true -> a_format (c_args c) = FRaw ->
  run_files d (get_memory_types chip_info) render encode ord pf c o (start files) = (Done tt, s) -> s_printed s = [PRaw M] -> both k r (all_in T N) ->
  (forall x, look M T [N; x] <> None <-> present k r (has_bytes (of_archive x) T N)) /\
  (forall x ob, look M T [N; x; ob] <> None <-> present k r (has_bytes (of_object x ob) T N)).
Proof.
  intros Rp Nd Fm R Pm A. destruct (raw_report _ _ _ _ _ _ _ _ _ _ _ Rp Nd Fm R) as (M' & Pm' & Rw & _). rewrite Pm in Pm'. injection Pm' as <-. split.
  - intros x. split; [|apply (rw_archives _ _ _ _ Rw)]. intros L. destruct (look M T [N; x]) as [e|] eqn:E; [|congruence].
    destruct (rw_archive _ _ _ _ Rw _ _ _ _ E) as (Me & i & P & Ex). eapply whole_present; try eassumption. now apply of_archive_own.
  - intros x ob. split; [|apply (rw_objects _ _ _ _ Rw)]. intros L. destruct (look M T [N; x; ob]) as [e|] eqn:E; [|congruence].
    destruct (rw_object _ _ _ _ Rw _ _ _ _ _ E) as (Me & i & P & Ex & Eo). eapply whole_present; try eassumption. now apply of_object_own.
Qed.
Lemma tree_filled d c k r o files s render encode ord pf :
  reported d c k r -> a_format (c_args c) = FTree -> given (a_archive_details (c_args c)) = false ->
  run_files d (get_memory_types chip_info) render encode ord pf c o (start files) = (Done tt, s) ->
  exists types lines, s_printed s = [PTree ((0%nat, list_ascii_of_string "Memory Types") :: concat lines)] /\
    Forall2 (type_lines (c_args c)) types lines /\
    forall t n x, In t types -> In n (tt_sections t) -> In x (ts_archives n) -> both k r (all_in (tt_name t) (ts_name n)) ->
      present k r (has_bytes (of_archive (ta_name x)) (tt_name t) (ts_name n)) /\
      forall ob, In ob (ta_objects x) -> present k r (has_bytes (of_object (ta_name x) (to_name ob)) (tt_name t) (ts_name n)).
Proof.
  intros Rp Fm Dt R. destruct (tree_report _ _ _ _ _ _ _ _ _ _ _ Rp Fm Dt R) as (types & lines & P & L & (_ & _ & Tr)). exists types, lines. split; [exact P|]. split; [exact L|].
  intros t n x It In_ Ix A. rewrite Forall_forall in Tr. pose proof (tt_archives_are _ _ _ _ (Tr t It)) as Ar. rewrite Forall_forall in Ar. destruct (Ar n In_) as ((_ & Me & _) & Ob).
  rewrite Forall_forall in Me, Ob. destruct (Me x Ix) as (Mv & i & Pi & Ei). split.
  - eapply whole_present; try eassumption. now apply of_archive_own.
  - intros ob Io. specialize (Ob x Ix). unfold objects_right in Ob. destruct (a_archives (c_args c)); [rewrite Ob in Io; destruct Io|]. destruct Ob as (_ & Mo & _). rewrite Forall_forall in Mo.
    destruct (Mo ob Io) as (Mv' & j & Pj & Ej & Eo). eapply whole_present; try eassumption. now apply of_object_own.
Qed.
