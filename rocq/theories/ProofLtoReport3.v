From Coq Require Import Ascii String List ZArith Lia Bool Permutation Sorted.
From Verif Require Import Base MemMap SpecTree SpecOps Filter SpecFilter ProofFilter Pipeline SpecPipe SpecBuild SpecBytes SpecShape ProofOps ProofTrim ProofDiff ProofDiff2 ProofSummary ProofSummary2 ProofSummary3 ProofBytes ProofGet ProofBytes3 PyStr MapFile SpecMap
  ElfRead SpecElf Dwarf SpecDwarf SpecDebug Project SpecProject ProofProject2 SpecPath SpecEnd ProofEnd Chips SpecChips ProofChips ProofShape Deps Table SpecTable ProofTable ProofTable3 Formats ProofFormats Main SpecMain ProofMain ProofMain4 ProofMain5 Command SpecCommand SpecFail SpecReport
  SpecOwner SpecLto SpecLto2 ProofLto1 ProofLto2 ProofLto4 ProofCommand1 ProofCommand2 ProofCommand3 ProofCommand4 ProofCommand5 ProofCommand6 ProofReport1 ProofReport2 ProofReport3 ProofReport4 ProofReport5 ProofReport6 SpecLtoReport ProofLtoReport1 ProofLtoReport2.
Import ListNotations.
Open Scope list_scope.
Open Scope Z_scope.

Lemma item_apart_same own s1 s2 i js : (forall y, In y s1 <-> In y s2) -> item_apart own s1 i js -> item_apart own s2 i js.
Proof.
  intros E. unfold item_apart. destruct (it_archive i =?= "(exe)"); [|auto]. intros (A & F). split; [exact A|]. eapply Forall_impl; [|exact F].
  intros j [(y & Iy & H)|(H1 & H2 & H3)]; [left; exists y; split; [now apply E|exact H]|right]. split; [exact H1|]. split; [exact H2|]. intros y Iy. apply H3. now apply E.
Qed.
Lemma section_apart_same own s1 s2 o o' : (forall y, In y s1 <-> In y s2) -> section_apart own s1 o o' -> section_apart own s2 o o'.
Proof.
  intros E (A & B & C & jss & F & D). split; [exact A|]. split; [exact B|]. split; [exact C|]. exists jss. split; [|exact D]. clear D.
  induction F; constructor; [|assumption]. eapply item_apart_same; eassumption.
Qed.
Lemma filled_apart own syms im types (g : printed -> printed) l :
  (forall o, In o l -> counted im o -> section_apart own syms o (g o)) -> (forall o, counted im (g o) <-> counted im o) -> filled im types l -> filled im types (map g l).
Proof.
  intros Ap Cg F. unfold filled in *. apply Forall_map. rewrite Forall_forall in *. intros o Io C T a By Go. apply (proj1 (Cg o)) in C. pose proof (Ap o Io C) as A. pose proof A as (E1 & E2 & E3 & _).
  rewrite E1 in *. destruct (F o Io C T a) as (i & a' & Ii & Ha & Ga).
  - unfold byte_of in *. cbn [printed_section o_addr o_size] in *. now rewrite E2, E3 in By.
  - exact Go.
  - destruct (apart_from _ _ _ _ _ A Ii) as (js & H & Sub). destruct (pieces_cover _ _ _ _ a' H Ha) as (j & Ij & Hj). exists j, a'. split; [now apply Sub|]. now split.
Qed.

Lemma source_ledger d a a' fn s ls m : source_at d a fn s -> a_show_unused a' = a_show_unused a ->
  get_files d (get_memory_types chip_info) fn ls (a_use_dwarf a) = Ok m ->
  exists q lu ln lo, apart s q /\ ledger a' q (prepare a' m) lu ln lo.
Proof.
  intros (dir & name & text & crt & -> & Bt & Fi & U) Ea G. destruct s as [k [[comps syms]|]]; cbn [so_account so_units] in *.
  - destruct U as (Wd & So & (file & hs & Ei & De & Db) & Fo). rewrite <- Ea in Fi.
    pose proof (built_target _ _ _ _ _ _ _ _ _ Bt _ _ _ G) as Ty. pose proof (names_distinct _ _ _ _ _ _ _ _ _ Bt) as Nd. destruct Bt as [D P T Pm R I0 _ Se _].
    destruct (debug_world _ _ _ _ _ _ _ _ _ _ _ D P G De Db Wd) as (w & e & mf & pd & Gw & Wm & Wt & We & Ma & Wp & Cp & Va & Nu & Sm).
    destruct (load_printed _ _ _ _ _ _ T Pm R) as (target & Lp). rewrite Lp in Wm. destruct (printed_nonneg _ _ _ _ Pm) as (Rn & Ln).
    assert (Pe : Permutation (map usym_of (elf_cusyms e)) syms) by (apply NoDup_Permutation; [now apply nodup_addr|apply nodup_addr, (so_once _ _ So)|exact Sm]).
    pose proof (symbols_same _ _ Pe comps So) as So'.
    destruct (get_expanded _ _ _ _ _ _ _ _ _ _ Gw Wm We Wp ltac:(now left)) as (mf2 & G2). cbn [mf_target mf_regions mf_sections] in G2. unfold expand_input_sections in G2. rewrite Cp, map_map in G2.
    rewrite Ei in *. set (L := archive_symbols (elf_cusyms e) comps) in *.
    assert (Fo' : forall o, In o (ac_l k) -> counted (Some hs) o -> Forall (fun i => 0 <= it_size i /\ (it_archive i = "(exe)" -> followed comps (map usym_of (elf_cusyms e)) (item_section i))) (pr_items o)).
    { intros o Io C. rewrite Forall_forall in Fo, Ln. specialize (Fo o Io C). destruct (Ln o Io) as (_ & Li). rewrite Forall_forall in *. intros i Ii. split; [apply (Li i Ii)|].
      intros E. apply (followed_same _ _ Pe). now apply Fo. }
    destruct (world_ledger w ls m mf2 target (ac_rs k) (ac_l k) L (Some e) (Some hs) (ac_types k) a' G2 We Ma) as (keep & K & Le).
    + now rewrite Wt.
    + exact (proj1 (chips_ok _ _ Ty)).
    + exact Rn.
    + eapply Forall_impl; [|exact Ln]. intros o (A & B). split; [exact A|]. eapply Forall_impl; [|exact B]. intros i Hi. apply Hi.
    + apply Forall_forall. intros o Io C. rewrite Forall_forall in Se, Ln. destruct (Se o Io C) as (F1 & F2 & F3). split; [exact F1|]. split; [exact F2|].
      destruct (Ln o Io) as (Lo & Li). apply (expanded_in (elf_cusyms e) comps So' Va).
      * unfold isecs_in, printed_section. cbn [o_isecs o_addr o_size]. apply Forall_map. unfold items_in in F3. rewrite Forall_forall in *. intros i Ii. specialize (Li i Ii). specialize (F3 i Ii). cbn. tauto.
      * unfold printed_section. cbn [o_isecs]. apply Forall_map. specialize (Fo' o Io C). rewrite Forall_forall in *. intros i Ii. destruct (Fo' i Ii) as (_ & F). split; [|split].
        -- apply (Li i Ii).
        -- apply (Li i Ii).
        -- intros O. apply F. exact O.
    + exact Nd.
    + assert (Ap : forall o, In o (ac_l k) -> counted (Some hs) o -> section_apart (owner comps) syms o (taken L keep o)).
      { intros o Io C. apply (section_apart_same _ (map usym_of (elf_cusyms e))); [exact Sm|]. unfold taken. rewrite (proj2 (K o) C). apply (osec_apart (elf_cusyms e) comps So' Va). now apply Fo'. }
      destruct Le as (lu & ln & lo & Le).
      { destruct Fi as [Fi|Fi]; [now left|right]. apply (filled_apart (owner comps) syms); [exact Ap|intros o; apply counted_taken|exact Fi]. }
      exists (Account (ac_rs k) (map (taken L keep) (ac_l k)) (Some hs) (ac_types k)), lu, ln, lo. split; [|exact Le].
      unfold apart. cbn [so_account so_units ac_rs ac_im ac_types ac_l]. split; [reflexivity|]. split; [now rewrite Ei|]. split; [reflexivity|].
      exists (owner comps). split; [exact (owners_same _ _ Pe _ _ (owners_ok _ _ So'))|]. rewrite Ei. split.
      * assert (H : forall l0, (forall o, In o l0 -> In o (ac_l k)) -> Forall2 (fun o o' => counted (Some hs) o -> section_apart (owner comps) syms o o') l0 (map (taken L keep) l0)).
        { induction l0 as [|o r IH]; intros Sub; cbn [map]; constructor; [apply Ap, Sub; now left|]. apply IH. intros x Ix. apply Sub. now right. }
        apply H. auto.
      * clear. induction (ac_l k) as [|o r IH]; cbn [map]; constructor; [|exact IH]. now rewrite taken_name, taken_addr, taken_size.
  - rewrite <- Ea in Fi. destruct (built_ledger _ _ _ _ _ _ _ _ _ a' _ _ _ Bt G U Fi) as (lu & ln & lo & L). exists k, lu, ln, lo. split; [reflexivity|]. now destruct k.
Qed.

(** ** the map that is shown *)
Lemma asked_dwarf files a : asked files a -> dwarf_option a = a_use_dwarf a.
Proof.
  unfold dwarf_option. destruct (a_use_dwarf a) as [[|]|]; try reflexivity. intros A. f_equal. destruct files; cbn in A.
  - destruct A as (_ & _ & ->). now rewrite orb_true_r.
  - rewrite A. now rewrite orb_true_r.
Qed.
Lemma shown_source d c s r o fs st render encode ord pf :
  sourced d c s r -> dwarf_option (c_args c) = a_use_dwarf (c_args c) ->
  run_files d (get_memory_types chip_info) render encode ord pf c o (start fs) = (Done tt, st) ->
  exists q q' M x s1 s2 fu fn fo, apart_both s r q q' /\ final (c_args c) q q' M fu fn fo /\ x_order x = ord /\ x_pct x = pf /\ s_printed s1 = [] /\
    show x M (final_args (c_args c)) o s1 = (Done tt, s2) /\ s_printed st = s_printed s2 /\ s_notes st = s_notes s2.
Proof.
  intros (Pk & Rr & Au & Ad) As R. apply command_any in R; [|exact Au|exact Ad]. destruct R as (m & x & M & s1 & s2 & G & X1 & X2 & D & P1 & Sh & P2 & N2).
  rewrite As in *. destruct (source_ledger _ _ (c_args c) _ _ _ _ Pk eq_refl G) as (q & lu & ln & lo & Ap & L).
  destruct D as [(D & ->)|(fn & r0 & D & Nf & G2 & ->)].
  - assert (r = None) as ->. { destruct r as [k'|]; [|reflexivity]. destruct Rr as (fn & E & dir' & name' & text' & crt' & En & Bt' & _). exfalso. rewrite E in D.
      destruct fn; [|discriminate D]. pose proof (bt_name _ _ _ _ _ _ _ _ _ Bt') as Pn. apply (f_equal (@length ascii)) in En. unfold in_dir in En. rewrite app_length in En. destruct Pn as (Pn & _). destruct name'; [contradiction|]. cbn in En. lia. }
    exists q, None, (prepare (c_args c) m), x, s1, s2. do 3 eexists. split; [split; [exact Ap|exact Logic.I]|]. split; [apply final_alone; exact L|]. now repeat split.
  - destruct r as [k'|]; [|cbn in Rr; rewrite D in Rr; destruct fn; [contradiction|discriminate]].
    destruct Rr as (fn' & E & Pk'). rewrite D in E. injection E as <-.
    destruct (source_ledger _ _ (with_flash (c_args c)) _ _ _ _ Pk' eq_refl G2) as (q' & lu' & ln' & lo' & Ap' & L').
    exists q, (Some q'), (diff (prepare (c_args c) m) (prepare (with_flash (c_args c)) r0)), x, s1, s2. do 3 eexists. split; [split; [exact Ap|exact Ap']|].
    split; [eapply final_diff_ok; eassumption|]. now repeat split.
Qed.

(** ** names *)
Lemma after_last_in c s x y : after_last c s x -> In y x -> In y s.
Proof. intros (_ & [->|(p & ->)]) I; [exact I|]. apply in_or_app. right. now right. Qed.
Lemma apart_names s q : tells_source s -> apart s q -> forall j, places j q -> ~ In ":"%char (it_object j).
Proof.
  intros (H1 & H2) Ap j (o' & Io & Co & Ij & Nz). destruct s as [k [[comps syms]|]]; unfold apart in Ap; cbn [so_account so_units] in *; [|subst q; apply H1; exists o'; tauto].
  destruct Ap as (_ & Ei & _ & own & Ow & F & F0). rewrite Ei in Co.
  assert (X : exists o, In o (ac_l k) /\ counted (ac_im k) o /\ section_apart own syms o o').
  { clear -F F0 Io Co. revert F0. induction F as [|o p l l' H F IH]; intros F0; [destruct Io|]. inversion F0 as [|? ? ? ? (A & B & C) F1]; subst. destruct Io as [->|Io].
    - exists o. split; [now left|]. assert (Co' : counted (ac_im k) o) by (unfold counted in *; now rewrite A, C in Co). split; [exact Co'|now apply H].
    - destruct (IH Io F1) as (o1 & A1 & B1). exists o1. split; [now right|exact B1]. }
  destruct X as (o & Io' & Co' & S0). destruct (apart_item _ _ _ _ _ S0 Ij) as (i & js & Ii & Ia & Ijs). unfold item_apart in Ia.
  assert (Pi : it_size i <> 0 -> it_object j = it_object i -> ~ In ":"%char (it_object j)).
  { intros N E. rewrite E. apply H1. exists o. tauto. }
  destruct (keqP (it_archive i) "(exe)") as [Ee|Ee].
  - destruct Ia as (On & Fa). rewrite Forall_forall in Fa. destruct (Fa j Ijs) as [(y & Iy & _ & Oy & _)|(_ & Eo & _)].
    + intros C. specialize (Ow y Iy). rewrite Oy in Ow. destruct Ow as (c & _ & _ & Al). apply (H2 comps syms y eq_refl Iy). eapply after_last_in; eassumption.
    + apply Pi; [|exact Eo]. apply one_bound in On. destruct On as (_ & On). rewrite Forall_forall in On. specialize (On j Ijs). lia.
  - destruct Ia as (j' & -> & _ & Es & _ & Eo). destruct Ijs as [<-|[]]. apply Pi; [congruence|exact Eo].
Qed.
Lemma apart_tells files s r q q' : tells_sources files s r -> apart_both s r q q' -> tells_files files q q'.
Proof.
  intros T (A & A') E i. destruct (T E) as (T1 & T2). intros [P|P]; [exact (apart_names _ _ T1 A i P)|]. destruct q' as [k'|]; [|destruct P]. destruct r as [s'|]; [|destruct A'].
  exact (apart_names _ _ T2 A' i P).
Qed.

(** ** the reports *)
Lemma source_json d c s r o files fs st render encode ord pf :
  sourced d c s r -> asked files (c_args c) -> tells_sources files s r -> a_format (c_args c) = FJson2 ->
  run_files d (get_memory_types chip_info) render encode ord pf c o (start fs) = (Done tt, st) ->
  exists q q' rows, apart_both s r q q' /\ s_printed st = [PEntries rows] /\ entries_right files q q' (c_args c) rows /\ entries_sorted (c_args c) rows.
Proof.
  intros Rp As Tf Fo R. pose proof Rp as (_ & _ & Au & Ad).
  destruct (shown_source _ _ _ _ _ _ _ _ _ _ _ Rp (asked_dwarf _ _ As) R) as (q & q' & M & x & s1 & s2 & fu & fn & fo & Ap & F & _ & _ & P1 & Sh & P2 & _).
  destruct (entries_shown _ _ _ _ _ _ _ F Au Ad files (apart_tells _ _ _ _ _ Tf Ap)) as (E1 & E2). exists q, q'. eexists. split; [exact Ap|]. split; [|split; [exact E1|exact E2]].
  unfold show in Sh. change (a_format (final_args (c_args c))) with (a_format (c_args c)) in Sh. rewrite Fo in Sh. unfold json_show in Sh.
  change (a_archives (final_args (c_args c))) with (a_archives (c_args c)) in Sh. change (a_archive_details (final_args (c_args c))) with (a_archive_details (c_args c)) in Sh.
  change (a_archive_dependencies (final_args (c_args c))) with (a_archive_dependencies (c_args c)) in Sh. change (a_files (final_args (c_args c))) with (a_files (c_args c)) in Sh.
  destruct files; cbn [asked] in As.
  - destruct As as (A1 & A2 & A3). rewrite A1, A2, Ad, A3 in Sh. apply print_done in Sh. rewrite P2, Sh, P1. reflexivity.
  - rewrite As in Sh. apply print_done in Sh. rewrite P2, Sh, P1. reflexivity.
Qed.
Lemma source_table d c s r o files ps fs st render encode ord pf :
  sourced d c s r -> asked files (c_args c) -> tells_sources files s r -> asked_filter (c_args c) ps ->
  a_format (c_args c) = FTable \/ a_format (c_args c) = FText \/ a_format (c_args c) = FCsv ->
  run_files d (get_memory_types chip_info) render encode ord pf c o (start fs) = (Done tt, st) ->
  exists q q' tb is, apart_both s r q q' /\ prints (c_args c) st tb /\ table_items files q q' (c_args c) ps is /\
    let first := list_ascii_of_string (if files then "Object File" else "Archive File") in
    (is = [] -> tb_headers tb = [first; list_ascii_of_string "Total Size"] /\ tb_rows tb = []) /\
    (is <> [] -> exists groups titles i col, columns_right q q' (c_args c) groups /\ tb_headers tb = first :: titles /\ Forall2 (column_title (c_args c)) (columns groups) titles /\
       Forall2 (table_row files q q' (c_args c) (columns groups)) is (tb_rows tb) /\
       names_column (tb_headers tb) (a_sort (c_args c)) (S i) /\ nth_error (columns groups) i = Some col /\
       StronglySorted (fun x y => forall v w, measured q q' (own_bytes (row_own files x) col) v -> measured q q' (own_bytes (row_own files y) col) w ->
         in_order (a_sort_reverse (c_args c)) (pick (a_sort_diff (c_args c)) v) (pick (a_sort_diff (c_args c)) w)) is).
Proof.
  intros Rp As Tf Fl Fo R. pose proof Rp as (_ & _ & Au & Ad).
  destruct (shown_source _ _ _ _ _ _ _ _ _ _ _ Rp (asked_dwarf _ _ As) R) as (q & q' & M & x & s1 & s2 & fu & fn & fo & Ap & F & _ & _ & P1 & Sh & P2 & N2).
  destruct (prints_done x M (c_args c) o s1 s2 st Sh P1 P2 N2 Fo) as (tb & t & t' & E & Pr & _).
  assert (Ir : is_report M (final_args (c_args c)) (if files then list_ascii_of_string "Object File" else list_ascii_of_string "Archive File")
    (get_summary_filtered (if files then get_object_files_summary M (final_args (c_args c)) else get_archives_summary M (final_args (c_args c))) (final_args (c_args c))) (TOk tb)).
  { unfold table_of in E. change (a_archives (final_args (c_args c))) with (a_archives (c_args c)) in E. change (a_archive_details (final_args (c_args c))) with (a_archive_details (c_args c)) in E.
    change (a_archive_dependencies (final_args (c_args c))) with (a_archive_dependencies (c_args c)) in E. change (a_files (final_args (c_args c))) with (a_files (c_args c)) in E.
    destruct files; cbn [asked] in As.
    - destruct As as (A1 & A2 & A3). rewrite A1, A2, Ad, A3 in E. apply table_done in E. destruct E as (E & _). right. left. split; [reflexivity|]. split; [reflexivity|]. now symmetry.
    - rewrite As in E. apply table_done in E. destruct E as (E & _). left. split; [reflexivity|]. split; [reflexivity|]. now symmetry. }
  destruct (table_shown _ _ _ _ _ _ _ F Au Ad files (apart_tells _ _ _ _ _ Tf Ap) ps tb Fl Ir) as (is & Ti & T1 & T2).
  exists q, q', tb, is. split; [exact Ap|]. split; [exact Pr|]. split; [exact Ti|]. destruct files; cbv zeta; (split; [exact T1|exact T2]).
Qed.
