From Coq Require Import Ascii String List ZArith Lia Bool Permutation Sorted.
From Verif Require Import Base MemMap SpecTree SpecOps Filter SpecFilter ProofFilter Pipeline SpecPipe SpecBuild SpecBytes SpecShape ProofOps ProofTrim ProofDiff ProofDiff2 ProofSummary ProofSummary2 ProofSummary3 Fixtures PyStr MapFile SpecMap
  ElfRead SpecElf Project SpecProject SpecEnd Chips SpecChips ProofChips ProofShape Deps Table SpecTable ProofTable ProofTable3 Formats ProofFormats Main SpecMain ProofMain ProofMain4 ProofMain5 Command SpecCommand SpecFail SpecReport
  ProofCommand1 ProofCommand2 ProofCommand3 ProofCommand4 ProofCommand5 ProofCommand6 ProofReport1 ProofReport2 ProofReport3 ProofReport4 ProofReport5 ProofReport6 SpecSyms SpecSymbols ProofSymbols1 ProofSymbols2.
Import ListNotations.
Open Scope list_scope.
Open Scope Z_scope.

(** ** what the map that is shown has, symbol by symbol *)
Record sfinal (a : args) (q : account) (r : option account) (M : memmap) (fo : (item -> bool) -> str -> str -> Z * Z) : Prop := {
  sf_wf : wf_map M;
  sf_listed : forall T, dget T (m_types M) <> None <-> present q r (lists_type a T);
  sf_section : forall T N, look M T [N] <> None <-> present q r (lists_section T N);
  sf_symbol : forall T N i, let e := look M T [N; it_archive i; it_object i; it_name i] in (esize e, ediff e) = fo (of_symbol i) T N;
  sf_sect_is : forall own T N v, measured q r (own_bytes own (ColSect T N)) v <-> v = fo own T N;
  sf_type_is : forall own T Ns, NoDup Ns -> (forall N, present q r (lists_section T N) -> In N Ns) -> forall v, measured q r (own_bytes own (ColType T)) v <-> v = psum (fo own T) Ns;
  sf_all_is : forall own Ts (Ns : str -> list str), NoDup Ts -> (forall T, present q r (lists_type a T) -> In T Ts) ->
    (forall T, In T Ts -> NoDup (Ns T) /\ forall N, present q r (lists_section T N) -> In N (Ns T)) ->
    forall v, measured q r (own_bytes own ColTotal) v <-> v = psum (fun T => psum (fo own T) (Ns T)) Ts;
  sf_places : forall x ob y, (exists T N, look M T [N; x; ob; y] <> None) <-> exists i, present q r (places i) /\ it_archive i = x /\ it_object i = ob /\ it_name i = y;
  sf_label : forall T p e, look M T p = Some e -> label p (e_abbrev e) }.

Lemma slists_section_iff a q mm ln ls T N : sledger a q mm ln ls -> (lists_section T N q <-> 0 < ln T N).
Proof.
  intros L. unfold lists_section. split.
  - intros (n & H & P). apply (sl_name_is _ _ _ _ _ L) in H. now subst.
  - intros P. exists (ln T N). split; [now apply (sl_name_is _ _ _ _ _ L)|exact P].
Qed.

Lemma sfinal_alone a q mm ln ls : sledger a q mm ln ls -> sfinal a q None mm (fun own T N => (ls own T N, 0)).
Proof.
  intros L. assert (Ls : forall T N, lists_section T N q <-> 0 < ln T N) by (intros; eapply slists_section_iff; exact L).
  assert (Mv : forall (f : account -> Z -> Prop) z, (forall n, f q n <-> n = z) -> forall v, measured q None f v <-> v = (z, 0)).
  { intros f z H [n dv]. unfold measured. cbn [fst snd]. rewrite H. split; [intros (-> & ->); reflexivity|intros E; now injection E as -> ->]. }
  assert (Dz : forall T p, ediff (look mm T p) = 0). { intros T p. destruct (look mm T p) eqn:E; [|reflexivity]. apply (sl_same _ _ _ _ _ L) in E. exact E. }
  split.
  - apply L.
  - intros T. rewrite (sl_listed _ _ _ _ _ L). unfold present. tauto.
  - intros T N. rewrite (sl_section _ _ _ _ _ L). unfold present. rewrite Ls. tauto.
  - intros T N i. cbv zeta. rewrite Dz. f_equal. apply (sl_symbol _ _ _ _ _ L).
  - intros own T N. apply Mv. apply (sl_sect_is _ _ _ _ _ L).
  - intros own T Ns D C v. unfold psum. cbn [fst snd]. rewrite (zsumf_zero (fun _ => 0)) by reflexivity. apply Mv.
    apply (sl_type_is _ _ _ _ _ L); [exact D|]. intros N P. apply C. left. now apply Ls.
  - intros own Ts Ns D C H v. unfold psum. cbn [fst snd]. rewrite (zsumf_zero (fun x => zsumf (fun _ => 0) (Ns x))).
    + apply Mv. apply (sl_all_is _ _ _ _ _ L); [exact D|intros T P; apply C; now left|].
      intros T IT. destruct (H T IT) as (H1 & H2). split; [exact H1|]. intros N P. apply H2. left. now apply Ls.
    + intros T _. now apply zsumf_zero.
  - intros x ob y. rewrite (sl_places _ _ _ _ _ L). unfold present. split; intros (i & H); exists i; tauto.
  - apply (sl_label _ _ _ _ _ L).
Qed.

Lemma sfinal_diff a q q' mm mm' ln ls ln' ls' : sledger a q mm ln ls -> sledger (with_flash a) q' mm' ln' ls' ->
  sfinal a q (Some q') (diff mm mm') (fun own T N => (ls own T N, ls own T N - ls' own T N)).
Proof.
  intros L R. assert (Ls : forall T N, lists_section T N q <-> 0 < ln T N) by (intros; eapply slists_section_iff; exact L).
  assert (Rs : forall T N, lists_section T N q' <-> 0 < ln' T N) by (intros; eapply slists_section_iff; exact R).
  assert (Rl : forall T, lists_type (with_flash a) T q' <-> lists_type a T q') by (intros T; reflexivity).
  pose proof (sl_wf _ _ _ _ _ L) as W. pose proof (sl_wf _ _ _ _ _ R) as W'.
  assert (Mv : forall (f : account -> Z -> Prop) z z', (forall n, f q n <-> n = z) -> (forall n, f q' n <-> n = z') -> forall v, measured q (Some q') f v <-> v = (z, z - z')).
  { intros f z z' H H' [n dv]. unfold measured. cbn [fst snd]. split.
    - intros (E & n' & E' & ->). apply H in E. apply H' in E'. now subst.
    - intros E. injection E as -> ->. split; [now apply H|]. exists z'. split; [now apply H'|reflexivity]. }
  assert (Ex : forall T p, esize (look (diff mm mm') T p) = size_at mm T p /\ ediff (look (diff mm mm') T p) = size_at mm T p - size_at mm' T p).
  { intros T p. pose proof (diff_exact mm mm' T p W W') as E. destruct (look (diff mm mm') T p) as [e|]; cbn [esize ediff].
    - destruct E as (_ & E1 & E2 & _). now split.
    - destruct E as (E1 & E2). unfold size_at. rewrite E1, E2. now split. }
  assert (Pn : forall T p, look (diff mm mm') T p <> None <-> look mm T p <> None \/ look mm' T p <> None).
  { intros T p. pose proof (diff_exact mm mm' T p W W') as E. destruct (look (diff mm mm') T p) as [e|].
    - destruct E as (E & _). split; [auto|discriminate].
    - destruct E as (E1 & E2). rewrite E1, E2. tauto. }
  split.
  - now apply wf_diff.
  - intros T. unfold present. rewrite <- Rl, <- (sl_listed _ _ _ _ _ L), <- (sl_listed _ _ _ _ _ R). pose proof (diff_type_exact mm mm' T W') as Q. destruct (dget T (m_types (diff mm mm'))).
    + destruct Q as (Q & _). split; [auto|discriminate].
    + destruct Q as (Q1 & Q2). rewrite Q1, Q2. tauto.
  - intros T N. rewrite Pn. unfold present. now rewrite Ls, Rs, (sl_section _ _ _ _ _ L), (sl_section _ _ _ _ _ R).
  - intros T N i. cbv zeta. destruct (Ex T [N; it_archive i; it_object i; it_name i]) as (E1 & E2). rewrite E1, E2, (sl_symbol _ _ _ _ _ L), (sl_symbol _ _ _ _ _ R). reflexivity.
  - intros own T N. apply Mv; [apply (sl_sect_is _ _ _ _ _ L)|apply (sl_sect_is _ _ _ _ _ R)].
  - intros own T Ns D C v. unfold psum. cbn [fst snd]. rewrite zsumf_minus. apply Mv.
    + apply (sl_type_is _ _ _ _ _ L); [exact D|]. intros N P. apply C. left. now apply Ls.
    + apply (sl_type_is _ _ _ _ _ R); [exact D|]. intros N P. apply C. right. now apply Rs.
  - intros own Ts Ns D C H v. unfold psum. cbn [fst snd].
    assert (E : zsumf (fun T => zsumf (fun N => ls own T N - ls' own T N) (Ns T)) Ts = zsumf (fun T => zsumf (ls own T) (Ns T)) Ts - zsumf (fun T => zsumf (ls' own T) (Ns T)) Ts).
    { rewrite <- zsumf_minus. apply zsumf_ext. intros T _. apply zsumf_minus. }
    rewrite E. apply Mv.
    + apply (sl_all_is _ _ _ _ _ L); [exact D|intros T P; apply C; now left|].
      intros T IT. destruct (H T IT) as (H1 & H2). split; [exact H1|]. intros N P. apply H2. left. now apply Ls.
    + apply (sl_all_is _ _ _ _ _ R); [exact D|intros T P; apply C; now right|].
      intros T IT. destruct (H T IT) as (H1 & H2). split; [exact H1|]. intros N P. apply H2. right. now apply Rs.
  - intros x ob y. transitivity ((exists T N, look mm T [N; x; ob; y] <> None) \/ (exists T N, look mm' T [N; x; ob; y] <> None)).
    + split; [intros (T & N & H); apply Pn in H; destruct H; [left|right]; eauto|intros [(T & N & H)|(T & N & H)]; exists T, N; apply Pn; tauto].
    + rewrite (sl_places _ _ _ _ _ L), (sl_places _ _ _ _ _ R). unfold present. split; [intros [(i & H)|(i & H)]; exists i; tauto|intros (i & [H|H] & E); [left|right]; exists i; tauto].
  - intros T p e E. pose proof (diff_exact mm mm' T p W W') as Q. rewrite E in Q. destruct Q as (_ & _ & _ & Q).
    destruct (look mm T p) as [c|] eqn:Ec; [injection Q as ->; eapply (sl_label _ _ _ _ _ L); exact Ec|].
    destruct (look mm' T p) as [c|] eqn:Ec'; [|discriminate Q]. cbn in Q. injection Q as ->. eapply (sl_label _ _ _ _ _ R); exact Ec'.
Qed.

(** ** the map a command shows *)
Lemma no_dwarf_option d dir a : no_dwarf d dir (a_use_dwarf a) -> no_dwarf d dir (dwarf_option a).
Proof.
  intros N. unfold dwarf_option. destruct (a_use_dwarf a) as [[|]|]; [|exact N|exact N]. destruct N as [N|(N & _)]; discriminate N.
Qed.
Lemma in_dir_some dir n : n <> [] -> in_dir dir n <> [].
Proof. intros N E. apply (f_equal (@length ascii)) in E. unfold in_dir in E. rewrite app_length in E. destruct n; [contradiction|]. cbn in E. lia. Qed.
Lemma shown_smap d c x q r o files s render encode ord pf :
  symbols_reported d c q r -> asked_symbols (c_args c) x ->
  run_files d (get_memory_types chip_info) render encode ord pf c o (start files) = (Done tt, s) ->
  exists M e s1 s2 fo, sfinal (c_args c) q r M fo /\ s_printed s1 = [] /\
    show e M (final_args (c_args c)) o s1 = (Done tt, s2) /\ s_printed s = s_printed s2 /\ s_notes s = s_notes s2.
Proof.
  intros (Pk & Rr & Au & Ad) (_ & Dt & Nx) R. apply command_any in R; [|exact Au|exact Ad]. destruct R as (m & e & M & s1 & s2 & G & X1 & X2 & D & P1 & Sh & P2 & N2).
  assert (Lo : load_symbols (c_args c) = true). { unfold load_symbols. rewrite Dt. destruct x; [contradiction|reflexivity]. }
  rewrite Lo in G.
  destruct Pk as (dir & name & text & crt & k & ys & Ci & Bt & Nd & Fi & Sy & Cs & ->). rewrite Ci in G. destruct k as [rs l im types]. cbn [ac_rs ac_l ac_im ac_types] in *.
  destruct (built_sledger _ _ _ _ _ _ _ _ _ ys (c_args c) _ _ Bt G (no_dwarf_option _ _ _ Nd) Fi Sy Cs) as (ln & ls & L).
  exists M, e, s1, s2. destruct D as [(D & ->)|(fn & r0 & D & Nf & G2 & ->)].
  - assert (r = None) as ->. { destruct r as [q'|]; [|reflexivity]. destruct Rr as (fn & E & dir' & name' & text' & crt' & k' & ys' & En & Bt' & _). exfalso. rewrite E in D.
      destruct fn; [|discriminate D]. pose proof (bt_name _ _ _ _ _ _ _ _ _ Bt') as Pn. destruct Pn as (Pn & _). symmetry in En. now apply (in_dir_some dir' name') in En. }
    eexists. split; [apply (sfinal_alone _ _ _ _ _ L)|]. now repeat split.
  - destruct r as [q'|]; [|cbn in Rr; rewrite D in Rr; destruct fn; [contradiction|discriminate]].
    destruct Rr as (fn' & E & dir' & name' & text' & crt' & k' & ys' & En & Bt' & Nd' & Fi' & Sy' & Cs' & ->). rewrite D in E. injection E as <-. rewrite Lo, En in G2.
    destruct k' as [rs' l' im' types']. cbn [ac_rs ac_l ac_im ac_types] in *.
    destruct (built_sledger _ _ _ _ _ _ _ _ _ ys' (with_flash (c_args c)) _ _ Bt' G2 (no_dwarf_option _ _ _ Nd') Fi' Sy' Cs') as (ln' & ls' & R').
    eexists. split; [eapply sfinal_diff; eassumption|]. now repeat split.
Qed.
