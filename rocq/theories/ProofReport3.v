From Coq Require Import Ascii String List ZArith Lia Bool Permutation Sorted.
From Verif Require Import Base MemMap SpecTree SpecOps Filter Pipeline SpecPipe SpecBuild SpecBytes SpecShape ProofOps ProofTrim ProofDiff ProofDiff2 ProofSummary ProofSummary2 ProofSummary3 Fixtures PyStr MapFile SpecMap
  ElfRead SpecElf Project SpecProject SpecEnd Chips SpecChips ProofChips Deps Table SpecTable Formats ProofFormats Main SpecMain ProofMain ProofMain4 ProofMain5 Command SpecCommand SpecFail SpecReport
  ProofCommand1 ProofCommand2 ProofCommand3 ProofCommand4 ProofCommand5 ProofReport1 ProofReport2.
Import ListNotations.
Open Scope list_scope.
Open Scope Z_scope.

Definition psum {A} (f : A -> Z * Z) (l : list A) : Z * Z := (zsumf (fun x => fst (f x)) l, zsumf (fun x => snd (f x)) l).
Lemma zsumf_minus {A} (f g : A -> Z) l : zsumf (fun x => f x - g x) l = zsumf f l - zsumf g l.
Proof. induction l as [|x l IH]; [reflexivity|]. rewrite !zsumf_cons, IH. lia. Qed.

(** ** what the map that is shown has *)
Record final (a : args) (k : account) (r : option account) (M : memmap) (fu : str -> Z * Z) (fn : str -> str -> Z * Z) (fo : (item -> bool) -> str -> str -> Z * Z) : Prop := {
  f_wf : wf_map M;
  f_used : forall T t, dget T (m_types M) = Some t -> (t_used t, t_used_diff t) = fu T;
  f_used_is : forall T v, measured k r (used_bytes T) v <-> v = fu T;
  f_listed : forall T, dget T (m_types M) <> None <-> present k r (lists_type a T);
  f_name : forall T N e, look M T [N] = Some e -> (e_size e, e_diff e) = fn T N;
  f_name_is : forall T N v, measured k r (name_bytes T N) v <-> v = fn T N;
  f_section : forall T N, look M T [N] <> None <-> present k r (lists_section T N);
  f_archive : forall T N x, (esize (look M T [N; x]), ediff (look M T [N; x])) = fo (of_archive x) T N;
  f_object : forall T N x o, (esize (look M T [N; x; o]), ediff (look M T [N; x; o])) = fo (of_object x o) T N;
  f_sect_is : forall own T N v, measured k r (own_bytes own (ColSect T N)) v <-> v = fo own T N;
  f_type_is : forall own T Ns, NoDup Ns -> (forall N, present k r (lists_section T N) -> In N Ns) -> forall v, measured k r (own_bytes own (ColType T)) v <-> v = psum (fo own T) Ns;
  f_all_is : forall own Ts (Ns : str -> list str), NoDup Ts -> (forall T, present k r (lists_type a T) -> In T Ts) ->
    (forall T, In T Ts -> NoDup (Ns T) /\ forall N, present k r (lists_section T N) -> In N (Ns T)) ->
    forall v, measured k r (own_bytes own ColTotal) v <-> v = psum (fun T => psum (fo own T) (Ns T)) Ts;
  f_places_archive : forall x, (exists T N, look M T [N; x] <> None) <-> exists i, present k r (places i) /\ it_archive i = x;
  f_places_object : forall x o, (exists T N, look M T [N; x; o] <> None) <-> exists i, present k r (places i) /\ it_archive i = x /\ it_object i = o;
  f_label : forall T p e, look M T p = Some e -> label p (e_abbrev e);
  f_total : forall T t, dget T (m_types M) = Some t -> total_bytes a T k (t_size t) /\
    (t_size t <> 0 \/ a_use_flash_size a = true -> measured k r (total_bytes a T) (t_size t, t_size_diff t));
  f_image : measured k r (fun q => image_bytes (ac_im q) (ac_l q)) (m_image_size M, m_image_size_diff M) }.

Lemma lists_section_iff a k mm lu ln lo T N : ledger a k mm lu ln lo -> (lists_section T N k <-> 0 < ln T N).
Proof.
  intros L. unfold lists_section. split.
  - intros (n & H & P). apply (lg_name_is _ _ _ _ _ _ L) in H. now subst.
  - intros P. exists (ln T N). split; [now apply (lg_name_is _ _ _ _ _ _ L)|exact P].
Qed.

Lemma final_alone a k mm lu ln lo : ledger a k mm lu ln lo ->
  final a k None mm (fun T => (lu T, 0)) (fun T N => (ln T N, 0)) (fun own T N => (lo own T N, 0)).
Proof.
  intros L. assert (Ls : forall T N, lists_section T N k <-> 0 < ln T N) by (intros; eapply lists_section_iff; exact L).
  assert (Mv : forall (f : account -> Z -> Prop) z, (forall n, f k n <-> n = z) -> forall v, measured k None f v <-> v = (z, 0)).
  { intros f z H [n dv]. unfold measured. cbn [fst snd]. rewrite H. split; [intros (-> & ->); reflexivity|intros E; now injection E as -> ->]. }
  assert (Dz : forall T p, ediff (look mm T p) = 0). { intros T p. destruct (look mm T p) eqn:E; [|reflexivity]. apply (lg_same _ _ _ _ _ _ L) in E. exact E. }
  split.
  - apply L.
  - intros T t E. pose proof (lg_used _ _ _ _ _ _ L T) as U. unfold type_used_at in U. rewrite E in U. rewrite U. f_equal. now apply (lg_same_type _ _ _ _ _ _ L) in E.
  - intros T. apply Mv. apply (lg_used_is _ _ _ _ _ _ L).
  - intros T. rewrite (lg_listed _ _ _ _ _ _ L). unfold present. tauto.
  - intros T N e E. pose proof (lg_name _ _ _ _ _ _ L T N) as U. unfold size_at in U. rewrite E in U. rewrite U. f_equal. now apply (lg_same _ _ _ _ _ _ L) in E.
  - intros T N. apply Mv. apply (lg_name_is _ _ _ _ _ _ L).
  - intros T N. rewrite (lg_section _ _ _ _ _ _ L). unfold present. rewrite Ls. tauto.
  - intros T N x. rewrite Dz. f_equal. apply (lg_archive _ _ _ _ _ _ L).
  - intros T N x o. rewrite Dz. f_equal. apply (lg_object _ _ _ _ _ _ L).
  - intros own T N. apply Mv. apply (lg_sect_is _ _ _ _ _ _ L).
  - intros own T Ns D C v. unfold psum. cbn [fst snd]. rewrite (zsumf_zero (fun _ => 0)) by reflexivity. apply Mv.
    apply (lg_type_is _ _ _ _ _ _ L); [exact D|]. intros N P. apply C. left. now apply Ls.
  - intros own Ts Ns D C H v. unfold psum. cbn [fst snd]. rewrite (zsumf_zero (fun x => zsumf (fun _ => 0) (Ns x))).
    + apply Mv. apply (lg_all_is _ _ _ _ _ _ L); [exact D|intros T P; apply C; now left|].
      intros T IT. destruct (H T IT) as (H1 & H2). split; [exact H1|]. intros N P. apply H2. left. now apply Ls.
    + intros T _. now apply zsumf_zero.
  - intros x. rewrite (lg_places_archive _ _ _ _ _ _ L). unfold present. split; intros (i & H); exists i; tauto.
  - intros x o. rewrite (lg_places_object _ _ _ _ _ _ L). unfold present. split; intros (i & H); exists i; tauto.
  - apply (lg_label _ _ _ _ _ _ L).
  - intros T t E. pose proof (lg_total _ _ _ _ _ _ L T) as Q. unfold type_size_at in Q. rewrite E in Q. split; [exact Q|]. intros _. split; [exact Q|]. cbn. now apply (lg_same_type _ _ _ _ _ _ L) in E.
  - split; cbn [fst snd]; apply (lg_image _ _ _ _ _ _ L).
Qed.

Lemma final_diff_ok a k k' mm mm' lu ln lo lu' ln' lo' : ledger a k mm lu ln lo -> ledger (with_flash a) k' mm' lu' ln' lo' ->
  final a k (Some k') (diff mm mm') (fun T => (lu T, lu T - lu' T)) (fun T N => (ln T N, ln T N - ln' T N)) (fun own T N => (lo own T N, lo own T N - lo' own T N)).
Proof.
  intros L R. assert (Ls : forall T N, lists_section T N k <-> 0 < ln T N) by (intros; eapply lists_section_iff; exact L).
  assert (Rs : forall T N, lists_section T N k' <-> 0 < ln' T N) by (intros; eapply lists_section_iff; exact R).
  assert (Rl : forall T, lists_type (with_flash a) T k' <-> lists_type a T k') by (intros T; reflexivity).
  pose proof (lg_wf _ _ _ _ _ _ L) as W. pose proof (lg_wf _ _ _ _ _ _ R) as W'.
  assert (Mv : forall (f : account -> Z -> Prop) z z', (forall n, f k n <-> n = z) -> (forall n, f k' n <-> n = z') -> forall v, measured k (Some k') f v <-> v = (z, z - z')).
  { intros f z z' H H' [n dv]. unfold measured. cbn [fst snd]. split.
    - intros (E & n' & E' & ->). apply H in E. apply H' in E'. now subst.
    - intros E. injection E as -> ->. split; [now apply H|]. exists z'. split; [now apply H'|reflexivity]. }
  assert (Ex : forall T p, esize (look (diff mm mm') T p) = size_at mm T p /\ ediff (look (diff mm mm') T p) = size_at mm T p - size_at mm' T p).
  { intros T p. pose proof (diff_exact mm mm' T p W W') as E. destruct (look (diff mm mm') T p) as [e|]; cbn [esize ediff].
    - destruct E as (_ & E1 & E2 & _). now split.
    - destruct E as (E1 & E2). unfold size_at. rewrite E1, E2. now split. }
  assert (Pn : forall T p, look (diff mm mm') T p <> None <-> look mm T p <> None \/ look mm' T p <> None).
  { intros T p. pose proof (diff_exact mm mm' T p W W') as E. destruct (look (diff mm mm') T p) as [e|].
    - destruct E as (E & _). split; [auto|discriminate].
    - destruct E as (E1 & E2). rewrite E1, E2. tauto. }
  split.
  - now apply wf_diff.
  - intros T t E. pose proof (diff_type_exact mm mm' T W') as Q. rewrite E in Q. destruct Q as (_ & _ & Q1 & _ & Q2). rewrite Q1, Q2, (lg_used _ _ _ _ _ _ L), (lg_used _ _ _ _ _ _ R). reflexivity.
  - intros T. apply Mv; [apply (lg_used_is _ _ _ _ _ _ L)|apply (lg_used_is _ _ _ _ _ _ R)].
  - intros T. unfold present. rewrite <- Rl, <- (lg_listed _ _ _ _ _ _ L), <- (lg_listed _ _ _ _ _ _ R). pose proof (diff_type_exact mm mm' T W') as Q. destruct (dget T (m_types (diff mm mm'))).
    + destruct Q as (Q & _). split; [auto|discriminate].
    + destruct Q as (Q1 & Q2). rewrite Q1, Q2. tauto.
  - intros T N e E. destruct (Ex T [N]) as (E1 & E2). rewrite E in E1, E2. cbn [esize ediff] in E1, E2. rewrite E1, E2, (lg_name _ _ _ _ _ _ L), (lg_name _ _ _ _ _ _ R). reflexivity.
  - intros T N. apply Mv; [apply (lg_name_is _ _ _ _ _ _ L)|apply (lg_name_is _ _ _ _ _ _ R)].
  - intros T N. rewrite Pn. unfold present. now rewrite Ls, Rs, (lg_section _ _ _ _ _ _ L), (lg_section _ _ _ _ _ _ R).
  - intros T N x. destruct (Ex T [N; x]) as (E1 & E2). rewrite E1, E2, (lg_archive _ _ _ _ _ _ L), (lg_archive _ _ _ _ _ _ R). reflexivity.
  - intros T N x o. destruct (Ex T [N; x; o]) as (E1 & E2). rewrite E1, E2, (lg_object _ _ _ _ _ _ L), (lg_object _ _ _ _ _ _ R). reflexivity.
  - intros own T N. apply Mv; [apply (lg_sect_is _ _ _ _ _ _ L)|apply (lg_sect_is _ _ _ _ _ _ R)].
  - intros own T Ns D C v. unfold psum. cbn [fst snd]. rewrite zsumf_minus. apply Mv.
    + apply (lg_type_is _ _ _ _ _ _ L); [exact D|]. intros N P. apply C. left. now apply Ls.
    + apply (lg_type_is _ _ _ _ _ _ R); [exact D|]. intros N P. apply C. right. now apply Rs.
  - intros own Ts Ns D C H v. unfold psum. cbn [fst snd].
    assert (E : zsumf (fun T => zsumf (fun N => lo own T N - lo' own T N) (Ns T)) Ts = zsumf (fun T => zsumf (lo own T) (Ns T)) Ts - zsumf (fun T => zsumf (lo' own T) (Ns T)) Ts).
    { rewrite <- zsumf_minus. apply zsumf_ext. intros T _. apply zsumf_minus. }
    rewrite E. apply Mv.
    + apply (lg_all_is _ _ _ _ _ _ L); [exact D|intros T P; apply C; now left|].
      intros T IT. destruct (H T IT) as (H1 & H2). split; [exact H1|]. intros N P. apply H2. left. now apply Ls.
    + apply (lg_all_is _ _ _ _ _ _ R); [exact D|intros T P; apply C; now right|].
      intros T IT. destruct (H T IT) as (H1 & H2). split; [exact H1|]. intros N P. apply H2. right. now apply Rs.
  - intros x. transitivity ((exists T N, look mm T [N; x] <> None) \/ (exists T N, look mm' T [N; x] <> None)).
    + split; [intros (T & N & H); apply Pn in H; destruct H; [left|right]; eauto|intros [(T & N & H)|(T & N & H)]; exists T, N; apply Pn; tauto].
    + rewrite (lg_places_archive _ _ _ _ _ _ L), (lg_places_archive _ _ _ _ _ _ R). unfold present. split; [intros [(i & H)|(i & H)]; exists i; tauto|intros (i & [H|H] & E); [left|right]; exists i; tauto].
  - intros x o. transitivity ((exists T N, look mm T [N; x; o] <> None) \/ (exists T N, look mm' T [N; x; o] <> None)).
    + split; [intros (T & N & H); apply Pn in H; destruct H; [left|right]; eauto|intros [(T & N & H)|(T & N & H)]; exists T, N; apply Pn; tauto].
    + rewrite (lg_places_object _ _ _ _ _ _ L), (lg_places_object _ _ _ _ _ _ R). unfold present. split; [intros [(i & H)|(i & H)]; exists i; tauto|intros (i & [H|H] & E); [left|right]; exists i; tauto].
  - intros T p e E. pose proof (diff_exact mm mm' T p W W') as Q. rewrite E in Q. destruct Q as (_ & _ & _ & Q).
    destruct (look mm T p) as [c|] eqn:Ec; [injection Q as ->; eapply (lg_label _ _ _ _ _ _ L); exact Ec|].
    destruct (look mm' T p) as [c|] eqn:Ec'; [|discriminate Q]. cbn in Q. injection Q as ->. eapply (lg_label _ _ _ _ _ _ R); exact Ec'.
  - intros T t E. pose proof (diff_type_exact mm mm' T W') as Q. rewrite E in Q. destruct Q as (_ & Q1 & _ & Q2 & _). pose proof (lg_total _ _ _ _ _ _ L T) as Q3. rewrite <- Q1 in Q3. split; [exact Q3|].
    intros Nz. split; [exact Q3|]. cbn [fst snd]. exists (type_size_at mm' T). split; [|now rewrite <- Q1 in Q2].
    destruct (lg_total _ _ _ _ _ _ R T) as (Q4 & Q5). split; [|exact Q5]. intros Lt. destruct (Q4 Lt) as (groups & Gr & S1 & S2). exists groups. split; [exact Gr|].
    assert (Sz : type_size_at mm' T = type_size T (concat groups)). { apply S2. intros (X & _). discriminate X. }
    split; [|intros _; exact Sz]. intros (F1 & F2). exfalso. destruct Nz as [Nz|Nz]; [|congruence]. apply Nz. rewrite Q1.
    destruct (lg_total _ _ _ _ _ _ L T) as (Q6 & Q7).
    destruct (dget T (m_types mm)) as [t0|] eqn:Et; [|unfold type_size_at; now rewrite Et].
    assert (Lt0 : lists_type a T k) by (apply (lg_listed _ _ _ _ _ _ L); congruence). destruct (Q6 Lt0) as (g2 & _ & S3 & _). apply S3. now split.
  - split; cbn [fst snd]; [apply (lg_image _ _ _ _ _ _ L)|]. exists (m_image_size mm'). split; [apply (lg_image _ _ _ _ _ _ R)|reflexivity].
Qed.

(** ** the map a command shows *)
Lemma shown_map d c k r o files s render encode ord pf :
  reported d c k r -> (given (a_archive_details (c_args c)) = true -> a_use_dwarf (c_args c) <> Some true) -> a_format (c_args c) <> FRaw ->
  run_files d (get_memory_types chip_info) render encode ord pf c o (start files) = (Done tt, s) ->
  exists M x s1 s2 fu fn fo, final (c_args c) k r M fu fn fo /\ x_order x = ord /\ x_pct x = pf /\ s_printed s1 = [] /\
    show x M (final_args (c_args c)) o s1 = (Done tt, s2) /\ s_printed s = s_printed s2 /\ s_notes s = s_notes s2.
Proof.
  intros (Pk & Rr & Au & Ad) Dd Fm R. apply command_any in R; [|exact Au|exact Ad]. destruct R as (m & x & M & s1 & s2 & G & X1 & X2 & D & P1 & Sh & P2 & N2).
  destruct Pk as (dir & name & text & crt & Ci & Bt & Wd & Fi). rewrite Ci in G.
  destruct (built_ledger _ _ _ _ _ _ _ _ _ (c_args c) _ _ _ Bt G (without_dwarf_option _ _ _ Wd Dd Fm) Fi) as (lu & ln & lo & L).
  assert (L' : ledger (c_args c) k (prepare (c_args c) m) lu ln lo) by (destruct k; exact L). clear L.
  exists M, x, s1, s2. destruct D as [(D & ->)|(fn & r0 & D & Nf & G2 & ->)].
  - assert (r = None) as ->. { destruct r as [k'|]; [|reflexivity]. destruct Rr as (fn & E & dir' & name' & text' & crt' & En & Bt' & _). exfalso. rewrite E in D.
      destruct fn; [|discriminate D]. pose proof (bt_name _ _ _ _ _ _ _ _ _ Bt') as Pn. apply (f_equal (@length ascii)) in En. unfold in_dir in En. rewrite app_length in En. destruct Pn as (Pn & _). destruct name'; [contradiction|]. cbn in En. lia. }
    do 3 eexists. split; [apply final_alone; exact L'|]. now repeat split.
  - destruct r as [k'|]; [|cbn in Rr; rewrite D in Rr; destruct fn; [contradiction|discriminate]].
    destruct Rr as (fn' & E & dir' & name' & text' & crt' & En & Bt' & Wd' & Fi'). rewrite D in E. injection E as <-. rewrite En in G2.
    destruct (built_ledger _ _ _ _ _ _ _ _ _ (with_flash (c_args c)) _ _ _ Bt' G2 (without_dwarf_option _ _ _ Wd' Dd Fm) Fi') as (lu' & ln' & lo' & R).
    assert (R' : ledger (with_flash (c_args c)) k' (prepare (with_flash (c_args c)) r0) lu' ln' lo') by (destruct k'; exact R).
    do 3 eexists. split; [eapply final_diff_ok; eassumption|]. now repeat split.
Qed.
