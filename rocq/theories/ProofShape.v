From Coq Require Import Ascii String List ZArith Lia Bool.
From Verif Require Import Base MemMap SpecTree Pipeline SpecPipe SpecBuild SpecShape ProofOps ProofArch ProofTypes ProofRegions ProofGet.
Import ListNotations.
Open Scope list_scope.
Open Scope Z_scope.

Lemma basename_after s : after_last "/"%char s (basename s).
Proof.
  induction s as [|c s IH]; [split; [intros []|left; reflexivity]|]. cbn [basename].
  destruct (mem "/"%char s) eqn:M.
  - destruct IH as [N H]. split; [exact N|]. right. destruct H as [H|[pre H]].
    + exfalso. apply N. rewrite <- H. apply mem_In. exact M.
    + exists (c :: pre). rewrite H at 1. reflexivity.
  - assert (N : ~ In "/"%char s). { intros I. apply mem_In in I. congruence. }
    destruct (keqP c "/"%char) as [->|Ne].
    + split; [exact N|]. right. exists []. reflexivity.
    + split; [|left; reflexivity]. intros [->|I]; contradiction.
Qed.

Lemma after_dot s : after_last "."%char s (after_last_dot s).
Proof.
  induction s as [|c s IH]; [split; [intros []|left; reflexivity]|]. cbn [after_last_dot].
  destruct (mem "."%char s) eqn:M.
  - destruct IH as [N H]. split; [exact N|]. right. destruct H as [H|[pre H]].
    + exfalso. apply N. rewrite <- H. apply mem_In. exact M.
    + exists (c :: pre). rewrite H at 1. reflexivity.
  - assert (N : ~ In "."%char s). { intros I. apply mem_In in I. congruence. }
    destruct (keqP c "."%char) as [->|Ne].
    + split; [exact N|]. right. exists []. reflexivity.
    + split; [|left; reflexivity]. intros [->|I]; contradiction.
Qed.

Lemma in_ents_dict {C} (f : C -> list (list str * entry)) d p e :
  In (p, e) (ents_dict f d) -> exists k c q, In (k, c) d /\ In (q, e) (f c) /\ p = k :: q.
Proof.
  unfold ents_dict. intros I. apply in_flat_map in I. destruct I as ([k c] & I1 & I2). apply List.in_map_iff in I2.
  destruct I2 as ([q e'] & E & I2). cbn [fst snd] in *. injection E as <- <-. eauto 10.
Qed.

Lemma in_ents_node {C} (f : C -> list (list str * entry)) n p e :
  In (p, e) (ents_node f n) -> (p = [] /\ e = entry_of_node n) \/ exists k c q, In (k, c) (n_sub n) /\ In (q, e) (f c) /\ p = k :: q.
Proof. intros [I|I]; [injection I as <- <-; auto|]. right. apply in_ents_dict, I. Qed.

Lemma archives_shape s a x : dget a (as_archives (add_archives s)) = Some x ->
  n_abbrev x = basename a /\ n_diff x = 0 /\
  forall o b, dget o (n_sub x) = Some b -> n_abbrev b = basename o /\ n_diff b = 0 /\
  forall y z, dget y (n_sub b) = Some z -> y_abbrev z = y /\ y_diff z = 0.
Proof.
  cbn [add_archives as_archives]. destruct (archs_inv_fold (o_isecs s)) as (W & Z & H). intros E. specialize (H a).
  rewrite E in H. destruct H as (_ & H2 & H3 & _ & _ & _ & H7). split; [exact H2|]. split; [exact H3|].
  intros o b Eb. specialize (H7 o). rewrite Eb in H7. destruct H7 as (_ & G1 & G2 & _ & G3). split; [exact G1|]. split; [exact G2|].
  intros y z Ez. rewrite G3 in Ez. rewrite dget_add_symbols in Ez. destruct (last_symbol _ _); [|discriminate Ez].
  injection Ez as <-. auto.
Qed.

Lemma map_shape types regions l t T :
  dget t (get_mem_type_map types regions (map add_archives l)) = Some T ->
  wf_type T /\ t_size T = type_size t regions /\ t_size_diff T = 0 /\ t_used_diff T = 0 /\
  (forall p e, In (p, e) (ents_type T) -> e_diff e = 0 /\ label p (e_abbrev e)) /\
  (forall n s a x, In (n, s) (t_sections T) -> In (a, x) (n_sub s) ->
       n_size x = zsumf (fun kv => n_size (snd kv)) (n_sub x)).
Proof.
  intros E. pose proof (map_only _ _ _ _ _ E) as (Wd & _). pose proof (map_get _ _ _ _ _ E) as G. cbv zeta in G.
  assert (K : forall n s, In (n, s) (t_sections T) -> exists o, n_diff s = 0 /\ n_sub s = as_archives (add_archives o) /\ n_abbrev s = abbrev n).
  { intros n s I. apply In_dget in I; [|exact Wd]. rewrite G in I. cbn [t_sections] in I. pose proof (dset_all_get (assigned (ext_ram_alias types) (py_sorted sr_origin false regions) t (map add_archives l)) n) as D.
    rewrite I in D. destruct D as (a1 & a2 & D & _).
    destruct (In_assigned types regions (map add_archives l) t n s) as (o & ov & Io & _ & En & Es).
    { rewrite D. apply in_elt. }
    apply List.in_map_iff in Io. destruct Io as (o0 & <- & _). exists o0. subst n s. unfold rnode. cbn [n_diff n_sub n_abbrev]. split; [reflexivity|]. split; [reflexivity|].
    unfold reported_name. destruct ov; reflexivity. }
  split; [|split; [rewrite G; reflexivity|]].
  { split; [exact Wd|]. apply Forall_forall. intros [n s] I. destruct (K n s I) as (o & _ & E2 & _). cbn [snd].
    unfold wf_sect, wf_node. rewrite E2. apply archives_wf. }
  split; [rewrite G; reflexivity|]. split; [rewrite G; reflexivity|]. split.
  - intros p e I. apply in_ents_dict in I. destruct I as (n & s & q & In1 & I & ->).
    destruct (K n s In1) as (o & E1 & E2 & E3). apply in_ents_node in I. rewrite E2 in I.
    destruct I as [[-> ->]|(a & x & q1 & In2 & I & ->)].
    { split; [exact E1|]. cbn [label entry_of_node e_abbrev]. rewrite E3. exists (after_last_dot n). split; [apply after_dot|reflexivity]. }
    destruct (archives_wf o) as [Wa Fa]. apply In_dget in In2 as Ga; [|exact Wa]. destruct (archives_shape o a x Ga) as (A1 & A2 & A3).
    apply in_ents_node in I. destruct I as [[-> ->]|(b & y & q2 & In3 & I & ->)].
    { split; [exact A2|]. cbn [label entry_of_node e_abbrev]. rewrite A1. apply basename_after. }
    rewrite Forall_forall in Fa. destruct (Fa _ In2) as [Wo Fo]. cbn [snd] in Wo, Fo. apply In_dget in In3 as Go; [|exact Wo].
    destruct (A3 b y Go) as (B1 & B2 & B3). apply in_ents_node in I. destruct I as [[-> ->]|(c & z & q3 & In4 & I & ->)].
    { split; [exact B2|]. cbn [label entry_of_node e_abbrev]. rewrite B1. apply basename_after. }
    rewrite Forall_forall in Fo. destruct (Fo _ In3) as [Ws _]. cbn [snd] in Ws. apply In_dget in In4; [|exact Ws].
    destruct (B3 c z In4) as (C1 & C2). destruct I as [I|[]]. injection I as <- <-. split; [exact C2|exact C1].
  - intros n s a x In1 In2. destruct (K n s In1) as (o & _ & E2 & _). rewrite E2 in In2. apply In_dget in In2; [|apply archives_wf].
    apply archives_totals in In2. apply In2.
Qed.

Lemma build_shape ls types e regions sections img m : build ls types e regions sections = Ok (img, m) ->
  exists parts l, split_memory_regions (region_fuel types) (filter_memory_regions regions) types = Ok parts /\
    m = get_mem_type_map types parts (map add_archives l).
Proof.
  unfold build. intros E.
  destruct (split_memory_regions (region_fuel types) (filter_memory_regions regions) types) as [parts|] eqn:Sr; cbn [bind] in E; [|discriminate E].
  match type of E with (do x <- ?c; _) = _ => destruct c as [ws|]; cbn [bind] in E; [|discriminate E] end.
  match type of E with (do x <- ?c; _) = _ => destruct c as [cut|]; cbn [bind] in E; [|discriminate E] end.
  injection E as _ <-. exists parts, cut. split; reflexivity.
Qed.

(** C81 *)
Lemma get_pristine w ls ud ma ea m mf : get w ls ud ma ea = Ok (m, mf) -> pristine m /\ m_project_path m = w_map_fn w.
Proof.
  unfold get. intros E.
  destruct (load_mapfile ma (w_mapfile w)) as [mf0|]; cbn [bind] in E; [|discriminate E].
  destruct (w_elf w) as [e|]; cbn [bind] in E; [|discriminate E].
  destruct (pick_target (w_proj_desc w) mf0) as [target|]; cbn [bind] in E; [|discriminate E].
  destruct (w_memory_types w target) as [types|]; cbn [bind] in E; [|discriminate E].
  match type of E with (do x <- ?c; _) = _ => destruct c as [[img r]|] eqn:B; cbn [bind] in E; [|discriminate E] end.
  injection E as <- _. split; [|reflexivity]. apply build_shape in B. destruct B as (parts & l & _ & ->). cbn [fst snd].
  split; [|split; [reflexivity|split; [reflexivity|split; [reflexivity|]]]].
  - split; [apply map_wf|]. apply Forall_forall. intros [t T] I. apply In_dget in I; [|apply map_wf]. apply map_shape in I. apply I.
  - cbn [m_types]. intros t T I. apply In_dget in I; [|apply map_wf]. apply map_shape in I.
    destruct I as (_ & _ & I1 & I2 & I3 & I4). split; [exact I1|]. split; [exact I2|]. split; [exact I3|exact I4].
Qed.

Lemma get_pristine' w ls ud ma ea m mf : get w ls ud ma ea = Ok (m, mf) -> pristine m.
Proof. intros E. apply (get_pristine _ _ _ _ _ _ _ E). Qed.

Lemma filter_listed regions : filter_memory_regions regions = filter listed_region regions.
Proof. reflexivity. Qed.

(** C82 *)
Lemma get_region_sizes w ls ud ma ea m mf mf' :
  get w ls ud ma ea = Ok (m, mf') -> load_mapfile ma (w_mapfile w) = Ok mf -> Forall (fun r => 0 <= r_length r) (mf_regions mf) ->
  exists types groups,
    w_memory_types w (m_target m) = Ok types /\
    Forall2 (region_parts types) (filter listed_region (mf_regions mf)) groups /\
    (forall t, In t (keys (m_types m)) <-> exists c, In c types /\ ct_name c = t) /\
    (forall t T, dget t (m_types m) = Some T -> t_size T = type_size t (concat groups)).
Proof.
  unfold get. intros E L F. rewrite L in E. cbn [bind] in E.
  destruct (w_elf w) as [e|]; cbn [bind] in E; [|discriminate E].
  destruct (pick_target (w_proj_desc w) mf) as [target|]; cbn [bind] in E; [|discriminate E].
  destruct (w_memory_types w target) as [types|] eqn:Et; cbn [bind] in E; [|discriminate E].
  match type of E with (do x <- ?c; _) = _ => destruct c as [[img r]|] eqn:B; cbn [bind] in E; [|discriminate E] end.
  injection E as <- _. apply build_shape in B. destruct B as (parts & l & Sr & ->). cbn [fst snd m_types m_target].
  apply split_regions_parts in Sr as (groups & -> & G).
  2: { rewrite filter_listed. apply Forall_forall. intros x I. apply filter_In in I. rewrite Forall_forall in F. apply F, I. }
  exists types, groups. split; [exact Et|]. split; [exact G|]. split.
  - intros t. apply map_keys.
  - intros t T Eg. apply map_shape in Eg. apply Eg.
Qed.

Lemma get_sizes w ls ud ma ea m mf mf' :
  map_file_of w ma mf -> Forall (fun r => 0 <= r_length r) (mf_regions mf) -> get w ls ud ma ea = Ok (m, mf') ->
  exists types groups,
    w_memory_types w (m_target m) = Ok types /\
    Forall2 (region_parts types) (filter listed_region (mf_regions mf)) groups /\
    (forall t, In t (keys (m_types m)) <-> exists c, In c types /\ ct_name c = t) /\
    (forall t T, dget t (m_types m) = Some T -> t_size T = type_size t (concat groups)).
Proof.
  intros M F E. eapply get_region_sizes; [exact E| |exact F]. unfold map_file_of in M. destruct ma; [subst; reflexivity|]. cbn. rewrite M. reflexivity.
Qed.
