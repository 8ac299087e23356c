From Coq Require Import Ascii String List ZArith Lia Bool Permutation Sorted.
From Verif Require Import Base MemMap SpecTree Pipeline SpecPipe SpecBuild ProofArch ProofTypes.
Import ListNotations.
Open Scope list_scope.
Open Scope Z_scope.

(** ** kept sections *)

Lemma endswith_spec p s : endswith p s = true <-> exists pre, s = pre ++ p.
Proof.
  unfold endswith. rewrite startswith_spec. split.
  - intros (rest & E). exists (rev rest). rewrite <- (rev_involutive s), E, rev_app_distr, rev_involutive. reflexivity.
  - intros (pre & ->). exists (rev pre). apply rev_app_distr.
Qed.

Lemma contains_spec p s : contains p s = true <-> exists a b, s = a ++ p ++ b.
Proof.
  induction s as [|c s IH]; cbn [contains]; rewrite orb_true_iff, startswith_spec.
  - split.
    + intros [(r & E)|E]; [|discriminate E]. exists [], r. exact E.
    + intros (a & b & E). left. symmetry in E. apply app_eq_nil in E. destruct E as [-> E]. exists b. symmetry. exact E.
  - rewrite IH. split.
    + intros [(r & E)|(a & b & ->)]; [exists [], r; exact E|exists (c :: a), b; reflexivity].
    + intros (a & b & E). destruct a as [|d a]; simpl in E.
      * left. exists b. exact E.
      * injection E as -> ->. right. exists a, b. reflexivity.
Qed.

Lemma ends_any_spec l n : ends_with_any l n = true <-> exists p, In p l /\ has_suffix n p.
Proof.
  unfold ends_with_any. rewrite existsb_exists. split; intros (p & I & E); exists p; (split; [exact I|]); apply endswith_spec; exact E.
Qed.

Definition hdrs_fold (l : list shdr) : dict str shdr :=
  fold_left (fun hdrs h => if sh_size h =? 0 then hdrs else if Z.land (sh_flags h) SHF_ALLOC =? 0 then hdrs else dset (sh_name h) h hdrs) l [].

Lemma hdrs_snoc l h : hdrs_fold (l ++ [h]) = if alloc_b h then dset (sh_name h) h (hdrs_fold l) else hdrs_fold l.
Proof.
  unfold hdrs_fold. rewrite fold_left_app. cbn [fold_left]. unfold alloc_b, SHF_ALLOC.
  destruct (sh_size h =? 0); [reflexivity|]. destruct (Z.land (sh_flags h) 2 =? 0); reflexivity.
Qed.

Lemma alloc_spec h : alloc_b h = true <-> allocated h.
Proof.
  unfold alloc_b, allocated. rewrite andb_true_iff, !negb_true_iff, !Z.eqb_neq. tauto.
Qed.

Lemma hdrs_keys l n : In n (keys (hdrs_fold l)) <-> exists h, In h l /\ allocated h /\ sh_name h = n.
Proof.
  induction l as [|h l IH] using rev_ind.
  - simpl. split; [intros []|intros (h & [] & _)].
  - rewrite hdrs_snoc. destruct (alloc_b h) eqn:A.
    + rewrite In_keys_dset, IH. split.
      * intros [->|(h' & I & H)]; [exists h|exists h']; rewrite in_app_iff; simpl; [|tauto]. apply alloc_spec in A. auto.
      * intros (h' & I & H1 & H2). apply in_app_iff in I. destruct I as [I|[<-|[]]]; eauto.
    + rewrite IH. split; intros (h' & I & H1 & H2).
      * exists h'. rewrite in_app_iff. auto.
      * apply in_app_iff in I. destruct I as [I|[<-|[]]]; [eauto|]. apply alloc_spec in H1. congruence.
Qed.

Lemma hdrs_nonempty e : has_headers e <-> exists f h0 d, e = Some f /\ hdrs_fold (elf_shdrs f) = h0 :: d.
Proof.
  split.
  - intros (f & h & -> & I & A). exists f. destruct (hdrs_fold (elf_shdrs f)) as [|x d] eqn:E; [|eauto].
    assert (In (sh_name h) (keys (hdrs_fold (elf_shdrs f)))) by (apply hdrs_keys; eauto). rewrite E in H. contradiction.
  - intros (f & [n x] & d & -> & E). assert (I : In n (keys (hdrs_fold (elf_shdrs f)))) by (rewrite E; simpl; auto).
    apply hdrs_keys in I. destruct I as (h & I & A & _). exists f, h. auto.
Qed.

Lemma keep_spec e s : keep_section (get_elf_sections_headers e) s = true <-> kept e s.
Proof.
  unfold keep_section, kept, gap_section. rewrite !andb_true_iff, !negb_true_iff, Z.eqb_neq.
  assert (G : (ends_with_any ["dummy"; "reserved_for_iram"] (o_name s) = false /\ ends_with_any ["noload"] (o_name s) = false) <->
              ~ (has_suffix (o_name s) "dummy" \/ has_suffix (o_name s) "reserved_for_iram" \/ has_suffix (o_name s) "noload")).
  { rewrite <- !not_true_iff_false, !ends_any_spec. split.
    - intros [H1 H2] [H|[H|H]]; [apply H1|apply H1|apply H2]; eexists; (split; [|exact H]); simpl; auto.
    - intros H. split; intros (p & I & E); apply H; simpl in I.
      + destruct I as [<-|[<-|[]]]; auto. + destruct I as [<-|[]]; auto. }
  assert (H : match get_elf_sections_headers e with
    | Some ((_ :: _) as hdrs) => dmem (o_name s) hdrs
    | _ => ends_with_any [".text"; ".data"; ".bss"; ".rodata"; "noinit"; ".vectors"] (o_name s)
           || contains ".flash" (o_name s) || contains ".eh_frame" (o_name s) end = true <->
    (has_headers e -> in_headers e (o_name s)) /\ (~ has_headers e -> code_or_data (o_name s))).
  { assert (N : ends_with_any [".text"; ".data"; ".bss"; ".rodata"; "noinit"; ".vectors"] (o_name s)
           || contains ".flash" (o_name s) || contains ".eh_frame" (o_name s) = true <-> code_or_data (o_name s)).
    { unfold code_or_data. rewrite !orb_true_iff, ends_any_spec, !contains_spec. split.
      - intros [[(p & I & E)|H]|H]; [|unfold has_substring; tauto|unfold has_substring; tauto].
        simpl in I. repeat (destruct I as [<-|I]; [tauto|]). destruct I.
      - unfold has_substring. intros [H|[H|[H|[H|[H|[H|[H|H]]]]]]]; try (left; left; eexists; split; [|exact H]; simpl; tauto); auto. }
    destruct e as [f|].
    - cbn [get_elf_sections_headers]. fold (hdrs_fold (elf_shdrs f)). destruct (hdrs_fold (elf_shdrs f)) as [|x d] eqn:E.
      + rewrite N. assert (NH : ~ has_headers (Some f)).
        { rewrite hdrs_nonempty. intros (f' & h0 & d & X & Y). injection X as <-. rewrite E in Y. discriminate Y. }
        split; [intros X; split; [intros Y; contradiction|intros _; exact X]|intros [_ X]; apply X; exact NH].
      + assert (HH : has_headers (Some f)) by (apply hdrs_nonempty; eauto).
        rewrite <- E, dmem_In, hdrs_keys. unfold in_headers. split.
        * intros (h & I). split; [intros _; exists f, h; split; [reflexivity|exact I]|intros X; contradiction].
        * intros [X _]. destruct (X HH) as (f' & h & Y & I). injection Y as <-. eauto.
    - cbn [get_elf_sections_headers]. rewrite N. assert (NH : ~ has_headers None) by (intros (f & h & X & _); discriminate X).
      split; [intros X; split; [intros Y; contradiction|intros _; exact X]|intros [_ X]; apply X; exact NH]. }
  rewrite H, <- G. tauto.
Qed.

(** C25 *)
Lemma filter_kept e sections : exists keep,
  (forall s, keep s = true <-> kept e s) /\
  filter_map_sections sections (get_elf_sections_headers e) = map nonempty_isecs (filter keep sections).
Proof.
  exists (keep_section (get_elf_sections_headers e)). split; [intros s; apply keep_spec|reflexivity].
Qed.

(** ** image size *)

Lemma fold_sum {A} (p : A -> bool) (f : A -> Z) l z :
  fold_left (fun size x => if p x then size else size + f x) l z = z + zsumf f (filter (fun x => negb (p x)) l).
Proof.
  revert z. induction l as [|x l IH]; intros z; simpl; [rewrite zsumf_nil; lia|].
  rewrite IH. destruct (p x); simpl; rewrite ?zsumf_cons; lia.
Qed.

Lemma hdrs_distinct l : NoDup (map sh_name (filter alloc_b l)) ->
  hdrs_fold l = map (fun h => (sh_name h, h)) (filter alloc_b l).
Proof.
  induction l as [|h l IH] using rev_ind; intros N; [reflexivity|].
  rewrite hdrs_snoc. rewrite filter_app in *. cbn [filter] in *. destruct (alloc_b h).
  - rewrite map_app in N. pose proof (NoDup_remove_1 _ _ _ N) as N1. pose proof (NoDup_remove_2 _ _ _ N) as N2.
    rewrite app_nil_r in N1, N2. rewrite IH by exact N1. rewrite dset_notin, map_app; [reflexivity|].
    unfold keys. rewrite map_map. exact N2.
  - rewrite app_nil_r in *. apply IH, N.
Qed.

(** C26 *)
Lemma image_size_elf f sections :
  has_headers (Some f) -> NoDup (map sh_name (filter alloc_b (elf_shdrs f))) ->
  get_image_size (get_elf_sections_headers (Some f)) sections = progbits_bytes f.
Proof.
  intros H N. unfold get_image_size. cbn [get_elf_sections_headers]. fold (hdrs_fold (elf_shdrs f)).
  apply hdrs_nonempty in H. destruct H as (f' & h0 & d & X & E). injection X as <-. rewrite E, <- E. clear E h0 d.
  rewrite (fold_sum (fun kv => negb (sh_type (snd kv) =? SHT_PROGBITS)) (fun kv => sh_size (snd kv))).
  rewrite hdrs_distinct by exact N. rewrite Z.add_0_l, !zsumf_filter, zsumf_map.
  unfold progbits_bytes. rewrite !zsumf_filter. apply zsumf_ext. intros h _. cbn [snd]. unfold SHT_PROGBITS.
  rewrite negb_involutive. destruct (alloc_b h); [|reflexivity]. reflexivity.
Qed.

Lemma image_size_names e sections : ~ has_headers e ->
  exists img, (forall s, img s = true <-> image_section (o_name s)) /\
  get_image_size (get_elf_sections_headers e) sections = zsumf o_size (filter img sections).
Proof.
  intros H. exists (fun s => negb (ends_with_any [".bss"; "noinit"] (o_name s))). split.
  - intros s. rewrite negb_true_iff, <- not_true_iff_false, ends_any_spec. unfold image_section. split.
    + intros N. split; intros X; apply N; eexists; (split; [|exact X]); simpl; auto.
    + intros [N1 N2] (p & I & X). simpl in I. destruct I as [<-|[<-|[]]]; auto.
  - assert (E : get_elf_sections_headers e = None \/ get_elf_sections_headers e = Some []).
    { destruct e as [f|]; [right|left; reflexivity]. cbn [get_elf_sections_headers]. fold (hdrs_fold (elf_shdrs f)).
      destruct (hdrs_fold (elf_shdrs f)) as [|x d] eqn:E; [reflexivity|]. exfalso. apply H, hdrs_nonempty. eauto. }
    unfold get_image_size. destruct E as [-> | ->];
      rewrite (fold_sum (fun s => ends_with_any [".bss"; "noinit"] (o_name s)) o_size); lia.
Qed.

(** the last header of a name counts *)
Lemma image_size_upper f sections : has_headers (Some f) ->
  (forall h, In h (elf_shdrs f) -> 0 <= sh_size h) ->
  get_image_size (get_elf_sections_headers (Some f)) sections <= progbits_bytes f.
Proof.
  intros H P. unfold get_image_size. cbn [get_elf_sections_headers]. fold (hdrs_fold (elf_shdrs f)).
  apply hdrs_nonempty in H. destruct H as (f' & h0 & d & X & E). injection X as <-. rewrite E, <- E. clear E h0 d.
  rewrite (fold_sum (fun kv => negb (sh_type (snd kv) =? SHT_PROGBITS)) (fun kv => sh_size (snd kv))). rewrite Z.add_0_l.
  unfold progbits_bytes. generalize dependent (elf_shdrs f). intros l P. induction l as [|h l IH] using rev_ind; [reflexivity|].
  assert (P' : forall h0, In h0 l -> 0 <= sh_size h0) by (intros h0 I; apply P, in_or_app; auto). specialize (IH P').
  rewrite filter_app, zsumf_app, hdrs_snoc. cbn [filter]. specialize (P h ltac:(apply in_or_app; simpl; auto)).
  assert (D : forall d : dict str shdr, (forall kv, In kv d -> 0 <= sh_size (snd kv)) -> 
    zsumf (fun kv => sh_size (snd kv)) (filter (fun kv => negb (negb (sh_type (snd kv) =? SHT_PROGBITS))) (dset (sh_name h) h d)) <=
    zsumf (fun kv => sh_size (snd kv)) (filter (fun kv => negb (negb (sh_type (snd kv) =? SHT_PROGBITS))) d) +
    (if sh_type h =? 1 then sh_size h else 0)).
  { induction d as [|[k v] d IHd]; intros Pd; simpl.
    - unfold SHT_PROGBITS. destruct (sh_type h =? 1); simpl; rewrite ?zsumf_cons, ?zsumf_nil; cbn [snd]; lia.
    - destruct (sh_name h =?= k); simpl.
      + unfold SHT_PROGBITS. pose proof (Pd (k, v) ltac:(simpl; auto)) as Pv. cbn [snd] in Pv.
        destruct (sh_type h =? 1), (sh_type v =? 1); simpl; rewrite ?zsumf_cons; cbn [snd]; lia.
      + specialize (IHd ltac:(intros kv I; apply Pd; simpl; auto)).
        destruct (negb (negb (sh_type v =? SHT_PROGBITS))); rewrite ?zsumf_cons; cbn [snd]; lia. }
  assert (Pk : forall kv, In kv (hdrs_fold l) -> 0 <= sh_size (snd kv)).
  { clear -P'. induction l as [|h l IH] using rev_ind; [intros ? []|]. rewrite hdrs_snoc.
    specialize (IH ltac:(intros h0 I; apply P', in_or_app; auto)). destruct (alloc_b h); [|exact IH].
    specialize (P' h ltac:(apply in_or_app; simpl; auto)). revert IH. generalize (hdrs_fold l). intros d. induction d as [|[k v] d IHd]; simpl; intros IH kv.
    - intros [<-|[]]. exact P'.
    - destruct (sh_name h =?= k); simpl; intros [<-|I]; auto; try exact P'. }
  specialize (D _ Pk). destruct (alloc_b h); cbn [andb]; destruct (sh_type h =? 1); rewrite ?zsumf_cons, ?zsumf_nil; lia.
Qed.
