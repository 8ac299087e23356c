(** * The percentages in the summary of a project *)
From Coq Require Import Ascii String List ZArith QArith Lia Bool Permutation Sorted.
From Verif Require Import Base MemMap SpecTree SpecOps Filter SpecFilter Pipeline SpecPipe SpecBuild SpecBytes SpecShape PyStr MapFile SpecMap ElfRead SpecElf Project SpecProject SpecEnd Chips Deps Table SpecTable Formats Main SpecMain Command SpecCommand
  Text Percent SpecPercent SpecReport SpecMerge SpecLayout SpecShare ProofBytes ProofEnd ProofPercent2 ProofTable3 ProofCommand1 ProofCommand3 ProofReport3 ProofReport4 ProofMerge4.
Import ListNotations.
Open Scope list_scope.
Open Scope Z_scope.

(** the figures of a small project are moderate *)
Lemma count_le P n : forall a, count P a n <= Z.of_nat n.
Proof. induction n as [|n IH]; intros a; cbn [count]; [lia|]. specialize (IH (a + 1)). destruct (P a); lia. Qed.
Lemma bytes_le P a n : 0 <= n -> 0 <= bytes_with P a n <= n.
Proof. intros H. split; [apply bytes_nonneg|]. unfold bytes_with. pose proof (count_le P (Z.to_nat n) a). lia. Qed.
Lemma sum_kept {A} (f g : A -> Z) keep l : Forall (fun x => 0 <= f x <= g x) l -> 0 <= zsumf f (filter keep l) <= zsumf g l.
Proof.
  intros F. induction F as [|x l H _ IH]; [cbn; lia|]. change (zsumf g (x :: l)) with (g x + zsumf g l). cbn [filter]. destruct (keep x); [|lia].
  change (zsumf f (x :: filter keep l)) with (f x + zsumf f (filter keep l)). lia.
Qed.
Lemma tiled_sum a b ps : tiles a b ps -> zsumf sr_length ps = b - a.
Proof. intros T. induction T as [a|p b ps T IH]; [cbn; lia|]. change (zsumf sr_length (p :: ps)) with (sr_length p + zsumf sr_length ps). lia. Qed.
Lemma zsumf_app {A} (f : A -> Z) l q : zsumf f (l ++ q) = zsumf f l + zsumf f q.
Proof. unfold zsumf. rewrite map_app. induction (map f l) as [|x r IH]; cbn [app zsum fold_right] in *; [cbn; lia|]. change (zsum (x :: r ++ map f q)) with (x + zsum (r ++ map f q)). change (zsum (x :: r)) with (x + zsum r). lia. Qed.
Lemma parts_sum types rs groups : Forall2 (region_parts types) rs groups -> Forall (fun p => 0 <= sr_length p) (concat groups) /\ zsumf sr_length (concat groups) <= zsumf r_length rs.
Proof.
  intros F. induction F as [|r ps rs groups (stop & T & P & S) _ (IH1 & IH2)]; [split; [constructor|cbn; lia]|]. cbn [concat]. split.
  - apply Forall_app. split; [|exact IH1]. eapply Forall_impl; [|exact P]. intros p H. apply H.
  - rewrite zsumf_app, (tiled_sum _ _ _ T). change (zsumf r_length (r :: rs)) with (r_length r + zsumf r_length rs). lia.
Qed.
Lemma prefixed_sum l : forall p, zsumf (fun br => sr_length (snd br)) (with_prefix p l) = zsumf sr_length l.
Proof. induction l as [|x l IH]; intros p; [reflexivity|]. cbn [with_prefix]. change (sr_length x + zsumf (fun br => sr_length (snd br)) (with_prefix (p ++ [x]) l) = sr_length x + zsumf sr_length l). now rewrite IH. Qed.
Lemma prefixed_in (l : list sregion) : forall p br, In br (with_prefix p l) -> In (snd br) l.
Proof. induction l as [|x l IH]; intros p br I; [destruct I|]. destruct I as [<-|I]; [now left|]. right. exact (IH _ _ I). Qed.
Lemma small_total a T k n : small k -> total_bytes a T k n -> moderate n.
Proof.
  intros (_ & S) (H1 & H2). unfold moderate. destruct (Z.lt_decidable (Z.abs n) (2 ^ 35)) as [D|D]; [exact D|]. exfalso.
  assert (N : ~ lists_type a T k).
  { intros L. destruct (H1 L) as (groups & F & Z0 & Z1). apply parts_sum in F. destruct F as (F1 & F2).
    assert (E : n = 0 \/ n = type_size T (concat groups)).
    { destruct (a_use_flash_size a) eqn:U; [right; apply Z1; intros (X & _); discriminate X|].
      destruct (Z.eq_decidable n 0) as [Y|Y]; [now left|]. right. apply Z1. intros X. apply Y, Z0, X. }
    destruct E as [->| ->]; [apply D; cbn; lia|]. apply D. unfold type_size in *.
    assert (K : 0 <= type_size T (concat groups) <= zsumf sr_length (concat groups)).
    { rewrite <- (prefixed_sum (concat groups) []). apply sum_kept. apply Forall_forall. intros br I. apply prefixed_in in I. rewrite Forall_forall in F1. specialize (F1 _ I). lia. }
    unfold type_size in K. rewrite Z.abs_eq by lia. lia. }
  apply D. rewrite (H2 N). cbn. lia.
Qed.
Definition sized (k : account) : Prop := Forall (fun o => 0 <= pr_size o) (ac_l k).
Lemma small_sum k keep (f : printed -> Z) : small k -> sized k -> (forall o, 0 <= pr_size o -> 0 <= f o <= pr_size o) -> moderate (zsumf f (filter keep (ac_l k))).
Proof.
  intros (S & _) Z H. unfold moderate. pose proof (sum_kept f pr_size keep (ac_l k)) as K. destruct K as (K1 & K2); [eapply Forall_impl; [|exact Z]; cbn; auto|]. rewrite Z.abs_eq by lia. lia.
Qed.
Lemma small_used T k n : small k -> sized k -> used_bytes T k n -> moderate n.
Proof. intros S Z (keep & b & _ & _ & ->). apply small_sum; auto using bytes_le. Qed.
Lemma small_part a T N k n : small k -> sized k -> part_bytes a T N k n -> moderate n.
Proof. unfold part_bytes. intros S Z. destruct (a_unify a); intros (keep & b & _ & _ & ->); apply small_sum; auto using bytes_le. Qed.
Lemma project_sized d a fn k : project_at d a fn k -> sized k.
Proof.
  intros (dir & name & text & crt & _ & Bt & _). eapply Forall_impl; [|apply (printed_nonneg _ _ _ _ (bt_map _ _ _ _ _ _ _ _ _ Bt))]. intros o H. apply H.
Qed.

Definition good (k : account) : Prop := small k /\ sized k.
Definition all_good (k : account) (r : option account) : Prop := good k /\ match r with None => True | Some k' => good k' end.
Lemma small_values k r (f : account -> Z -> Prop) v : (forall q n, good q -> f q n -> moderate n) -> all_good k r -> measured k r f v -> moderate (fst v) /\ moderate (fst v - snd v).
Proof.
  intros H (S & R) (M & D). split; [now apply (H k)|]. destruct r as [k'|].
  - destruct D as (n' & F & ->). replace (fst v - (fst v - n')) with n' by lia. now apply (H k').
  - rewrite D, Z.sub_0_r. now apply (H k).
Qed.

Lemma shares_made a f k r g rs : a_diff f = a_diff a -> all_good k r -> figures_right k r a g -> made (plain_pct python_floats) f g rs -> shares a g rs.
Proof.
  intros Df S G (T & t & ss & -> & ->).
  assert (P : measured k r (used_bytes T) (t_used t, t_used_diff t) /\ (t_size t <> 0 -> measured k r (total_bytes a T) (t_size t, t_size_diff t)) /\
              forall kv, In kv ss -> measured k r (part_bytes a T (fst kv)) (n_size (snd kv), n_diff (snd kv))).
  { unfold figures_right in G. unfold part_bytes. destruct (a_unify a).
    - destruct G as [U _ D _ L]. cbn [pg_type pg_used pg_total pg_sections fst] in *. split; [exact U|]. split; [intros X; apply D; now left|].
      intros kv I. apply (L (fst kv)). apply List.in_map_iff. now exists kv.
    - destruct G as [U _ D _ L]. cbn [pg_type pg_used pg_total pg_sections fst] in *. split; [exact U|]. split; [intros X; apply D; now left|].
      intros kv I. apply (L (fst kv)). apply List.in_map_iff. now exists kv. }
  clear G. destruct P as (U & D & L). eexists. eexists. split; [reflexivity|]. unfold share_cell. cbn [pg_used pg_total pg_sections fst snd]. destruct (t_size t =? 0) eqn:Z0.
  - unfold type_row. rewrite Z0. split; [reflexivity|]. clear L. induction ss as [|kv ss IH]; cbn [map]; constructor; [|exact IH]. unfold sect_row. rewrite Z0. reflexivity.
  - apply Z.eqb_neq in Z0. specialize (D Z0). rewrite <- Df.
    destruct (small_values k r _ _ (fun q n Q X => small_used T q n (proj1 Q) (proj2 Q) X) S U) as (U1 & U2). destruct (small_values k r _ _ (fun q n Q X => small_total a T q n (proj1 Q) X) S D) as (D1 & D2). cbn [fst snd] in *.
    apply Z.eqb_neq in Z0. split.
    + unfold type_row. rewrite Z0. cbn [negb app nth type_usage u_pct u_pct_diff]. now apply cell_ok.
    + induction ss as [|kv ss IH]; cbn [map]; constructor; [|apply IH; intros; apply L; now right].
      destruct (small_values k r _ _ (fun q n Q X => small_part a T (fst kv) q n (proj1 Q) (proj2 Q) X) S (L kv (or_introl eq_refl))) as (L1 & L2). cbn [fst snd] in *.
      unfold sect_row. rewrite Z0. cbn [negb app nth sect_usage u_pct u_pct_diff]. now apply cell_ok.
Qed.

Lemma shares_all a f k r groups rows : a_diff f = a_diff a -> all_good k r -> Forall (figures_right k r a) groups -> Forall2 (made (plain_pct python_floats) f) groups rows -> Forall2 (shares a) groups rows.
Proof.
  intros Df S G M. induction M as [|g rs groups rows M _ IH]; [constructor|]. inversion G as [|? ? G1 G2]; subst. constructor; [|now apply IH]. eapply shares_made; eassumption.
Qed.

Lemma shares_report d c k r o files s render encode ord :
  reported d c k r \/ merged d c k r -> of_types (c_args c) -> a_format (c_args c) = FTable \/ a_format (c_args c) = FText \/ a_format (c_args c) = FCsv ->
  all_small k r ->
  run_files d (get_memory_types chip_info) render encode ord (plain_pct python_floats) c o (start files) = (Done tt, s) ->
  exists tb groups rows, prints (c_args c) s tb /\ tb_rows tb = concat rows /\ Forall2 (figures_rows (c_args c)) groups rows /\
    NoDup (map pg_type groups) /\
    (forall T, In T (map pg_type groups) <-> present k r (lists_type (c_args c) T) /\ exists v, measured k r (used_bytes T) v /\ differs (c_args c) v) /\
    Forall (figures_right k r (c_args c)) groups /\ Forall2 (shares (c_args c)) groups rows.
Proof.
  intros Rp (Ta & Td & Tp & Tf) Fo Sm0 R.
  assert (Sm : all_good k r).
  { assert (Pr : project_at d (c_args c) (c_input c) k /\ reference d (c_args c) r) by (destruct Rp as [(P1 & P2 & _)|(P1 & P2 & _)]; now split).
    destruct Pr as (P1 & P2), Sm0 as (S1 & S2). split; [split; [exact S1|eapply project_sized; exact P1]|]. destruct r as [k'|]; [|exact Logic.I]. destruct P2 as (fn & _ & P2). split; [exact S2|eapply project_sized; exact P2]. }
  assert (Go : forall tb groups rows, a_archive_dependencies (c_args c) = false -> prints (c_args c) s tb -> tb_rows tb = concat rows -> Forall2 (figures_rows (c_args c)) groups rows ->
    NoDup (map pg_type groups) ->
    (forall T, In T (map pg_type groups) <-> present k r (lists_type (c_args c) T) /\ exists v, measured k r (used_bytes T) v /\ differs (c_args c) v) ->
    Forall (figures_right k r (c_args c)) groups -> Forall2 (made (plain_pct python_floats) (final_args (c_args c))) groups rows ->
    exists tb groups rows, prints (c_args c) s tb /\ tb_rows tb = concat rows /\ Forall2 (figures_rows (c_args c)) groups rows /\
    NoDup (map pg_type groups) /\
    (forall T, In T (map pg_type groups) <-> present k r (lists_type (c_args c) T) /\ exists v, measured k r (used_bytes T) v /\ differs (c_args c) v) /\
    Forall (figures_right k r (c_args c)) groups /\ Forall2 (shares (c_args c)) groups rows).
  { intros tb groups rows Ad P E G N L Gr M. exists tb, groups, rows. do 6 (split; [assumption|]). apply (shares_all _ (final_args (c_args c)) k r); [|exact Sm|exact Gr|exact M].
    cbn. unfold conflict_diff. now rewrite Ad. }
  destruct Rp as [Rp|Rp]; pose proof Rp as (_ & _ & Au & Ad).
  - destruct (shown_map _ _ _ _ _ _ _ _ _ _ _ Rp (fun X => ltac:(congruence)) (fun X => ltac:(rewrite X in Fo; destruct Fo as [?|[?|?]]; discriminate)) R) as (M & x & s1 & s2 & fu & fn & fo & F & _ & Xp & P1 & Sh & P2 & N2).
    destruct (prints_done x M (c_args c) o s1 s2 s Sh P1 P2 N2 Fo) as (tb & t & t' & E & Pr & Im).
    unfold table_of in E. cbn [final_args set_use_dwarf set_abbrev without_conflicts a_archives a_archive_details a_archive_dependencies a_files] in E. rewrite Ta, Td, Tp, Tf in E.
    apply table_done in E. destruct E as (E & _). rewrite Xp in E. destruct (summary_report_rows _ _ _ _ _ _ _ _ _ F Au Ad E) as (i & groups & rows & H1 & H2 & H3 & H4 & H5 & H6 & H7 & H8 & H9 & H10).
    apply (Go tb groups rows); try assumption.
    + unfold figures_rows. rewrite Au. exact H3.
    + unfold figures_right. rewrite Au. exact H6.
  - destruct (shown_merged _ _ _ _ _ _ _ _ _ _ _ Rp (fun X => ltac:(congruence)) (fun X => ltac:(rewrite X in Fo; destruct Fo as [?|[?|?]]; discriminate)) R) as (M & x & s1 & s2 & fu & fn & fo & F & _ & Xp & P1 & Sh & P2 & N2).
    destruct (prints_done x M (c_args c) o s1 s2 s Sh P1 P2 N2 Fo) as (tb & t & t' & E & Pr & Im).
    unfold table_of in E. cbn [final_args set_use_dwarf set_abbrev without_conflicts a_archives a_archive_details a_archive_dependencies a_files] in E. rewrite Ta, Td, Tp, Tf in E.
    apply table_done in E. destruct E as (E & _). rewrite Xp in E. destruct (merged_summary_rows _ _ _ _ _ _ _ _ _ F Au Ad E) as (i & groups & rows & H1 & H2 & H3 & H4 & H5 & H6 & H7 & H8 & H9 & H10).
    apply (Go tb groups rows); try assumption.
    + unfold figures_rows. rewrite Au. exact H3.
    + unfold figures_right. rewrite Au. exact H6.
Qed.
