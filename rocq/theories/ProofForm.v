(** * A report in two formats *)
From Coq Require Import Ascii String List ZArith Lia Bool Permutation Sorted.
From Verif Require Import Base MemMap SpecTree SpecOps Filter SpecFilter Pipeline SpecPipe SpecBuild SpecBytes SpecShape PyStr MapFile SpecMap ProofBytes3
  ElfRead SpecElf Project SpecProject SpecEnd Chips SpecChips Deps Table SpecTable Formats Main SpecMain Command SpecCommand SpecFail SpecReport ProofDwarf4 ProofCommand3 ProofReport5 ProofReport6
  SpecSyms SpecSymbols ProofSymbols4 ProofSymbols5 SpecAdds ProofAdds SpecSteps ProofSteps ProofTiles SpecMoved ProofMoved SpecForm.
Import ListNotations.
Open Scope list_scope.
Open Scope Z_scope.

Lemma choose_pairs {A B} (R : A -> B -> Prop) l : (forall x, In x l -> exists y, R x y) -> exists l', Forall2 R l l'.
Proof.
  induction l as [|x l IH]; intros H; [exists []; constructor|]. destruct (H x (or_introl eq_refl)) as (y & Y). destruct IH as (l' & F); [intros z I; apply H; now right|].
  exists (y :: l'). now constructor.
Qed.
Lemma pairs_map {A B} (R : A -> B -> Prop) (f : A -> str) (g : B -> str) l l' : Forall2 R l l' -> (forall x y, R x y -> g y = f x) -> map g l' = map f l.
Proof. induction 1 as [|x y l l' Rxy _ IH]; intros H; [reflexivity|]. cbn [map]. f_equal; [now apply H|now apply IH]. Qed.
Lemma pairs_through {A B C} (R : A -> B -> Prop) (S : A -> C -> Prop) (T : B -> C -> Prop) l l' l'' :
  Forall2 R l l' -> Forall2 S l l'' -> (forall x y z, In x l -> R x y -> S x z -> T y z) -> Forall2 T l' l''.
Proof.
  intros F. revert l''. induction F as [|x y l l' Rxy _ IH]; intros l'' G H; inversion G; subst; constructor; [eapply H; [now left|exact Rxy|assumption]|].
  apply IH; [assumption|]. intros u v w I. apply H. now right.
Qed.
Lemma pairs_weaken {A B} (R S : A -> B -> Prop) l l' : Forall2 R l l' -> (forall x y, In x l -> R x y -> S x y) -> Forall2 S l l'.
Proof. induction 1 as [|x y l l' Rxy _ IH]; intros H; constructor; [apply H; [now left|exact Rxy]|]. apply IH. intros u v I. apply H. now right. Qed.

(** ** columns *)
Lemma columns_in groups c : In c (columns groups) <->
  match c with ColTotal => True | ColType T => In T (map fst groups) | ColSect T N => exists Ns, In (T, Ns) groups /\ In N Ns end.
Proof.
  unfold columns. cbn [In]. rewrite in_flat_map. destruct c as [|T|T N].
  - split; [trivial|now left].
  - split.
    + intros [[=]|((T0 & Ns) & I & H)]. cbn [fst snd In] in H. destruct H as [[= <-]|H]; [exact (List.in_map fst _ _ I)|]. apply List.in_map_iff in H. destruct H as (N & [=] & _).
    + intros I. right. apply List.in_map_iff in I. destruct I as ((T0 & Ns) & E & I). cbn [fst] in E. subst T0. exists (T, Ns). split; [exact I|now left].
  - split.
    + intros [[=]|((T0 & Ns) & I & H)]. cbn [fst snd In] in H. destruct H as [[=]|H]. apply List.in_map_iff in H. destruct H as (N0 & [= -> ->] & J). exists Ns. now split.
    + intros (Ns & I & J). right. exists (T, Ns). split; [exact I|]. right. apply List.in_map. exact J.
Qed.
Lemma columns_once groups : NoDup (map fst groups) -> (forall T Ns, In (T, Ns) groups -> NoDup Ns) -> NoDup (columns groups).
Proof.
  intros N H. unfold columns. constructor.
  - rewrite in_flat_map. intros ((T & Ns) & _ & [[=]|X]). apply List.in_map_iff in X. now destruct X as (? & [=] & _).
  - induction groups as [|(T & Ns) groups IH]; [constructor|]. cbn [map fst] in N. inversion N as [|? ? A B]; subst. cbn [flat_map fst snd app].
    assert (Rest : forall c, In c (flat_map (fun g : str * list str => ColType (fst g) :: map (ColSect (fst g)) (snd g)) groups) -> match c with ColTotal => False | ColType U => U <> T | ColSect U _ => U <> T end).
    { intros c I. apply in_flat_map in I. destruct I as ((U & Ms) & I & X). cbn [fst snd In] in X. assert (U <> T) by (intros ->; apply A; exact (List.in_map fst _ _ I)).
      destruct X as [<-|X]; [assumption|]. apply List.in_map_iff in X. destruct X as (M & <- & _). assumption. }
    constructor.
    + rewrite in_app_iff. intros [X|X]; [apply List.in_map_iff in X; now destruct X as (? & [=] & _)|]. exact (Rest _ X eq_refl).
    + specialize (IH B (fun U Ms I => H U Ms (or_intror I))). specialize (H T Ns (or_introl eq_refl)). revert H. induction Ns as [|M Ns IHn]; intros H; [exact IH|].
      inversion H as [|? ? A1 B1]; subst. cbn [map app]. constructor; [|now apply IHn]. rewrite in_app_iff. intros [X|X]; [apply List.in_map_iff in X; destruct X as (M0 & [= ->] & J); now apply A1|]. exact (Rest _ X eq_refl).
Qed.
Lemma columns_entry k r a a' groups own e c : a_show_unused a' = a_show_unused a -> columns_right k r a' groups -> entry_right k r a own e -> In c (columns groups) <-> has_col e c.
Proof.
  intros U (N & T1 & S1) [H1 H2 H3 H4 H5 H6 H7 H8]. rewrite columns_in.
  assert (L : forall T, present k r (lists_type a' T) <-> present k r (lists_type a T)) by (intros T; unfold present, lists_type, listed_type; rewrite U; destruct r; reflexivity).
  destruct c as [|T|T M]; cbn [has_col]; [reflexivity|now rewrite T1, L, H3|]. split.
  - intros (Ns & I & J). assert (X : In T (map fst (se_types e))) by (apply H3, L, T1; exact (List.in_map fst _ _ I)). apply List.in_map_iff in X. destruct X as ((T0 & st) & E & X). cbn [fst] in E. subst T0.
    exists st. split; [exact X|]. apply (H6 T st M X). now apply (S1 T Ns I).
  - intros (st & X & J). assert (I : In T (map fst groups)) by (apply T1, L, H3; exact (List.in_map fst _ _ X)). apply List.in_map_iff in I. destruct I as ((T0 & Ns) & E & I). cbn [fst] in E. subst T0.
    exists Ns. split; [exact I|]. apply (S1 T Ns I). now apply (H6 T st M X).
Qed.
Lemma has_listed k r a own e c : entry_right k r a own e -> has_col e c -> listed k r a c.
Proof.
  intros [H1 H2 H3 H4 H5 H6 H7 H8]. destruct c as [|T|T N]; cbn [has_col listed]; [trivial|now rewrite H3|].
  intros (st & I & J). split; [apply H3; exact (List.in_map fst _ _ I)|now apply (H6 T st N I)].
Qed.

(** ** a table and the JSON entries *)
Section Form.
Variables (k : account) (r : option account) (a a' : args) (ps : option (list (list SpecFilter.piece))).
Variables (there : item -> Prop) (key : item -> str) (own : item -> item -> bool) (name : item -> str -> Prop).
Hypothesis Key_own : forall i j, there i -> there j -> key i = key j -> own i = own j.
Hypothesis Key_name : forall i j s s', there i -> there j -> key i = key j -> name i s -> name j s' -> s = s'.
Variable rows : dict str sentry.
Hypothesis Nd : NoDup (map fst rows).
Hypothesis Ks : forall n, In n (map fst rows) <-> exists i v, there i /\ n = key i /\ measured k r (own_bytes (own i) ColTotal) v /\ differs a v.
Hypothesis Es : forall n e, In (n, e) rows -> exists i, there i /\ n = key i /\ name i (se_abbrev e) /\ entry_right k r a (own i) e.
Hypothesis Unused : a_show_unused a' = a_show_unused a.
Hypothesis Diff : forall v, differs a' v <-> differs a v.
Definition named (i : item) (s : str) : Prop := if a_no_abbrev a' then s = key i else name i s.
Variable is : list item.
Hypothesis Ni : NoDup (map key is).
Hypothesis Ti : Forall there is.
Hypothesis Ki : forall n, In n (map key is) <-> exists i v s, there i /\ n = key i /\ measured k r (own_bytes (own i) ColTotal) v /\ differs a' v /\ named i s /\ selected ps s.
Variable tb : table.
Variable first : str.
Hypothesis Empty : is = [] -> tb_headers tb = [first; list_ascii_of_string "Total Size"] /\ tb_rows tb = [].
Hypothesis Full : is <> [] -> exists groups titles, columns_right k r a' groups /\ tb_headers tb = first :: titles /\ Forall2 (column_title a') (columns groups) titles /\
  Forall2 (fun i row => exists s cells, row = s :: cells /\ named i s /\
    Forall2 (fun c s => exists v, measured k r (own_bytes (own i) c) v /\ cell_text (given (a_diff a')) v s) (columns groups) cells) is (tb_rows tb).

Lemma entry_named n e i : In (n, e) rows -> there i -> n = key i -> forall s, named i s -> s = entry_name a' (n, e).
Proof.
  intros I T E s Nm. destruct (Es n e I) as (j & Tj & Ej & Nj & _). unfold named, entry_name in *. cbn [fst snd]. destruct (a_no_abbrev a'); [congruence|].
  apply (Key_name i j s _ T Tj); [congruence|exact Nm|exact Nj].
Qed.
Lemma entry_is_named n e : In (n, e) rows -> exists i, there i /\ n = key i /\ named i (entry_name a' (n, e)).
Proof.
  intros I. destruct (Es n e I) as (j & Tj & Ej & Nj & _). exists j. split; [exact Tj|]. split; [exact Ej|]. unfold named, entry_name. cbn [fst snd]. now destruct (a_no_abbrev a').
Qed.
Lemma form_shows : shows_entries a' ps first rows tb.
Proof.
  rewrite Forall_forall in Ti.
  destruct (choose_pairs (fun i x => In x rows /\ fst x = key i) is) as (es & F).
  { intros i I. assert (X : In (key i) (map fst rows)). { apply Ks. destruct (proj1 (Ki (key i)) (List.in_map key _ _ I)) as (j & v & s & Tj & Ej & M & D & _). exists j, v. split; [exact Tj|]. split; [exact Ej|]. split; [exact M|now apply Diff]. }
    apply List.in_map_iff in X. destruct X as (x & E & X). exists x. now split. }
  assert (Em : map fst es = map key is) by (apply (pairs_map _ key fst _ _ F); intros i x H; apply H).
  exists es. split; [now rewrite Em|]. split; [|split].
  - intros (n & e). split.
    + intros I. destruct (Forall2_In_r _ _ _ _ F I) as (i & Ii & X & E). cbn [fst] in E. split; [exact X|].
      destruct (proj1 (Ki (key i)) (List.in_map key _ _ Ii)) as (j & v & s & Tj & Ej & _ & _ & Nm & Sl). rewrite <- (entry_named n e j X Tj ltac:(congruence) s Nm). exact Sl.
    + intros (X & Sl). destruct (entry_is_named n e X) as (i & T & E & Nm).
      assert (In n (map key is)).
      { apply Ki. destruct (proj1 (Ks n) (List.in_map fst _ _ X)) as (j & v & Tj & Ej & M & D). exists i, v, (entry_name a' (n, e)). split; [exact T|]. split; [exact E|].
        rewrite (Key_own i j T Tj) by congruence. split; [exact M|]. split; [now apply Diff|]. now split. }
      rewrite <- Em in H. apply List.in_map_iff in H. destruct H as ((n' & e') & E' & I). cbn [fst] in E'. subst n'.
      destruct (Forall2_In_r _ _ _ _ F I) as (i' & _ & X' & _). now rewrite (dict_value rows n e e' Nd X X').
  - intros ->. apply Empty. inversion F. reflexivity.
  - intros Ne. destruct Full as (groups & titles & Cr & Hd & Ct & Rw); [intros ->; apply Ne; inversion F; reflexivity|]. exists (columns groups), titles.
    split; [apply columns_once; [apply Cr|]; intros T Ns I; now apply (proj2 (proj2 Cr) T Ns I)|]. split; [|split; [exact Hd|split; [exact Ct|]]].
    + intros (n & e) c I. destruct (Forall2_In_r _ _ _ _ F I) as (i & _ & X & _). destruct (Es n e X) as (j & _ & _ & _ & Er). cbn [snd]. exact (columns_entry _ _ _ _ _ _ _ c Unused Cr Er).
    + apply (pairs_through _ _ _ _ _ _ F Rw). intros i (n & e) row Ii (X & E) (s & cells & -> & Nm & Fc). cbn [fst] in E. exists cells. split; [f_equal; exact (entry_named n e i X (Ti i Ii) E s Nm)|].
      apply (pairs_weaken _ _ _ _ Fc). intros c t Ic (v & M & C). cbn [snd]. destruct (Es n e X) as (j & Tj & Ej & _ & Er).
      assert (L : listed k r a c) by (apply (has_listed _ _ _ _ _ _ Er), (columns_entry _ _ _ _ _ _ _ c Unused Cr Er), Ic).
      rewrite <- (measured_same (own i) c k r v (col_value e c) M); [exact C|]. rewrite (Key_own i j (Ti i Ii) Tj) by congruence. now apply (row_value _ _ _ _ _ c Er).
Qed.
End Form.

Lemma differs_form c c' v : other_form c c' -> differs (c_args c') v <-> differs (c_args c) v.
Proof. intros (_ & _ & _ & _ & _ & D & _ & _ & U & _). unfold differs. now rewrite D, U. Qed.
Lemma project_form d c c' fn k : other_form c c' -> project_at d (c_args c) fn k -> project_at d (c_args c') fn k.
Proof.
  intros (_ & A & _ & _ & F & _ & _ & S & _ & W) (dir & name & text & crt & E & B & Dw & Fi). exists dir, name, text, crt. split; [exact E|]. split; [exact B|]. unfold without_dwarf in *. rewrite A, F, S, W. now split.
Qed.
Lemma reported_form d c c' k r : other_form c c' -> reported d c k r -> reported d c' k r.
Proof.
  intros O (P & R & U & A). pose proof O as (I & _ & Ad & _ & _ & D & Un & _). split; [rewrite I; exact (project_form _ _ _ _ _ O P)|]. split; [|now rewrite Un, Ad].
  destruct r as [k'|]; cbn [reference] in *; rewrite D; [|exact R]. destruct R as (fn & E & Q). exists fn. split; [exact E|]. exact (project_form _ _ _ _ _ O Q).
Qed.
Lemma entries_form files d c c' k r ps o o' fs fs' s s' render encode ord pf :
  reported d c k r -> other_form c c' -> asked files (c_args c) -> (given (a_archive_details (c_args c)) = true -> a_use_dwarf (c_args c) <> Some true) ->
  tells_files files k r -> a_format (c_args c) = FJson2 ->
  asked_filter (c_args c') ps -> a_format (c_args c') = FTable \/ a_format (c_args c') = FText \/ a_format (c_args c') = FCsv ->
  run_files d (get_memory_types chip_info) render encode ord pf c o (start fs) = (Done tt, s) ->
  run_files d (get_memory_types chip_info) render encode ord pf c' o' (start fs') = (Done tt, s') ->
  exists rows tb, s_printed s = [PEntries rows] /\ prints (c_args c') s' tb /\
    shows_entries (c_args c') ps (list_ascii_of_string (if files then "Object File" else "Archive File")) rows tb.
Proof.
  intros Rp O As Dw Tf Fo Af Ft R R'. pose proof (reported_form _ _ _ _ _ O Rp) as Rp'.
  assert (As' : asked files (c_args c')). { destruct O as (_ & A & _ & D & F & _). unfold asked in *. rewrite A, D, F. exact As. }
  assert (Dw' : given (a_archive_details (c_args c')) = true -> a_use_dwarf (c_args c') <> Some true). { destruct O as (_ & _ & _ & D & _ & _ & _ & _ & _ & W). rewrite D, W. exact Dw. }
  destruct (entries_json d c k r o files fs s render encode ord pf Rp As Dw Tf Fo R) as (rows & P & (Nd & Ks & Es) & _).
  destruct (entries_table_report d c' k r o' files ps fs' s' render encode ord pf Rp' As' Dw' Tf Af Ft R') as (tb & is & P' & (Ni & Ti & Ki) & Em & Fu).
  exists rows, tb. split; [exact P|]. split; [exact P'|].
  assert (Tj : forall i j, present k r (places i) -> present k r (places j) -> files = true -> ~ In ":"%char (it_object i) /\ ~ In ":"%char (it_object j)) by (intros i j Pi Pj F; split; now apply (Tf F)).
  apply (form_shows k r (c_args c) (c_args c') ps (fun i => present k r (places i)) (row_key files) (row_own files) (fun i b => after_last "/"%char (row_file files i) b)) with (is := is); try assumption.
  - intros i j Pi Pj E. exact (key_own files i j (Tj i j Pi Pj) E).
  - intros i j b b' Pi Pj E. rewrite (key_names files i j (Tj i j Pi Pj) E). apply after_last_unique.
  - apply O.
  - intros v. now apply differs_form.
  - intros Ne. destruct (Fu Ne) as (groups & titles & _ & _ & Cr & Hd & Ct & Rw & _). exists groups, titles. split; [exact Cr|]. split; [exact Hd|]. now split.
Qed.

Lemma symbols_form x d c c' q r ps o o' fs fs' s s' render encode ord pf :
  symbols_reported d c q r -> other_form c c' -> asked_symbols (c_args c) x -> tells_symbols q r -> a_format (c_args c) = FJson2 ->
  asked_filter (c_args c') ps -> a_format (c_args c') = FTable \/ a_format (c_args c') = FText \/ a_format (c_args c') = FCsv ->
  run_files d (get_memory_types chip_info) render encode ord pf c o (start fs) = (Done tt, s) ->
  run_files d (get_memory_types chip_info) render encode ord pf c' o' (start fs') = (Done tt, s') ->
  exists rows tb, s_printed s = [PEntries rows] /\ prints (c_args c') s' tb /\ shows_entries (c_args c') ps (list_ascii_of_string "Symbol") rows tb.
Proof.
  intros Rp O As Ts Fo Af Ft R R'.
  assert (Rp' : symbols_reported d c' q r).
  { destruct Rp as (P & Rf & U & A). pose proof O as (I & _ & Ad & _ & _ & D & Un & S & _ & W). 
    assert (Sp : forall fn z, symbols_project d (c_args c) fn z -> symbols_project d (c_args c') fn z) by (intros fn z; unfold symbols_project; rewrite S, W; trivial).
    split; [rewrite I; now apply Sp|]. split; [|now rewrite Un, Ad]. rewrite D. destruct r as [z|]; [|exact Rf]. destruct Rf as (fn & E & Q). exists fn. split; [exact E|now apply Sp]. }
  assert (As' : asked_symbols (c_args c') x). { destruct O as (_ & A & _ & D & _). unfold asked_symbols in *. rewrite A, D. exact As. }
  destruct (symbols_json d c x q r o fs s render encode ord pf Rp As Ts Fo R) as (rows & P & _ & (Nd & Ks & Es) & _).
  destruct (symbols_table_report d c' x q r o' ps fs' s' render encode ord pf Rp' As' Ts Af Ft R') as (tb & is & P' & _ & (Ni & Ti & Ki) & Em & Fu).
  exists rows, tb. split; [exact P|]. split; [exact P'|].
  assert (Sm : forall i j, symbol_of x q r i -> symbol_of x q r j -> symbol_key i = symbol_key j -> it_archive i = it_archive j /\ it_object i = it_object j /\ it_name i = it_name j).
  { intros i j (Pi & _) (Pj & _) E. exact (same_symbol q r Ts i j Pi Pj E). }
  assert (Sh : forall i t, symbol_shown (c_args c') i t <-> named (c_args c') symbol_key (fun i b => b = it_name i) i t) by (intros i t; unfold symbol_shown, named; destruct (a_no_abbrev _); reflexivity).
  apply (form_shows q r (c_args c) (c_args c') ps (symbol_of x q r) symbol_key of_symbol (fun i b => b = it_name i)) with (is := is); try assumption.
  - intros i j Pi Pj E. destruct (Sm i j Pi Pj E) as (A & B & C). unfold of_symbol. now rewrite A, B, C.
  - intros i j b b' Pi Pj E -> ->. now destruct (Sm i j Pi Pj E) as (_ & _ & C).
  - apply O.
  - intros v. now apply differs_form.
  - intros n. rewrite Ki. split; intros (i & v & t & A & B & C & D & E & F); exists i, v, t; apply Sh in E; tauto.
  - intros Ne. destruct (Fu Ne) as (groups & titles & _ & _ & Cr & Hd & Ct & Rw & _). exists groups, titles. split; [exact Cr|]. split; [exact Hd|]. split; [exact Ct|].
    apply (pairs_weaken _ _ _ _ Rw). intros i row _ (t & cells & E & N & F). exists t, cells. split; [exact E|]. split; [now apply Sh|exact F].
Qed.
