From Coq Require Import Ascii String List ZArith Lia Bool Permutation Sorted.
From Verif Require Import Base MemMap SpecTree Pipeline SpecPipe SpecBuild ProofArch ProofTypes.
Import ListNotations.
Open Scope list_scope.
Open Scope Z_scope.

Definition skel (c : slot) : slot := (fst c, set_symbols (snd c) []).
Definition send (c : slot) : Z := i_addr (snd c) + i_size (snd c).

Lemma skel_add c y : skel (add_symbol c y) = skel c.
Proof. reflexivity. Qed.
Lemma skel_close c : skel (close_slot c) = skel c.
Proof. unfold close_slot. destruct (i_symbols (snd c)); reflexivity. Qed.

Lemma skel_fields c d : skel c = skel d -> i_addr (snd c) = i_addr (snd d) /\ i_size (snd c) = i_size (snd d).
Proof. unfold skel, set_symbols. intros E. injection E as _ _ H1 H2 _ _ _. auto. Qed.

Definition open (i : isection) (g : list elfsym) : Prop := Forall (sym_inside i) g /\ i_symbols i = map shown g.

Definition ok_state (L0 : list slot) (ys : list elfsym) (v : option Z) (st : slot * list slot * list slot) : Prop :=
  let '(cur, rest, done) := st in
  map skel (done ++ cur :: rest) = L0 /\
  Forall (fun c => i_symbols (snd c) <> []) done /\
  Forall (fun c => match v with Some z => send c <= z | None => False end) done /\
  Forall (fun c => i_symbols (snd c) = []) rest /\
  exists G g skipped,
    Forall2 (fun c g => lists (snd c) g) done G /\ open (snd cur) g /\
    Permutation (concat G ++ g ++ skipped) ys /\
    Forall (fun y => Forall (fun c => ~ starts_in (snd c) y) L0) skipped.

Lemma close_lists c g : open (snd c) g -> lists (snd (close_slot c)) g.
Proof.
  intros [H1 H2]. unfold close_slot. destruct (i_symbols (snd c)) as [|y ys] eqn:E.
  - destruct g; [|discriminate H2]. split; [constructor|]. right. split; [reflexivity|].
    cbn [add_symbol snd set_symbols i_symbols i_name i_addr i_size]. rewrite E. reflexivity.
  - split; [assumption|]. left. rewrite E. exact H2.
Qed.

Lemma close_nonempty c : i_symbols (snd (close_slot c)) <> [].
Proof. unfold close_slot. destruct (i_symbols (snd c)) eqn:E; [|congruence]. cbn. rewrite E. discriminate. Qed.

Lemma ok_up L0 ys v z st : (match v with Some w => w <= z | None => True end) ->
  ok_state L0 ys v st -> ok_state L0 ys (Some z) st.
Proof.
  destruct st as [[cur rest] done]. intros Hw (H1 & H2 & H3 & H4). split; [exact H1|]. split; [exact H2|]. split; [|exact H4].
  eapply Forall_impl; [|exact H3]. intros c Hc. destruct v; [lia|contradiction].
Qed.

Lemma advance_ok L0 ys z : forall rest cur done st',
  ok_state L0 ys (Some z) (cur, rest, done) ->
  advance z cur rest done = Ok st' ->
  ok_state L0 ys (Some z) st' /\ let '(cur', _, _) := st' in z < send cur'.
Proof.
  induction rest as [|nxt rest IH]; intros cur done st' H E; cbn [advance] in E.
  - destruct (Z.leb_spec (i_addr (snd cur) + i_size (snd cur)) z); [discriminate E|]. injection E as <-.
    split; [exact H|unfold send; lia].
  - destruct (Z.leb_spec (i_addr (snd cur) + i_size (snd cur)) z) as [L|L].
    + apply IH in E; [exact E|]. destruct H as (H1 & H2 & H3 & H4 & G & g & sk & H5 & H6 & H7 & H8).
      inversion H4 as [|? ? Hn Hr]; subst.
      split; [|split; [|split; [|split]]].
      * rewrite <- app_assoc. cbn [app]. rewrite !map_app. cbn [map]. rewrite skel_close. reflexivity.
      * apply Forall_app. split; [exact H2|]. constructor; [apply close_nonempty|constructor].
      * apply Forall_app. split; [exact H3|]. constructor; [|constructor]. unfold send.
        destruct (skel_fields (close_slot cur) cur (skel_close cur)) as [-> ->]. exact L.
      * exact Hr.
      * exists (G ++ [g]), [], sk. split; [|split; [|split; [|exact H8]]].
        -- apply Forall2_app; [exact H5|]. constructor; [apply close_lists, H6|constructor].
        -- split; [constructor|exact Hn].
        -- rewrite concat_app. cbn [concat app]. rewrite app_nil_r, <- app_assoc. exact H7.
    + injection E as <-. split; [exact H|unfold send; lia].
Qed.

Lemma sorted_app_tail {A} (R : A -> A -> Prop) l1 x l2 : StronglySorted R (l1 ++ x :: l2) -> Forall (R x) l2.
Proof.
  induction l1 as [|y l1 IH]; intros H; inversion H; subst; [assumption|]. apply IH. assumption.
Qed.

Lemma place_ok L0 ys y st st' :
  StronglySorted (ordered (fun c : slot => i_addr (snd c)) false) L0 ->
  ok_state L0 ys (Some (st_value y)) st -> place_symbol st y = Ok st' ->
  ok_state L0 (ys ++ [y]) (Some (st_value y)) st' /\ let '(cur, _, _) := st' in st_value y < send cur.
Proof.
  intros So H E. destruct st as [[cur rest] done]. unfold place_symbol in E.
  destruct (advance (st_value y) cur rest done) as [[[cur1 rest1] done1]|] eqn:A; cbn [bind] in E; [|discriminate E].
  destruct (advance_ok _ _ _ _ _ _ _ H A) as [(H1 & H2 & H3 & H4 & G & g & sk & H5 & H6 & H7 & H8) Hc].
  destruct (Z.ltb_spec (i_addr (snd cur1) + i_size (snd cur1)) (st_value y + st_symsize y)) as [|Fit]; [discriminate E|].
  destruct (Z.ltb_spec (st_value y) (i_addr (snd cur1))) as [Lo|Hi]; injection E as <-.
  - split; [|exact Hc]. split; [exact H1|]. split; [exact H2|]. split; [exact H3|]. split; [exact H4|].
    exists G, g, (sk ++ [y]). split; [exact H5|]. split; [exact H6|]. split.
    + rewrite !app_assoc. apply Permutation_app_tail. rewrite <- app_assoc. exact H7.
    + apply Forall_app. split; [exact H8|]. constructor; [|constructor]. rewrite <- H1. rewrite map_app. cbn [map].
      apply Forall_app. split; [|constructor].
      * apply Forall_map. eapply Forall_impl; [|exact H3]. intros c Hd. cbv beta in *. unfold starts_in, send in *. cbn [skel snd set_symbols i_addr i_size]. lia.
      * unfold starts_in. cbn [skel snd set_symbols i_addr i_size]. lia.
      * rewrite <- H1, map_app in So. cbn [map] in So. apply sorted_app_tail in So. apply Forall_map. rewrite Forall_map in So.
        eapply Forall_impl; [|exact So]. intros c O. unfold ordered, starts_in in *. cbn [skel snd set_symbols i_addr i_size] in *. lia.
  - split; [|exact Hc]. split; [|split; [exact H2|split; [exact H3|split; [exact H4|]]]].
    + rewrite map_app in *. cbn [map] in *. rewrite skel_add. exact H1.
    + exists G, (g ++ [y]), sk. split; [exact H5|]. split; [|split; [|exact H8]].
      * destruct H6 as [Fi Fs]. split.
        -- apply Forall_app. split; [exact Fi|]. constructor; [|constructor]. unfold sym_inside, send in *. cbn. lia.
        -- cbn [add_symbol snd set_symbols i_symbols]. rewrite map_app, Fs. reflexivity.
      * etransitivity; [|apply Permutation_app_tail; exact H7]. rewrite <- !app_assoc.
        apply Permutation_app_head. apply Permutation_app_head. apply (Permutation_app_comm [y]).
Qed.

Lemma fold_ok L0 : StronglySorted (ordered (fun c : slot => i_addr (snd c)) false) L0 ->
  forall zs ys v st st', StronglySorted (ordered st_value false) zs ->
  (forall z, In z zs -> match v with Some w => w <= st_value z | None => True end) ->
  ok_state L0 ys v st -> foldM place_symbol st zs = Ok st' ->
  exists w, (w = v \/ exists z, In z zs /\ w = Some (st_value z)) /\ ok_state L0 (ys ++ zs) w st' /\
    let '(cur, _, _) := st' in forall z, In z zs -> st_value z < send cur.
Proof.
  intros So zs. induction zs as [|z zs IH]; intros ys v st st' Sz Hv H E; cbn [foldM] in E.
  - injection E as <-. exists v. rewrite app_nil_r. split; [auto|]. split; [exact H|]. destruct st as [[cur rest] done]. intros z [].
  - inversion Sz as [|? ? Sz' Fz]; subst. destruct (place_symbol st z) as [st1|] eqn:P; cbn [bind] in E; [|discriminate E].
    destruct (place_ok L0 ys z st st1 So) as [H1 Hc]; [eapply ok_up; [|exact H]; apply Hv; simpl; auto|exact P|].
    destruct (IH (ys ++ [z]) (Some (st_value z)) st1 st' Sz') as (w & Hw & H2 & H3); [|exact H1|exact E|].
    + intros z' I. rewrite Forall_forall in Fz. apply (Fz z' I).
    + exists w. rewrite <- app_assoc in H2. split; [destruct Hw as [->|(z' & I & ->)]; right; [exists z|exists z']; simpl; auto|]. split; [exact H2|]. destruct st' as [[cur' rest'] done'].
      intros z' [<-|I]; [|auto]. destruct zs as [|z2 zs].
      * cbn [foldM] in E. injection E as ->. exact Hc.
      * specialize (H3 z2 ltac:(simpl; auto)). rewrite Forall_forall in Fz. specialize (Fz z2 ltac:(simpl; auto)).
        unfold ordered in Fz. lia.
Qed.

(** ** putting the symbols back *)

Definition syms_at (d : dict nat (list symbol)) (k : nat) : list symbol := match dget k d with Some ys => ys | None => [] end.

Lemma put_isecs_app n l m d : put_isecs n (l ++ m) d = put_isecs n l d ++ put_isecs (n + length l) m d.
Proof.
  revert n. induction l as [|i l IH]; intros n; simpl; [rewrite PeanoNat.Nat.add_0_r; reflexivity|].
  rewrite IH. simpl. rewrite PeanoNat.Nat.add_succ_r. reflexivity.
Qed.

Lemma put_symbols_isecs d : forall sections n, all_isecs (put_symbols n sections d) = put_isecs n (all_isecs sections) d.
Proof.
  induction sections as [|s l IH]; intros n; [reflexivity|]. unfold all_isecs in *. cbn [put_symbols flat_map set_isecs o_isecs].
  rewrite IH, put_isecs_app. reflexivity.
Qed.

Lemma put_isecs_same n l d : Forall2 same_isec l (put_isecs n l d).
Proof. revert n. induction l as [|i l IH]; intros n; simpl; constructor; [repeat split|apply IH]. Qed.

Lemma put_symbols_same d : forall sections n, Forall2 same_osec sections (put_symbols n sections d).
Proof.
  induction sections as [|s l IH]; intros n; simpl; constructor; [|apply IH].
  repeat split. apply put_isecs_same.
Qed.

Lemma put_isecs_lists (P : isection -> list elfsym -> Prop) d gk : forall l n,
  (forall k i, nth_error l k = Some i -> P (set_symbols i (syms_at d (n + k))) (gk (n + k)%nat)) ->
  Forall2 P (put_isecs n l d) (map gk (seq n (length l))).
Proof.
  induction l as [|i l IH]; intros n H; simpl; constructor.
  - specialize (H 0%nat i eq_refl). rewrite PeanoNat.Nat.add_0_r in H. exact H.
  - apply IH. intros k j E. specialize (H (S k) j E). rewrite PeanoNat.Nat.add_succ_r in H. exact H.
Qed.

Definition bare (l : list isection) : list isection := map (fun i => set_symbols i []) l.

Lemma all_slots_eq sections : all_slots sections = combine (seq 0 (length (all_isecs sections))) (bare (all_isecs sections)).
Proof.
  unfold all_slots, bare, all_isecs.
  assert (E : flat_map (fun s => map (fun i => set_symbols i []) (o_isecs s)) sections = map (fun i => set_symbols i []) (flat_map o_isecs sections)).
  { induction sections as [|s l IH]; simpl; [reflexivity|]. rewrite map_app, IH. reflexivity. }
  rewrite E, map_length. reflexivity.
Qed.

Lemma combine_seq {A} (l : list A) n k x : In (k, x) (combine (seq n (length l)) l) -> (n <= k)%nat /\ nth_error l (k - n) = Some x.
Proof.
  revert n. induction l as [|y l IH]; intros n I; simpl in I; [contradiction|].
  destruct I as [E|I].
  - injection E as <- <-. rewrite PeanoNat.Nat.sub_diag. split; [lia|reflexivity].
  - apply IH in I. destruct I as [L E]. split; [lia|]. replace (k - n)%nat with (S (k - S n)) by lia. exact E.
Qed.

Lemma map_fst_combine {A B} (l : list A) (m : list B) : length l = length m -> map fst (combine l m) = l.
Proof. revert m. induction l as [|x l IH]; intros [|y m] E; try discriminate E; simpl; [reflexivity|]. f_equal. apply IH. injection E as E. exact E. Qed.

Lemma all_slots_fst sections : map fst (all_slots sections) = seq 0 (length (all_isecs sections)).
Proof. rewrite all_slots_eq. apply map_fst_combine. unfold bare. rewrite seq_length, map_length. reflexivity. Qed.

Lemma in_all_slots sections k x : In (k, x) (all_slots sections) -> exists i, nth_error (all_isecs sections) k = Some i /\ x = set_symbols i [].
Proof.
  rewrite all_slots_eq. intros I. rewrite <- (map_length (fun i => set_symbols i []) (all_isecs sections)) in I.
  apply combine_seq in I. destruct I as [_ E]. rewrite PeanoNat.Nat.sub_0_r in E. unfold bare in E.
  rewrite nth_error_map in E. destruct (nth_error (all_isecs sections) k) as [i|]; [|discriminate E]. injection E as <-. eauto.
Qed.

Lemma Permutation_concat {A} (l m : list (list A)) : Permutation l m -> Permutation (concat l) (concat m).
Proof.
  induction 1; simpl; auto.
  - apply Permutation_app_head. assumption.
  - rewrite !app_assoc. apply Permutation_app_tail. apply Permutation_app_comm.
  - etransitivity; eassumption.
Qed.

Lemma wanted_eq l : wanted_symbols l = filter wanted (py_sorted st_value false l).
Proof. reflexivity. Qed.

Lemma filter_perm {A} (p : A -> bool) l m : Permutation l m -> Permutation (filter p l) (filter p m).
Proof.
  induction 1; simpl; auto.
  - destruct (p x); auto.
  - destruct (p x), (p y); auto. apply perm_swap.
  - etransitivity; eassumption.
Qed.

Lemma filter_sorted {A} (R : A -> A -> Prop) p l : StronglySorted R l -> StronglySorted R (filter p l).
Proof.
  induction 1 as [|x l So IH F]; simpl; [constructor|]. destruct (p x); [|exact IH]. constructor; [exact IH|].
  rewrite Forall_forall in *. intros y I. apply filter_In in I. apply F, I.
Qed.

(** an input section lists the ELF symbols given, unless a wanted symbol lies above it *)
Definition told (e : elf) (i : isection) (g : list elfsym) : Prop :=
  lists i g /\ (i_symbols i = map shown g \/ exists y, In y (elf_symbols e) /\ wanted y = true /\ i_addr i + i_size i <= st_value y).

(** the final slots *)
Lemma final_slots e sections out :
  add_symbols_to_sections (Some e) sections = Ok out ->
  exists L G skipped,
    out = put_symbols 0 sections (map (fun c => (fst c, i_symbols (snd c))) L) /\
    map skel L = py_sorted (fun c : slot => i_addr (snd c)) false (all_slots sections) /\
    Forall2 (fun c g => told e (snd c) g) L G /\
    Permutation (concat G ++ skipped) (filter wanted (elf_symbols e)) /\
    Forall (fun y => Forall (fun c => ~ starts_in (snd c) y) (all_slots sections)) skipped /\
    exists done cur rest, L = done ++ cur :: rest /\ Forall (fun c => i_symbols (snd c) <> []) done /\
      forall y, In y (elf_symbols e) -> wanted y = true -> st_value y < send cur.
Proof.
  intros E. cbn [add_symbols_to_sections] in E.
  assert (So : StronglySorted (ordered (fun c : slot => i_addr (snd c)) false) (py_sorted (fun c : slot => i_addr (snd c)) false (all_slots sections))) by apply py_sorted_sorted.
  match type of E with match ?l with _ => _ end = _ => change l with (py_sorted (fun c : slot => i_addr (snd c)) false (all_slots sections)) in E end.
  destruct (py_sorted (fun c : slot => i_addr (snd c)) false (all_slots sections)) as [|cur0 rest0] eqn:EL; [discriminate E|].
  match type of E with bind ?m _ = _ => destruct m as [[[cur rest] done]|] eqn:F end; cbn [bind] in E; [|discriminate E].
  injection E as <-.
  assert (B : Forall (fun c : slot => set_symbols (snd c) [] = snd c) (cur0 :: rest0)).
  { rewrite <- EL. apply Forall_forall. intros [k x] I. apply py_sorted_In in I. apply in_all_slots in I.
    destruct I as (i & _ & ->). reflexivity. }
  assert (B2 : map skel (cur0 :: rest0) = cur0 :: rest0).
  { clear -B. induction B as [|c l H B IH]; [reflexivity|]. cbn [map]. rewrite IH. unfold skel. rewrite H. destruct c; reflexivity. }
  assert (B3 : Forall (fun c : slot => i_symbols (snd c) = []) (cur0 :: rest0)).
  { eapply Forall_impl; [|exact B]. intros c H. cbv beta in H. rewrite <- H. reflexivity. }
  inversion B3 as [|? ? Bc Br]; subst.
  assert (I0 : ok_state (cur0 :: rest0) [] None (cur0, rest0, [])).
  { split; [exact B2|]. split; [constructor|]. split; [constructor|]. split; [exact Br|].
    exists [], [], []. split; [constructor|]. split; [split; [constructor|exact Bc]|]. split; [apply Permutation_refl|constructor]. }
  rewrite wanted_eq in F.
  destruct (fold_ok _ So _ _ None _ _ ltac:(apply filter_sorted, py_sorted_sorted) ltac:(intros; exact I) I0 F) as (w & Hw & H & Hc).
  destruct H as (H1 & H2 & H3 & H4 & G & g & sk & H5 & H6 & H7 & H8).
  exists (done ++ cur :: rest), (G ++ g :: map (fun _ => []) rest), sk.
  split; [reflexivity|]. split; [exact H1|]. split; [|split; [|split]].
  - apply Forall2_app.
    { clear -H3 H5 Hw. assert (X : Forall (fun c : slot => exists y, In y (elf_symbols e) /\ wanted y = true /\ send c <= st_value y) done).
      { eapply Forall_impl; [|exact H3]. intros c Hc. cbv beta in Hc. destruct Hw as [->|(z & I & ->)]; [contradiction|].
        apply filter_In in I. destruct I as [I W]. exists z. split; [|now split]. apply py_sorted_In in I. exact I. }
      clear H3 Hw. induction H5 as [|c g done G H5 F IH]; constructor; inversion X; subst; [|auto]. split; [assumption|right; assumption]. }
    constructor; [destruct H6; split; [split|]; auto|].
    clear -H4. induction H4 as [|c l E H IH]; simpl; constructor; [|exact IH]. split; [split; [constructor|left; exact E]|left; exact E].
  - rewrite concat_app. cbn [concat].
    assert (Z : concat (map (fun _ : slot => @nil elfsym) rest) = []) by (clear; induction rest; simpl; auto).
    rewrite Z, app_nil_r, <- app_assoc. etransitivity; [exact H7|]. cbn [app]. apply filter_perm, Permutation_sym, py_sorted_perm.
  - eapply Forall_impl; [|exact H8]. intros y Hy. rewrite Forall_forall in *. intros c I. apply Hy. rewrite <- EL. apply py_sorted_In, I.
  - exists done, cur, rest. split; [reflexivity|]. split; [exact H2|]. intros y I W. apply Hc. apply filter_In. split; [|exact W].
    apply py_sorted_In, I.
Qed.

Lemma slots_numbers sections L :
  map skel L = py_sorted (fun c : slot => i_addr (snd c)) false (all_slots sections) ->
  Permutation (map fst L) (seq 0 (length (all_isecs sections))) /\ NoDup (map fst L) /\
  forall c, In c L -> exists i, nth_error (all_isecs sections) (fst c) = Some i /\ snd c = set_symbols i (i_symbols (snd c)).
Proof.
  intros E. assert (P : Permutation (map fst L) (seq 0 (length (all_isecs sections)))).
  { rewrite <- all_slots_fst. replace (map fst L) with (map fst (map skel L)) by (rewrite map_map; reflexivity).
    rewrite E. apply Permutation_map, Permutation_sym, py_sorted_perm. }
  split; [exact P|]. split; [eapply Permutation_NoDup; [apply Permutation_sym, P|apply seq_NoDup]|].
  intros c I. assert (Is : In (skel c) (map skel L)) by (apply in_map, I). rewrite E, py_sorted_In in Is.
  apply in_all_slots in Is. destruct Is as (i & H1 & H2). exists i. split; [exact H1|].
  destruct c as [k [nm ad sz fl ar ob sy]]. cbn [skel snd] in *. unfold set_symbols in *. cbn in *. injection H2 as -> -> -> -> -> ->. reflexivity.
Qed.

Lemma dget_map_nodup {A V} (f : A -> V) (n : A -> nat) l a : NoDup (map n l) -> In a l ->
  dget (n a) (map (fun c => (n c, f c)) l) = Some (f a).
Proof.
  intros N I. apply In_dget.
  - unfold wf_dict, keys. rewrite map_map. exact N.
  - apply in_map_iff. exists a. auto.
Qed.

Lemma syms_at_slot (L : list slot) c : NoDup (map fst L) -> In c L ->
  syms_at (map (fun c => (fst c, i_symbols (snd c))) L) (fst c) = i_symbols (snd c).
Proof.
  intros N I. unfold syms_at. pose proof (dget_map_nodup (fun c : slot => i_symbols (snd c)) fst L c N I) as X.
  cbv beta in X. unfold slot in *.
  rewrite X. reflexivity.
Qed.

(** C28 *)
Lemma symbols_told e sections out :
  add_symbols_to_sections (Some e) sections = Ok out ->
  Forall2 same_osec sections out /\
  exists groups skipped,
    Forall2 (told e) (all_isecs out) groups /\
    Permutation (concat groups ++ skipped) (filter wanted (elf_symbols e)) /\
    Forall (fun y => Forall (fun i => ~ starts_in i y) (all_isecs out)) skipped.
Proof.
  intros E. apply final_slots in E. destruct E as (L & G & sk & -> & HL & HG & HP & HS & _).
  split; [apply put_symbols_same|].
  destruct (slots_numbers _ _ HL) as (P & N & HI).
  set (d := map (fun c => (fst c, i_symbols (snd c))) L).
  set (dG := map (fun cg : slot * list elfsym => (fst (fst cg), snd cg)) (combine L G)).
  set (gk := fun k => match dget k dG with Some g => g | None => [] end).
  assert (LG : length L = length G) by (clear -HG; induction HG; simpl; congruence).
  assert (Gc : forall c g, In (c, g) (combine L G) -> gk (fst c) = g).
  { intros c g I. pose proof (dget_map_nodup (fun cg : slot * list elfsym => snd cg) (fun cg => fst (fst cg)) (combine L G) (c, g)) as X.
    cbn [fst snd] in X. unfold gk. assert (Y : dget (fst c) dG = Some g).
    { apply X; [|exact I]. replace (map (fun cg : slot * list elfsym => fst (fst cg)) (combine L G)) with (map fst (map fst (combine L G))) by (rewrite map_map; reflexivity).
      rewrite map_fst_combine by exact LG. exact N. }
    rewrite Y. reflexivity. }
  assert (Gk : map gk (map fst L) = G).
  { assert (X : forall L' G', Forall2 (fun (_ : slot) (_ : list elfsym) => True) L' G' ->
        (forall c g, In (c, g) (combine L' G') -> In (c, g) (combine L G)) -> map gk (map fst L') = G').
    { induction 1 as [|c g L' G' _ F IH]; intros Hin; [reflexivity|]. cbn [map]. f_equal; [|apply IH; intros; apply Hin; simpl; auto].
      apply Gc, Hin. simpl. auto. }
    apply X; [|auto]. clear -HG. induction HG; constructor; auto. }
  exists (map gk (seq 0 (length (all_isecs sections)))), sk. split; [|split].
  - rewrite put_symbols_isecs. apply put_isecs_lists. intros k i Ei. cbn [plus].
    assert (Ik : In k (map fst L)).
    { eapply Permutation_in; [apply Permutation_sym, P|]. apply in_seq. split; [lia|]. cbn. apply nth_error_Some. congruence. }
    apply in_map_iff in Ik. destruct Ik as (c & <- & Ic).
    destruct (HI c Ic) as (i' & E1 & E2). rewrite Ei in E1. injection E1 as <-.
    unfold d. pose proof (syms_at_slot L c N Ic) as Y. match goal with |- context [syms_at ?d ?k] => replace (syms_at d k) with (i_symbols (snd c)) by (symmetry; exact Y) end. rewrite <- E2.
    assert (X : exists g, In (c, g) (combine L G) /\ told e (snd c) g).
    { clear -HG Ic. induction HG as [|c0 g0 L G H F IH]; [contradiction|]. destruct Ic as [<-|I]; [exists g0; simpl; auto|].
      destruct (IH I) as (g & H1 & H2). exists g. simpl. auto. }
    destruct X as (g & Ig & Hg). rewrite (Gc c g Ig). exact Hg.
  - etransitivity; [|exact HP]. apply Permutation_app_tail. apply Permutation_concat. rewrite <- Gk.
    apply Permutation_map, Permutation_sym, P.
  - eapply Forall_impl; [|exact HS]. intros y Hy. cbv beta in Hy. rewrite put_symbols_isecs.
    rewrite all_slots_eq in Hy. revert Hy. generalize 0%nat. generalize (all_isecs sections). clear.
    induction l as [|i l IH]; intros n Hy; simpl; constructor; simpl in Hy; inversion Hy; subst; [assumption|]. apply IH. assumption.
Qed.

Lemma symbols_placed e sections out :
  add_symbols_to_sections (Some e) sections = Ok out ->
  Forall2 same_osec sections out /\
  exists groups skipped,
    Forall2 lists (all_isecs out) groups /\
    Permutation (concat groups ++ skipped) (filter wanted (elf_symbols e)) /\
    Forall (fun y => Forall (fun i => ~ starts_in i y) (all_isecs out)) skipped.
Proof.
  intros E. apply symbols_told in E. destruct E as (H & G & sk & F & H'). split; [exact H|]. exists G, sk. split; [|exact H'].
  clear -F. induction F as [|i g l G [H _] F IH]; constructor; assumption.
Qed.

(** C29 *)
Definition disjoint (i j : isection) : Prop := i_addr i + i_size i <= i_addr j \/ i_addr j + i_size j <= i_addr i.

Lemma ForallPairs_perm {A} (R : A -> A -> Prop) l m : (forall x y, R x y -> R y x) ->
  Permutation l m -> ForallOrdPairs R l -> ForallOrdPairs R m.
Proof.
  intros Sy P. induction P; intros H.
  - constructor.
  - inversion H; subst. constructor; [|auto]. eapply Permutation_Forall; eassumption.
  - inversion H as [|? ? F H']; subst. inversion H' as [|? ? F' H'']; subst. inversion F; subst.
    constructor; [constructor; auto|]. constructor; assumption.
  - auto.
Qed.

Lemma ordpairs_tail {A} (R : A -> A -> Prop) l1 x l2 : ForallOrdPairs R (l1 ++ x :: l2) -> Forall (R x) l2.
Proof. induction l1 as [|y l1 IH]; intros H; inversion H; subst; [assumption|]. apply IH. assumption. Qed.

Lemma ordpairs_map {A B} (f : A -> B) (R : B -> B -> Prop) l : ForallOrdPairs R (map f l) <-> ForallOrdPairs (fun x y => R (f x) (f y)) l.
Proof.
  induction l as [|x l IH]; simpl; split; intros H.
  - constructor.
  - constructor.
  - inversion H as [|? ? F H']; subst. constructor; [|apply IH; exact H']. rewrite Forall_map in F. exact F.
  - inversion H as [|? ? F H']; subst. constructor; [|apply IH; exact H']. rewrite Forall_map. exact F.
Qed.

Lemma combine_snd {A B} (l : list A) (m : list B) : length l = length m -> map snd (combine l m) = m.
Proof. revert m. induction l as [|x l IH]; intros [|y m] E; try discriminate E; simpl; [reflexivity|]. f_equal. apply IH. injection E as E. exact E. Qed.

Lemma no_holes e sections out :
  add_symbols_to_sections (Some e) sections = Ok out ->
  ForallOrdPairs disjoint (all_isecs sections) -> Forall (fun i => 0 < i_size i) (all_isecs sections) ->
  forall i y, In i (all_isecs out) -> In y (elf_symbols e) -> wanted y = true ->
    i_addr i + i_size i <= st_value y -> i_symbols i <> [].
Proof.
  intros E D Po i y Ii Iy W Hy. apply final_slots in E.
  destruct E as (L & G & sk & -> & HL & HG & HP & HS & done & cur & rest & EL & Hd & Hc).
  destruct (slots_numbers _ _ HL) as (P & N & HI).
  specialize (Hc y Iy W). rewrite put_symbols_isecs in Ii.
  apply In_nth_error in Ii. destruct Ii as [k Ek].
  assert (X : forall l n k, nth_error (put_isecs n l (map (fun c => (fst c, i_symbols (snd c))) L)) k =
     option_map (fun i => set_symbols i (syms_at (map (fun c : slot => (fst c, i_symbols (snd c))) L) (n + k))) (nth_error l k)).
  { clear. induction l as [|i l IH]; intros n k; destruct k; try reflexivity; simpl.
    - rewrite PeanoNat.Nat.add_0_r. reflexivity.
    - rewrite IH. rewrite PeanoNat.Nat.add_succ_r. reflexivity. }
  rewrite X in Ek. destruct (nth_error (all_isecs sections) k) as [i0|] eqn:E0; [|discriminate Ek]. cbn [option_map plus] in Ek.
  injection Ek as <-.
  assert (Ik : In k (map fst L)).
  { eapply Permutation_in; [apply Permutation_sym, P|]. apply in_seq. split; [lia|]. cbn. apply nth_error_Some. congruence. }
  apply in_map_iff in Ik. destruct Ik as (c & <- & Ic). destruct (HI c Ic) as (i' & E1 & E2). rewrite E0 in E1. injection E1 as <-.
  pose proof (syms_at_slot L c N Ic) as Y. match goal with |- context [syms_at ?d ?k] => replace (syms_at d k) with (i_symbols (snd c)) by (symmetry; exact Y) end.
  cbn [set_symbols i_symbols i_addr i_size] in *.
  assert (Fa : i_addr (snd c) = i_addr i0 /\ i_size (snd c) = i_size i0) by (rewrite E2; split; reflexivity). destruct Fa as [Fa Fs].
  rewrite EL in Ic. apply in_app_iff in Ic. destruct Ic as [Ic|[<-|Ic]].
  - rewrite Forall_forall in Hd. apply Hd, Ic.
  - exfalso. unfold send in Hc. lia.
  - exfalso.
    assert (So : StronglySorted (ordered (fun c : slot => i_addr (snd c)) false) (map skel L)) by (rewrite HL; apply py_sorted_sorted).
    rewrite EL, map_app in So. cbn [map] in So. apply sorted_app_tail in So. rewrite Forall_map, Forall_forall in So. specialize (So c Ic).
    unfold ordered in So. cbn [skel snd set_symbols i_addr] in So.
    assert (DL : ForallOrdPairs (fun a b : slot => disjoint (snd a) (snd b)) (map skel L)).
    { rewrite HL. apply (ForallPairs_perm (fun a b : slot => disjoint (snd a) (snd b)) (all_slots sections)); [unfold disjoint; intuition|apply py_sorted_perm|].
      apply (ordpairs_map snd). rewrite all_slots_eq, combine_snd by (unfold bare; rewrite seq_length, map_length; reflexivity).
      unfold bare. apply ordpairs_map. exact D. }
    rewrite EL, map_app in DL. cbn [map] in DL. apply ordpairs_tail in DL. rewrite Forall_map, Forall_forall in DL. specialize (DL c Ic).
    unfold disjoint in DL. cbn [skel snd set_symbols i_addr i_size] in DL. unfold send in Hc.
    assert (0 < i_size i0) by (rewrite Forall_forall in Po; apply Po; eapply nth_error_In; exact E0). lia.
Qed.

Lemma own_names sections out : add_symbols_to_sections None sections = Ok out ->
  Forall2 same_osec sections out /\
  Forall (fun i => i_symbols i = [Symbol (i_name i) (i_addr i) (i_size i)]) (all_isecs out).
Proof.
  intros E. injection E as <-. split.
  - induction sections as [|s l IH]; simpl; constructor; [|exact IH]. repeat split.
    cbn [set_isecs o_isecs]. induction (o_isecs s) as [|i l' IH']; simpl; constructor; [repeat split|exact IH'].
  - apply Forall_forall. intros i I. unfold all_isecs, add_symbols_no_elf in I. apply in_flat_map in I.
    destruct I as (s & Is & I). apply in_map_iff in Is. destruct Is as (s0 & <- & _). cbn [set_isecs o_isecs] in I.
    apply in_map_iff in I. destruct I as (i0 & <- & _). reflexivity.
Qed.
