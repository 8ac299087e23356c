(** * Listings: debugging entries *)
From Coq Require Import Ascii String List ZArith Bool Lia.
From Verif Require Import Base ElfRead Dwarf Names Table Dump SpecMap SpecTable SpecElf SpecDwarf SpecDebug SpecDump
  ProofElf1 ProofElf2 ProofTable ProofDwarf3 ProofDwarf4 ProofDump1 ProofDump2.
Import ListNotations.
Open Scope list_scope.
Open Scope Z_scope.

(** ** values *)
Lemma bytes_hex_bytes b s : bytes_hex b s -> is_bytes b.
Proof.
  induction 1 as [|b c d l s C D H IH]; [constructor|]. constructor; [|exact IH]. assert (G : forall c z, SpecMap.hex_digit c z -> 0 <= z < 16) by (intros c0 z (P & N); split; [exact P|]; apply (f_equal (fun o => match o with Some _ => true | None => false end)) in N; destruct (Z.ltb_spec z 16) as [L|L]; [exact L|]; rewrite (proj2 (nth_error_None _ _)) in N; [discriminate N|]; cbn [length list_ascii_of_string]; lia).
  apply G in C, D.
  pose proof (Z.div_mod b 16 ltac:(lia)). lia.
Qed.
Lemma other_form f : ~ In f [8; 14; 24; 31] -> (f =? 14) = false /\ (f =? 31) = false /\ (f =? 8) = false /\ (f =? 24) = false.
Proof. intros N. rewrite !Z.eqb_neq. cbn [In] in N. intuition congruence. Qed.
Lemma address_bytes_len e z : (1 < length (address_bytes e z))%nat.
Proof. pose proof (blen_int_enc (xe_big e) (if xe_is64 e then 8 else 4)%nat z) as L. unfold address_bytes, blen in *. destruct (xe_is64 e); lia. Qed.
Lemma value_done e names a v : named_sections e names -> value_shown e names a v -> exists w, get_attr_str e a = Ok w /\ value_shown e names a w.
Proof.
  intros NS V. destruct V as [n T|z s F V A N|b s F V X A H|z s F V P N|b s F V H|F V].
  - exists n. split; [now apply (text_value_get e names)|now apply vs_text].
  - exists (hex_int z). split; [|apply (vs_address _ _ _ z); auto; apply hex_int_number; destruct A; lia].
    unfold get_attr_str, get_attr_eval. rewrite F, V. cbn [Z.eqb Pos.eqb]. pose proof (address_bytes_len e z).
    destruct (eval_expression e _ (eo_addr e z A) (S (length (3 :: address_bytes e z)))) as [(z' & E & A' & Y)|(C & _)]; [cbn [length]; lia| |now destruct (C z)].
    rewrite Y. cbn [bind option_map]. injection E as E. now rewrite (address_bytes_inj e z z' A A' E).
  - exists (hex_bytes b). split; [|apply (vs_expression _ _ _ b); auto; now apply hex_bytes_ok, (bytes_hex_bytes b s)].
    unfold get_attr_str, get_attr_eval. rewrite F, V. cbn [Z.eqb Pos.eqb].
    destruct X as [z' Fz|x r Nx|z' x r Fz Nx].
    + now destruct (A z').
    + assert (Y : eval_expr (S (length (x :: r))) e (x :: r) 0 [] = Ok [None]).
      { cbn [eval_expr]. assert (L : 0 <? blen (x :: r) = true) by (apply Z.ltb_lt; rewrite blen_cons; pose proof (blen_nonneg r); lia). rewrite L. change (py_index (x :: r) 0) with (Ok x). cbn [bind].
        now rewrite (proj2 (Z.eqb_neq x 3) Nx). }
      rewrite Y. reflexivity.
    + destruct (eval_expression e _ (eo_more e z' x r Fz Nx) (S (length (3 :: address_bytes e z' ++ x :: r)))) as [(z2 & E & _)|(_ & Y)]; [cbn [length]; rewrite app_length; pose proof (address_bytes_len e z'); lia|now destruct (A z2)|].
      rewrite Y. reflexivity.
  - exists (hex_int z). split; [|now apply (vs_number _ _ _ z); auto; apply hex_int_number].
    destruct (other_form _ F) as (A1 & A2 & A3 & A4). unfold get_attr_str, get_attr_eval. now rewrite A1, A2, A3, A4, V.
  - exists (hex_bytes b). split; [|now apply (vs_bytes _ _ _ b); auto; apply hex_bytes_ok, (bytes_hex_bytes b s)].
    destruct (other_form _ F) as (A1 & A2 & A3 & A4). unfold get_attr_str, get_attr_eval. now rewrite A1, A2, A3, A4, V.
  - exists (Dump.tx "0x1"). split; [|now apply vs_true].
    destruct (other_form _ F) as (A1 & A2 & A3 & A4). unfold get_attr_str, get_attr_eval. now rewrite A1, A2, A3, A4, V.
Qed.
(** an attribute read as it is written *)
Lemma attr_same p q : attr_like p q -> inexact (at_form (snd p)) (at_value (snd p)) = false -> snd q = snd p.
Proof. destruct p as (k, [x1 x2 x3 x4 x5]), q as (k', [y1 y2 y3 y4 y5]). unfold attr_like. cbn. intros (_ & -> & -> & -> & -> & V) N. now rewrite (V N). Qed.

(** ** offsets and sizes *)
Definition placed (d : die) : Prop := 0 <= d_off d /\ 0 <= d_size d /\ Forall (fun p => 0 <= at_off (snd p)) (d_attrs d).
Lemma tattrs_placed specs : forall vals off, 0 <= off -> Forall (fun p => 0 <= at_off (snd p)) (tattrs specs vals off).
Proof.
  induction specs as [|s specs IH]; intros [|v vals] off P; cbn [tattrs]; constructor; [exact P|]. apply IH. pose proof (blen_nonneg (snd v)). lia.
Qed.
Lemma tdies_placed t : forall off parent level, 0 <= off -> Forall placed (tdies off parent level t).
Proof.
  induction t as [a cb vals kids IH] using tree_ind'. intros off parent level P. cbn [tdies]. constructor.
  - split; [exact P|]. split; [apply blen_nonneg|]. apply tattrs_placed. pose proof (blen_nonneg cb). lia.
  - destruct (ab_children a =? 0); [constructor|]. pose proof (blen_nonneg cb). pose proof (blen_nonneg (flat_map snd vals)).
    assert (Q : 0 <= off + blen cb + blen (flat_map snd vals)) by lia. revert Q. generalize (off + blen cb + blen (flat_map snd vals)). clear - IH.
    induction IH as [|k kids K IH' IH]; intros o Q; [repeat constructor; cbn; lia|]. apply Forall_app. split; [now apply K|]. apply IH. pose proof (blen_nonneg (tbytes k)). lia.
Qed.
Lemma units_after big off us rest : units_enc big off us rest -> 0 <= off -> Forall (fun u => 0 <= cu_offset (fst u) /\ 0 <= cu_die_offset (fst u)) us.
Proof.
  induction 1 as [off|off c body l r rest CO U H IH]; intros P; constructor.
  - cbn [fst]. rewrite CO. split; [exact P|]. destruct U as [hdr UH AS AF LEN RNG ULL DO]. rewrite DO, CO, ULL. pose proof (blen_nonneg hdr). destruct (cu_is64 c); lia.
  - apply IH. pose proof (blen_nonneg l). lia.
Qed.

Section Debug.
  Variables (e : xelf) (names : list str) (info abb : list Z).
  Hypothesis NS : named_sections e names.
  Hypothesis SI : section_is e names (list_ascii_of_string ".debug_info") info.
  Hypothesis SA : section_is e names (list_ascii_of_string ".debug_abbrev") abb.

  Lemma unit_read u pre l rest : cu_offset (u_cu u) = blen pre -> info = pre ++ l ++ rest -> unit_enc (xe_big e) (u_cu u) (tbytes (u_tree u) ++ u_pad u) l ->
    unit_ok (xe_big e) abb u -> exists ds, dies_of e (u_cu u) = Ok ds /\ Forall2 die_like (unit_dies u) ds.
  Proof.
    intros CO E U O. destruct (section_lookup _ _ _ _ NS SI) as (si & LI & DI). unfold dies_of. rewrite LI. cbn [bind]. rewrite DI. cbn [bind].
    destruct (uo_abbrevs _ _ _ O) as (lab & AE & AO).
    destruct (abbrev_table_image e names abb (u_cu u) (u_tbl u) lab NS SA AE AO) as (tbl' & TB & TL).
    assert (OT : occurs info (cu_die_offset (u_cu u)) (tbytes (u_tree u))).
    { inversion U as [hdr UH AS AF LEN RNG ULL DO EL]. subst l.
      exists (pre ++ unit_length_bytes (xe_big e) (cu_is64 (u_cu u)) (cu_length (u_cu u)) ++ hdr), (u_pad u ++ rest).
      split; [rewrite E, <- !app_assoc; reflexivity|]. rewrite DO, !blen_app, ULL, CO. unfold unit_length_bytes.
      destruct (cu_is64 (u_cu u)); [rewrite blen_app, blen_int_enc; change (blen [255; 255; 255; 255]) with 4; lia | rewrite blen_int_enc; lia]. }
    assert (AS : 0 <= cu_address_size (u_cu u)) by (inversion U; lia).
    destruct (unit_DIEs_enc (xe_big e) (u_cu u) (u_tbl u) tbl' (u_tree u) info _ AS (uo_numbered _ _ _ O) (uo_readable _ _ _ O) TL TB (uo_tree _ _ _ O) OT) as (ds & GD & DL).
    exists ds. unfold get_DIEs. rewrite GD. cbn [bind]. split; [|exact DL]. f_equal. clear. induction ds as [|d ds IH]; [reflexivity|]. cbn [filter wanted_tag]. now rewrite IH.
  Qed.

  Local Notation showable := (SpecDump.showable e names).
  Lemma attr_done a : 0 <= at_off a -> (exists v, value_shown e names a v) ->
    exists line, (having v <- lift (get_attr_str e a); say (attr_line a v)) = ([line], Ok tt) /\ attr_row e names a line.
  Proof.
    intros P (v & V). destruct (value_done e names a v NS V) as (w & E & W). rewrite E, lift_then. eexists. split; [reflexivity|].
    exists (hex_int (at_off a)), (get_attr_name (at_attr a)), (repeat " "%char (30 - length (get_attr_name (at_attr a)))), (get_form_name (at_form a)), w.
    split; [now apply hex_int_number|]. split; [apply attr_shown|]. split; [apply form_shown|]. split; [exact W|]. split; [apply spaces_repeat|].
    split; [intros Z0; apply (f_equal (@length _)) in Z0; rewrite repeat_length in Z0; cbn [length] in Z0; lia|].
    split; [|reflexivity]. unfold attr_line. 
    change (skipn 4 (Dump.tx "    <" ++ ?x)) with (Dump.tx "<" ++ x).
    replace (Dump.tx "<" ++ hex_int (at_off a) ++ Dump.tx "> " ++ left_in 30 (get_attr_name (at_attr a)) ++ left_in 30 (get_form_name (at_form a)) ++ Dump.tx " " ++ w)
      with ((Dump.tx "<" ++ hex_int (at_off a) ++ Dump.tx ">") ++ " "%char :: (get_attr_name (at_attr a) ++ repeat " "%char (30 - length (get_attr_name (at_attr a))) ++ get_form_name (at_form a)) ++
        (repeat " "%char (30 - length (get_form_name (at_form a))) ++ [" "%char]) ++ w).
    2:{ unfold left_in. change (Dump.tx "> ") with (Dump.tx ">" ++ [" "%char]). change (Dump.tx " ") with [" "%char]. rewrite <- !app_assoc. reflexivity. }
    apply cells_word. constructor; [intros Z0; apply app_eq_nil in Z0; destruct Z0 as (_ & Z0); discriminate Z0|apply spaces_app; [apply spaces_repeat|now repeat constructor]|apply cells_last].
  Qed.
  Lemma attrs_done (l : list dattr) : (forall a, In a l -> 0 <= at_off a /\ exists v, value_shown e names a v) ->
    exists ls, each (fun a => having v <- lift (get_attr_str e a); say (attr_line a v)) l = (ls, Ok tt) /\ Forall2 (attr_row e names) l ls.
  Proof.
    induction l as [|a l IH]; intros H; [exists []; split; [reflexivity|constructor]|]. destruct (H a (or_introl eq_refl)) as (P & V). destruct (attr_done a P V) as (line & E & R).
    destruct IH as (ls & El & Rl); [intros b I; apply H; now right|]. exists (line :: ls). cbn [each]. rewrite E. unfold and_then at 1. rewrite El. split; [reflexivity|now constructor].
  Qed.
  Definition print_die (d : die) : out unit :=
    having _ <- say (die_line d); each (fun a => having v <- lift (get_attr_str e a); say (attr_line a v)) (map snd (d_attrs d)).
  Lemma same_attrs d d' : die_like d d' -> showable d -> d_attrs d' = d_attrs d.
  Proof.
    intros (_ & _ & _ & _ & _ & _ & F) S. assert (G : forall p, In p (d_attrs d) -> inexact (at_form (snd p)) (at_value (snd p)) = false) by (intros (k, a) I; exact (proj1 (S k a I))).
    clear S. revert G. induction F as [|p q l l' R F IH]; intros G; [reflexivity|]. f_equal; [|apply IH; intros r I; apply G; now right].
    pose proof (attr_same p q R (G p (or_introl eq_refl))) as Eq. destruct R as (K & _). destruct p, q. cbn in *. now subst.
  Qed.
  Lemma die_done d d' : die_like d d' -> placed d -> showable d ->
    exists line ls, print_die d' = (line :: ls, Ok tt) /\ die_row d line /\ Forall2 (attr_row e names) (map snd (d_attrs d)) ls.
  Proof.
    intros L (P1 & P2 & P3) S. pose proof (same_attrs d d' L S) as EA. destruct L as (E1 & _ & E3 & E4 & E5 & E6 & _). unfold print_die. rewrite EA, say_then.
    destruct (attrs_done (map snd (d_attrs d))) as (ls & E & R).
    { intros a I. apply List.in_map_iff in I. destruct I as ((k, a') & <- & I). cbn [snd]. rewrite Forall_forall in P3. split; [exact (P3 _ I)|]. exact (proj2 (S k a' I)). }
    rewrite E. eexists _, ls. split; [reflexivity|]. split; [|exact R].
    exists (show_Z (d_level d)), (hex_int (d_off d)), (show_Z (d_code d)), (get_tag_name (d_tag d)), (hex_int (d_size d)).
    split; [apply show_Z_written|]. split; [now apply hex_int_number|]. split; [apply show_Z_written|]. split; [apply tag_shown|]. split; [now apply hex_int_number|].
    unfold die_line. now rewrite E1, E3, E4, E5, E6.
  Qed.
  Lemma dies_done ds ds' : Forall2 die_like ds ds' -> Forall placed ds -> Forall showable ds -> exists lines, each print_die ds' = (lines, Ok tt) /\ info_lines e names ds lines.
  Proof.
    induction 1 as [|d d' ds ds' L F IH]; intros P S; [exists []; split; [reflexivity|constructor]|]. inversion P as [|? ? P1 P2]; subst. inversion S as [|? ? S1 S2]; subst.
    destruct (die_done d d' L P1 S1) as (line & ls & E & R & Rs). destruct (IH P2 S2) as (lines & El & Rl). exists (line :: ls ++ lines). cbn [each]. rewrite E. unfold and_then. rewrite El. split; [reflexivity|now constructor].
  Qed.
  Lemma info_lines_app l1 s1 l2 s2 : info_lines e names l1 s1 -> info_lines e names l2 s2 -> info_lines e names (l1 ++ l2) (s1 ++ s2).
  Proof. induction 1 as [|d l line ls lines D A I IH]; intros H; [exact H|]. cbn [app]. rewrite <- app_assoc. constructor; auto. Qed.
  Lemma units_done us : forall off pre rest, blen pre = off -> info = pre ++ rest ->
    units_enc (xe_big e) off (map (fun u => (u_cu u, tbytes (u_tree u) ++ u_pad u)) us) rest -> Forall (unit_ok (xe_big e) abb) us ->
    Forall showable (flat_map unit_dies us) ->
    exists lines, each (fun c => having l <- lift (dies_of e c); each print_die l) (map u_cu us) = (lines, Ok tt) /\ info_lines e names (flat_map unit_dies us) lines.
  Proof.
    induction us as [|u us IH]; intros off pre rest P E UE UO S; [exists []; split; [reflexivity|constructor]|].
    cbn [map] in UE. inversion UE as [|off' c body l r rest' CO U1 UE' Eo Eu Er]. subst off off' c body r rest. pose proof (Forall_inv UO) as O1. pose proof (Forall_inv_tail UO) as O2. cbn [flat_map] in S. apply Forall_app in S. destruct S as (S1 & S2).
    destruct (unit_read u pre l rest' CO E U1 O1) as (ds & D & DL).
    assert (PL : Forall placed (unit_dies u)).
    { apply tdies_placed. destruct U1 as [hdr UH AS AF LEN RNG ULL DO]. rewrite DO, CO, ULL. pose proof (blen_nonneg hdr). pose proof (blen_nonneg pre). destruct (cu_is64 (u_cu u)); lia. }
    destruct (dies_done _ _ DL PL S1) as (l1 & E1 & I1).
    destruct (IH (blen pre + blen l) (pre ++ l) rest') as (l2 & E2 & I2); [now rewrite blen_app|now rewrite <- app_assoc|exact UE'|exact O2|exact S2|].
    exists (l1 ++ l2). cbn [map each flat_map]. rewrite D, lift_then, E1. unfold and_then at 1. rewrite E2. split; [reflexivity|now apply info_lines_app].
  Qed.
End Debug.

Lemma info_done is64 big file h phs shs e names us o : elf_image is64 big file h phs shs -> elf_init file = Ok e ->
  debug_image e names us -> Forall (showable e names) (flat_map unit_dies us) -> o_debug o = Some DebugInfo ->
  exists lines, elf_program o file = (lines, Ok tt) /\ info_lines e names (flat_map unit_dies us) lines.
Proof.
  intros I E [NS (info & abb & SI & SA & UE & UO)] S D. unfold elf_program. rewrite E, lift_then, D. unfold dump_debug_info.
  rewrite (CUs_image _ _ _ _ NS SI UE), lift_then.
  2:{ apply Forall_map. eapply Forall_impl; [|exact UO]. intros u H. exact (uo_plain _ _ _ H). }
  rewrite map_map. cbn [fst].
  exact (units_done _ names info abb NS SI SA us 0 [] info eq_refl eq_refl UE UO S).
Qed.
