(** * Listings: names, numbers and lines *)
From Coq Require Import Ascii String List ZArith Bool Lia.
From Verif Require Import Base ElfRead Dwarf Names Table Dump SpecMap SpecTable SpecElf SpecDwarf SpecDebug SpecDump ProofElf1 ProofTable.
Import ListNotations.
Open Scope list_scope.
Open Scope Z_scope.

(** ** names *)
Fixpoint at_slash (s : str) : list str :=
  match s with
  | [] => [[]]
  | c :: s' => if (c =?= "/"%char) then [] :: at_slash s' else match at_slash s' with [] => [[c]] | a :: r => (c :: a) :: r end
  end.
Definition name_check (constants : list (Z * str)) (kv : Z * str) : bool :=
  (slashed (at_slash (snd kv)) =?= snd kv) && forallb (fun n => mem (fst kv, n) constants) (at_slash (snd kv)).
Definition names_check (constants : list (Z * str)) (names : dict Z str) : bool :=
  forallb (name_check constants) names && forallb (fun kv => match dget (fst kv) names with Some _ => true | None => false end) constants.
Lemma at_slash_some s : at_slash s <> [].
Proof. destruct s as [|c s]; cbn; [discriminate|]. destruct (c =?= "/"%char); [discriminate|]. destruct (at_slash s); discriminate. Qed.
Lemma check_known constants names z s : names_check constants names = true -> dget z names = Some s ->
  exists l, l <> [] /\ (forall n, In n l -> In (z, n) constants) /\ s = slashed l.
Proof.
  unfold names_check. rewrite andb_true_iff, !forallb_forall. intros (C & _) G. apply dget_In in G. apply C in G. unfold name_check in G. cbn [fst snd] in G. apply andb_true_iff in G. destruct G as (G1 & G2).
  apply keq_eq in G1. rewrite forallb_forall in G2. exists (at_slash s). split; [apply at_slash_some|]. split; [|now symmetry].
  intros n I. apply mem_In, G2, I.
Qed.
Lemma check_shown constants names z : names_check constants names = true -> shown_name constants z (name_or_unknown names z).
Proof.
  intros C. unfold name_or_unknown. destruct (dget z names) as [s|] eqn:G; [left; now apply (check_known _ names)|]. right. split.
  - intros n I. unfold names_check in C. rewrite andb_true_iff, !forallb_forall in C. destruct C as (_ & C). apply C in I. cbn [fst] in I. rewrite G in I. discriminate I.
  - exists (show_Z z). split; [apply show_Z_written|reflexivity].
Qed.
Lemma check_error constants names z : names_check constants names = true -> has_name constants z ->
  exists s, name_or_error names z = Ok s /\ shown_name constants z s.
Proof.
  intros C (n & I). unfold name_or_error. destruct (dget z names) as [s|] eqn:G; [exists s; split; [reflexivity|left; now apply (check_known _ names)]|].
  unfold names_check in C. rewrite andb_true_iff, !forallb_forall in C. destruct C as (_ & C). apply C in I. cbn [fst] in I. rewrite G in I. discriminate I.
Qed.
Lemma tags_ok : names_check DW_TAG_CONSTANTS DW_TAG_NAME_MAP = true. Proof. vm_compute. reflexivity. Qed.
Lemma attrs_ok : names_check DW_AT_CONSTANTS DW_AT_NAME_MAP = true. Proof. vm_compute. reflexivity. Qed.
Lemma forms_ok : names_check DW_FORM_CONSTANTS DW_FORM_NAME_MAP = true. Proof. vm_compute. reflexivity. Qed.
Lemma sht_ok : names_check SHT_CONSTANTS SHT_NAME_MAP = true. Proof. vm_compute. reflexivity. Qed.
Lemma stt_ok : names_check STT_CONSTANTS STT_NAME_MAP = true. Proof. vm_compute. reflexivity. Qed.
Lemma stb_ok : names_check STB_CONSTANTS STB_NAME_MAP = true. Proof. vm_compute. reflexivity. Qed.
Lemma stv_ok : names_check STV_CONSTANTS STV_NAME_MAP = true. Proof. vm_compute. reflexivity. Qed.
Lemma tag_shown z : shown_name DW_TAG_CONSTANTS z (get_tag_name z). Proof. apply check_shown. vm_compute. reflexivity. Qed.
Lemma attr_shown z : shown_name DW_AT_CONSTANTS z (get_attr_name z). Proof. apply check_shown. vm_compute. reflexivity. Qed.
Lemma form_shown z : shown_name DW_FORM_CONSTANTS z (get_form_name z). Proof. apply check_shown. vm_compute. reflexivity. Qed.
Lemma sht_shown z : shown_name SHT_CONSTANTS z (get_sht_name z). Proof. apply check_shown. vm_compute. reflexivity. Qed.
Lemma type_mod16 y : xsym_type y = x_stinfo y mod 16.
Proof. unfold xsym_type. change 15 with (Z.ones 4). now rewrite Z.land_ones by lia. Qed.
Lemma bind_div16 y : xsym_bind y = x_stinfo y / 16.
Proof. unfold xsym_bind. now rewrite Z.shiftr_div_pow2 by lia. Qed.
Lemma vis_mod4 y : xsym_visibility y = x_stother y mod 4.
Proof. unfold xsym_visibility. change 3 with (Z.ones 2). now rewrite Z.land_ones by lia. Qed.
Lemma vis_named y : has_name STV_CONSTANTS (x_stother y mod 4).
Proof.
  unfold has_name. pose proof (Z.mod_pos_bound (x_stother y) 4 ltac:(lia)) as B. remember (x_stother y mod 4) as z. clear Heqz.
  assert (z = 0 \/ z = 1 \/ z = 2 \/ z = 3) as [->|[->|[->| ->]]] by lia; eexists; vm_compute; eauto 10.
Qed.
(** an unnamed type or binding ends the listing *)
Lemma check_unnamed constants names z : names_check constants names = true -> ~ has_name constants z -> name_or_error names z = Err KeyError.
Proof.
  intros C N. unfold name_or_error. destruct (dget z names) as [s|] eqn:G; [|reflexivity]. destruct N.
  destruct (check_known _ _ _ _ C G) as (l & Nl & A & _). destruct l as [|n l]; [congruence|]. exists n. apply A. now left.
Qed.

(** ** numbers *)
Lemma hex_digit_ok d : 0 <= d < 16 -> SpecMap.hex_digit (Dwarf.hex_digit d) d.
Proof.
  intros B. split; [lia|]. assert (exists n, (n < 16)%nat /\ d = Z.of_nat n) as (n & Ln & ->) by (exists (Z.to_nat d); lia). rewrite Nat2Z.id.
  do 16 (destruct n as [|n]; [vm_compute; reflexivity|]). lia.
Qed.
(** digits in front of digits *)
Lemma hex_digits_app s z : SpecMap.hex_digits s z -> forall t n, t <> [] -> SpecMap.hex_digits t n -> SpecMap.hex_digits (s ++ t) (z * 16 ^ Z.of_nat (length t) + n).
Proof.
  intros S t n _ H. induction H as [c d D|t n c d H IH D].
  - cbn [length]. rewrite Z.pow_1_r. now constructor.
  - rewrite app_assoc, app_length. cbn [length]. replace (z * 16 ^ Z.of_nat (length t + 1) + (n * 16 + d)) with ((z * 16 ^ Z.of_nat (length t) + n) * 16 + d); [now constructor|].
    rewrite Nat2Z.inj_add, Z.pow_add_r by lia. change (16 ^ Z.of_nat 1) with 16. lia.
Qed.
Lemma hex_loop f : forall z acc n, 0 <= z -> z < 2 ^ Z.of_nat f -> (acc = [] /\ n = 0 \/ SpecMap.hex_digits acc n) -> (0 < f)%nat ->
  SpecMap.hex_digits (Dwarf.hex_digits f z acc) (z * 16 ^ Z.of_nat (length acc) + n).
Proof.
  induction f as [|f IH]; intros z acc n P B A F; [lia|]. cbn [Dwarf.hex_digits].
  assert (D : SpecMap.hex_digit (Dwarf.hex_digit (z mod 16)) (z mod 16)) by (apply hex_digit_ok, Z.mod_pos_bound; lia).
  assert (H : SpecMap.hex_digits (Dwarf.hex_digit (z mod 16) :: acc) ((z mod 16) * 16 ^ Z.of_nat (length acc) + n)).
  { destruct A as [(-> & ->)|A]; [cbn [length]; rewrite Z.pow_0_r, Z.mul_1_r, Z.add_0_r; now constructor|].
    apply (hex_digits_app [Dwarf.hex_digit (z mod 16)] (z mod 16)); [now constructor| |exact A]. intros ->. inversion A as [|s ? ? ? ? ? E]. destruct s; discriminate E. }
  destruct (z <? 16) eqn:L.
  - apply Z.ltb_lt in L. rewrite (Z.mod_small z 16) in * by lia. exact H.
  - apply Z.ltb_ge in L. replace (z * 16 ^ Z.of_nat (length acc) + n) with (z / 16 * 16 ^ Z.of_nat (length (Dwarf.hex_digit (z mod 16) :: acc)) + ((z mod 16) * 16 ^ Z.of_nat (length acc) + n)).
    + apply IH; [apply Z.div_pos; lia| |right; exact H|].
      * apply Z.div_lt_upper_bound; [lia|]. rewrite Nat2Z.inj_succ, Z.pow_succ_r in B by lia. lia.
      * destruct f; [|lia]. cbn in B. lia.
    + cbn [length]. rewrite Nat2Z.inj_succ, Z.pow_succ_r by lia. pose proof (Z.div_mod z 16 ltac:(lia)) as E. nia.
Qed.
Lemma hex_loop_ok z : 0 <= z -> SpecMap.hex_digits (Dwarf.hex_digits (S (Z.to_nat (Z.log2 (Z.abs z)))) (Z.abs z) []) z.
Proof.
  intros P. rewrite Z.abs_eq by lia. pose proof (hex_loop (S (Z.to_nat (Z.log2 z))) z [] 0 P) as H. cbn [length] in H. rewrite Z.pow_0_r, Z.mul_1_r, Z.add_0_r in H. apply H; [|now left|lia].
  rewrite Nat2Z.inj_succ, Z2Nat.id by apply Z.log2_nonneg. destruct (Z.eq_dec z 0) as [->|N]; [reflexivity|]. apply Z.log2_spec. lia.
Qed.
Lemma zeros_digits n s z : SpecMap.hex_digits s z -> SpecMap.hex_digits (repeat "0"%char n ++ s) z.
Proof.
  intros H. assert (N : s <> []) by (intros ->; inversion H as [|x ? ? ? ? ? E]; destruct x; discriminate E).
  induction n as [|n IH]; [exact H|]. cbn [repeat app]. pose proof (hex_digits_app ["0"%char] 0 (hex_one "0"%char 0 (conj (Z.le_refl 0) eq_refl)) (repeat "0"%char n ++ s) z) as G.
  rewrite Z.mul_0_l in G. apply G; [destruct n; [exact N|discriminate]|exact IH].
Qed.
Lemma hex_loop_head f : forall z acc, 0 < z < 16 ^ Z.of_nat f -> exists c r, Dwarf.hex_digits f z acc = c :: r /\ c <> "0"%char.
Proof.
  induction f as [|f IH]; intros z acc P; [cbn in P; lia|]. cbn [Dwarf.hex_digits]. rewrite Nat2Z.inj_succ, Z.pow_succ_r in P by lia. destruct (z <? 16) eqn:L.
  - apply Z.ltb_lt in L. rewrite Z.mod_small by lia. eexists. eexists. split; [reflexivity|].
    assert (C : z = 1 \/ z = 2 \/ z = 3 \/ z = 4 \/ z = 5 \/ z = 6 \/ z = 7 \/ z = 8 \/ z = 9 \/ z = 10 \/ z = 11 \/ z = 12 \/ z = 13 \/ z = 14 \/ z = 15) by lia.
    repeat (destruct C as [->|C]; [vm_compute; discriminate|]). subst z. vm_compute. discriminate.
  - apply Z.ltb_ge in L. apply IH. split; [apply Z.div_str_pos; lia|apply Z.div_lt_upper_bound; lia].
Qed.
Lemma hex_zeros_number n z : (3 <= n)%nat -> 0 <= z -> number_in n z (hex_zeros n z).
Proof.
  intros N P. unfold hex_zeros. rewrite (proj2 (Z.ltb_ge z 0) P). split; [eexists; split; [|reflexivity]; now apply zeros_digits, hex_loop_ok|].
  set (d := Dwarf.hex_digits _ _ _). change (Dump.tx "0x") with ["0"%char; "x"%char]. cbn [app length]. rewrite app_length, repeat_length. split; [lia|]. intros L r E.
  injection E as E. replace (n - 2 - length d)%nat with 0%nat in E by lia. cbn [repeat app] in E. destruct (Z.eq_dec z 0) as [->|NZ]; [vm_compute in d; unfold d in L; cbn in L; lia|].
  destruct (hex_loop_head (S (Z.to_nat (Z.log2 (Z.abs z)))) (Z.abs z) []) as (c & q & H & C); [|fold d in H; congruence].
  rewrite Z.abs_eq by lia. rewrite Nat2Z.inj_succ, Z2Nat.id by apply Z.log2_nonneg. split; [lia|]. pose proof (proj2 (Z.log2_spec z ltac:(lia))). eapply Z.lt_le_trans; [eassumption|]. apply Z.pow_le_mono_l. lia.
Qed.
Lemma hex_int_number z : 0 <= z -> number_in 3 z (hex_int z).
Proof.
  intros P. assert (E : hex_int z = hex_zeros 3 z); [|rewrite E; now apply hex_zeros_number].
  unfold hex_int, hex_zeros. rewrite (proj2 (Z.ltb_ge z 0) P). f_equal. set (d := Dwarf.hex_digits _ _ _).
  assert (N : (1 <= length d)%nat) by (pose proof (hex_loop_ok z P) as H; fold d in H; destruct H; rewrite ?app_length; cbn; lia).
  change (length (Dump.tx "0x")) with 2%nat. replace (3 - 2 - length d)%nat with 0%nat by lia. reflexivity.
Qed.
Lemma hex_bytes_ok b : is_bytes b -> bytes_hex b (hex_bytes b).
Proof.
  induction 1 as [|x b B F IH]; [constructor|]. cbn [hex_bytes flat_map app]. constructor; [apply hex_digit_ok|apply hex_digit_ok|exact IH].
  - split; [apply Z.div_pos; lia|apply Z.div_lt_upper_bound; lia].
  - apply Z.mod_pos_bound. lia.
Qed.

(** ** lines *)
Lemma spaces_repeat n : spaces (repeat " "%char n).
Proof. induction n; constructor; auto. Qed.
Lemma spaces_app a b : spaces a -> spaces b -> spaces (a ++ b).
Proof. intros A B. apply Forall_app. now split. Qed.
Lemma cells_left w n l s : cells l s -> cells (w :: l) (left_in n w ++ " "%char :: s).
Proof.
  intros C. unfold left_in. rewrite <- app_assoc. change (" "%char :: s) with ([" "%char] ++ s). rewrite (app_assoc (repeat _ _)). constructor; [|apply spaces_app; [apply spaces_repeat|now repeat constructor]|exact C].
  intros E. apply app_eq_nil in E. destruct E as (_ & E). discriminate E.
Qed.
Lemma cells_word w l s : cells l s -> cells (w :: l) (w ++ " "%char :: s).
Proof. intros C. change (" "%char :: s) with ([" "%char] ++ s). constructor; [discriminate|now repeat constructor|exact C]. Qed.
Lemma cells_right v w n l s : cells (w :: l) (w ++ s) -> cells (v :: w :: l) (v ++ " "%char :: right_in n w ++ s).
Proof.
  intros C. unfold right_in. rewrite <- app_assoc. replace (v ++ " "%char :: repeat " "%char (n - length w) ++ w ++ s) with (v ++ (" "%char :: repeat " "%char (n - length w)) ++ w ++ s) by reflexivity.
  constructor; [discriminate|constructor; [reflexivity|apply spaces_repeat]|exact C].
Qed.
Lemma rows_nil {A} (R : nat -> A -> str -> Prop) : rows R [] [].
Proof. split; [reflexivity|]. intros [|i] a E; discriminate E. Qed.

(** ** printing *)
Lemma say_then {B} l (f : unit -> out B) : and_then (say l) f = (l :: fst (f tt), snd (f tt)).
Proof. unfold and_then, say. now destruct (f tt). Qed.
Lemma lift_then {A B} (a : A) (f : A -> out B) : and_then (lift (Ok a)) f = f a.
Proof. unfold and_then, lift. now destruct (f a). Qed.
Lemma lift_error {A B} x (f : A -> out B) : and_then (lift (Err x)) f = ([], Err x).
Proof. reflexivity. Qed.
Lemma each_lines {A} (f : A -> out unit) (R : A -> list str -> Prop) l : (forall a, In a l -> exists ls, f a = (ls, Ok tt) /\ R a ls) ->
  exists lss, each f l = (concat lss, Ok tt) /\ Forall2 R l lss.
Proof.
  induction l as [|a l IH]; intros H; [exists []; split; [reflexivity|constructor]|]. destruct (H a (or_introl eq_refl)) as (ls & E & Ra).
  destruct IH as (lss & El & Rl); [intros b I; apply H; now right|]. exists (ls :: lss). cbn [each concat]. rewrite E. unfold and_then. rewrite El. split; [reflexivity|now constructor].
Qed.
Lemma each_from_lines {A} (f : Z -> A -> out unit) (R : nat -> A -> list str -> Prop) l : forall k,
  (forall i a, nth_error l i = Some a -> exists ls, f (Z.of_nat (k + i)) a = (ls, Ok tt) /\ R (k + i)%nat a ls) ->
  exists lss, each_from f (Z.of_nat k) l = (concat lss, Ok tt) /\ length lss = length l /\
    forall i a, nth_error l i = Some a -> exists ls, nth_error lss i = Some ls /\ R (k + i)%nat a ls.
Proof.
  induction l as [|a l IH]; intros k H; [exists []; split; [reflexivity|split; [reflexivity|intros [|i] b E; discriminate E]]|].
  destruct (H 0%nat a eq_refl) as (ls & E & Ra). rewrite Nat.add_0_r in *. destruct (IH (S k)) as (lss & El & Ll & Rl).
  { intros i b I. specialize (H (S i) b I). now replace (S k + i)%nat with (k + S i)%nat by lia. }
  exists (ls :: lss). cbn [each_from concat length]. rewrite E. unfold and_then. replace (Z.of_nat k + 1) with (Z.of_nat (S k)) by lia. rewrite El. split; [reflexivity|]. split; [now rewrite Ll|].
  intros [|i] b I; cbn [nth_error] in *; [injection I as <-; exists ls; rewrite Nat.add_0_r; now split|]. destruct (Rl i b I) as (x & X & Rx). exists x. split; [exact X|]. now replace (k + S i)%nat with (S k + i)%nat by lia.
Qed.
(** one line each *)
Lemma each_from_rows {A} (f : Z -> A -> out unit) (R : nat -> A -> str -> Prop) l :
  (forall i a, nth_error l i = Some a -> exists line, f (Z.of_nat i) a = ([line], Ok tt) /\ R i a line) ->
  exists lines, each_from f 0 l = (lines, Ok tt) /\ rows R l lines.
Proof.
  intros H. destruct (each_from_lines f (fun i a ls => exists line, ls = [line] /\ R i a line) l 0) as (lss & E & L & G).
  { intros i a I. destruct (H i a I) as (line & X & Y). exists [line]. cbn [Nat.add]. split; [exact X|now exists line]. }
  change (Z.of_nat 0) with 0 in E. exists (concat lss). split; [exact E|]. clear E H f. cbn [Nat.add] in G. revert lss R L G. induction l as [|a l IH]; intros [|ls lss] R L G; try discriminate L; [apply rows_nil|].
  destruct (G 0%nat a eq_refl) as (x & X & line & -> & Ra). injection X as ->. cbn [concat app length] in *.
  destruct (IH lss (fun i => R (S i))) as (Li & Ri); [lia|intros i b I; exact (G (S i) b I)|]. split; [cbn [length]; f_equal; exact Li|].
  intros [|i] b I; cbn [nth_error] in *; [injection I as <-; now exists line|exact (Ri i b I)].
Qed.
