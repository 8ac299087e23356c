(** * Proofs about JSON texts: what is dumped is read back *)
From Coq Require Import Ascii String List ZArith Lia Bool.
From Verif Require Import Base MemMap Filter PyStr Pipeline Deps Table SpecTable ProofTable Formats Project Main JsonText SpecText.
Import ListNotations.
Open Scope list_scope.
Open Scope Z_scope.

(** ** induction over JSON values *)
Fixpoint json_rect' (P : json -> Prop) (Hn : P JNull) (Hb : forall b, P (JBool b)) (Hz : forall z, P (JNum z)) (Hs : forall s, P (JStr s))
  (Hl : forall l, Forall P l -> P (JList l)) (Ho : forall d, Forall (fun kv => P (snd kv)) d -> P (JObj d)) (j : json) {struct j} : P j :=
  let R := json_rect' P Hn Hb Hz Hs Hl Ho in
  match j with
  | JNull => Hn
  | JBool b => Hb b
  | JNum z => Hz z
  | JStr s => Hs s
  | JList l => Hl l ((fix all (l : list json) : Forall P l := match l with [] => Forall_nil P | x :: r => Forall_cons x (R x) (all r) end) l)
  | JObj d => Ho d ((fix all (d : dict str json) : Forall (fun kv => P (snd kv)) d :=
      match d with [] => Forall_nil (fun kv => P (snd kv)) | x :: r => Forall_cons x (R (snd x)) (all r) end) d)
  end.

(** ** white space *)
Lemma skip_spaces n s : skip_ws (repeat " "%char n ++ s) = skip_ws s.
Proof. induction n as [|n IH]; [reflexivity|]. exact IH. Qed.
Lemma skip_new_line n s : skip_ws (new_line n ++ s) = skip_ws s.
Proof. unfold new_line. cbn [app skip_ws]. replace (json_ws newline) with true by reflexivity. apply skip_spaces. Qed.

(** ** strings *)
Lemma read_escaped c t : read_chars (escape_char c ++ t) = match read_chars t with Some (x, r) => Some (c :: x, r) | None => None end.
Proof. destruct c as [[] [] [] [] [] [] [] []]; reflexivity. Qed.
Lemma read_string s rest : read_chars (flat_map escape_char s ++ quote :: rest) = Some (s, rest).
Proof.
  induction s as [|c s IH]; [reflexivity|]. cbn [flat_map]. rewrite <- app_assoc, read_escaped, IH. reflexivity.
Qed.

(** ** numbers *)
Definition number_ends (rest : str) : Prop :=
  match rest with [] => True | c :: _ => digit_of c = None /\ c <> "."%char /\ c <> "e"%char /\ c <> "E"%char end.

Lemma digit_read c d : digit_is c d -> digit_of c = Some d.
Proof.
  intros [[L U] E]. unfold digit_of. rewrite E. assert (X : (Z.to_nat d <= 9)%nat) by lia.
  destruct (Nat.leb_spec 48 (48 + Z.to_nat d)); [|lia]. destruct (Nat.leb_spec (48 + Z.to_nat d) 57); [|lia]. cbn [andb]. f_equal. lia.
Qed.
Lemma read_digits_app s n : decimal s n -> forall k v rest,
  read_digits k v (s ++ rest) = read_digits (k + length s) (v * 10 ^ Z.of_nat (length s) + n) rest.
Proof.
  induction 1 as [c d D|s n c d H IH D]; intros k v rest.
  - cbn [app read_digits length]. rewrite (digit_read c d D). f_equal; [lia|]. change (10 ^ Z.of_nat 1) with 10. lia.
  - rewrite <- app_assoc, IH. cbn [app read_digits]. rewrite (digit_read c d D), app_length. cbn [length]. f_equal; [lia|].
    replace (Z.of_nat (length s + 1)) with (Z.of_nat (length s) + 1) by lia. rewrite Z.pow_add_r by lia. change (10 ^ 1) with 10. ring.
Qed.
Lemma read_digits_ends k v rest : number_ends rest -> read_digits k v rest = (k, v, rest).
Proof. destruct rest as [|c r]; [reflexivity|]. intros (E & _). cbn [read_digits]. now rewrite E. Qed.
Lemma decimal_nonempty s n : decimal s n -> exists c r, s = c :: r /\ digit_of c <> None.
Proof.
  induction 1 as [c d D|s n c d H (c0 & r & -> & IH) D].
  - exists c, []. split; [reflexivity|]. rewrite (digit_read c d D). discriminate.
  - exists c0, (r ++ [c]). split; [reflexivity|exact IH].
Qed.
Lemma read_natural_ok s n rest : decimal s n -> (forall r, s = "0"%char :: r -> r = []) -> number_ends rest -> read_natural (s ++ rest) = Some (n, rest).
Proof.
  intros D Z0 E. unfold read_natural. rewrite (read_digits_app s n D), (read_digits_ends _ _ _ E).
  destruct (decimal_nonempty s n D) as (c & r & -> & _). cbn [length Nat.add app].
  replace (0 * 10 ^ Z.of_nat (S (length r)) + n) with n by lia.
  assert (X : c = "0"%char -> length r = 0%nat) by (intros ->; now rewrite (Z0 r eq_refl)).
  clear -X E. destruct rest as [|e rest].
  - destruct (length r) as [|k]; [destruct c as [[] [] [] [] [] [] [] []]; reflexivity|].
    destruct c as [[] [] [] [] [] [] [] []]; try reflexivity. discriminate (X eq_refl).
  - destruct E as (_ & E1 & E2 & E3).
    assert (Y : forall A (x y z w : A), match e with "."%char => x | "e"%char => y | "E"%char => z | _ => w end = w).
    { intros. destruct e as [[] [] [] [] [] [] [] []]; try reflexivity; congruence. }
    destruct (length r) as [|k].
    + destruct c as [[] [] [] [] [] [] [] []]; cbv beta iota; apply Y.
    + destruct c as [[] [] [] [] [] [] [] []]; cbv beta iota; try apply Y. discriminate (X eq_refl).
Qed.
Lemma read_integer_ok z rest : number_ends rest -> read_integer (show_Z z ++ rest) = Some (z, rest).
Proof.
  intros E. destruct (show_Z_written z) as [(Z0 & D & L)|(Z0 & r & -> & D & L)].
  - destruct (decimal_nonempty _ _ D) as (c & r & R & N).
    assert (H : read_natural (show_Z z ++ rest) = Some (z, rest)) by (apply read_natural_ok; assumption).
    rewrite R in *. cbn [app] in *. unfold read_integer. rewrite <- H.
    destruct c as [[] [] [] [] [] [] [] []]; try reflexivity. now elim N.
  - cbn [app read_integer]. rewrite (read_natural_ok r (- z) rest D); [f_equal; f_equal; lia| |exact E].
    intros q ->. now elim (L q).
Qed.

(** ** values *)
Definition starts_value (s : str) : Prop := exists c r, s = c :: r /\ json_ws c = false /\ c <> "]"%char /\ c <> "}"%char.
Lemma dumps_starts n j : starts_value (dumps n j).
Proof.
  unfold starts_value. destruct j as [|[]|z|s|[|x l]|[|x d]]; cbn [dumps]; try (eexists; eexists; split; [reflexivity|repeat split; discriminate]).
  destruct (show_Z_written z) as [(_ & D & _)|(_ & r & -> & _)]; [|eexists; eexists; split; [reflexivity|repeat split; discriminate]].
  destruct (decimal_nonempty _ _ D) as (c & r & -> & N). exists c, r. split; [reflexivity|].
  destruct c as [[] [] [] [] [] [] [] []]; try (repeat split; discriminate); now elim N.
Qed.
Lemma starts_skip s rest : starts_value s -> skip_ws (s ++ rest) = s ++ rest.
Proof. intros (c & r & -> & W & _). cbn [app skip_ws]. now rewrite W. Qed.

Lemma read_value_ws f s t : skip_ws s = skip_ws t -> read_value f s = read_value f t.
Proof. intros E. destruct f; [reflexivity|]. cbn [read_value]. now rewrite E. Qed.
Lemma read_items_ws f s t : skip_ws s = skip_ws t -> read_items f s = read_items f t.
Proof. intros E. destruct f; [reflexivity|]. cbn [read_items]. now rewrite (read_value_ws f s t E). Qed.
Lemma read_members_ws f s t : skip_ws s = skip_ws t -> read_members f s = read_members f t.
Proof. intros E. destruct f; [reflexivity|]. cbn [read_members]. now rewrite E. Qed.

Lemma read_number f z rest : number_ends rest -> read_value (S f) (show_Z z ++ rest) = Some (JNum z, rest).
Proof.
  intros E. pose proof (read_integer_ok z rest E) as R. pose proof (dumps_starts 0 (JNum z)) as S. cbn [dumps] in S.
  cbn [read_value]. rewrite (starts_skip _ _ S). 
  assert (D : exists c r, show_Z z ++ rest = c :: r /\ (digit_of c <> None \/ c = "-"%char)).
  { destruct (show_Z_written z) as [(_ & D & _)|(_ & r & -> & _)]; [|exists "-"%char, (r ++ rest); auto].
    destruct (decimal_nonempty _ _ D) as (c & r & -> & N). exists c, (r ++ rest). auto. }
  destruct D as (c & r & Q & N). rewrite Q in *. 
  destruct c as [[] [] [] [] [] [] [] []]; try (now rewrite R); destruct N as [N|N]; try discriminate N; now elim N.
Qed.

Definition member_text (n : nat) (kv : str * json) : str := json_string (fst kv) ++ list_ascii_of_string ": " ++ dumps n (snd kv).

Definition reads (j : json) : Prop := forall n f rest, (2 * length (dumps n j) <= f)%nat -> number_ends rest -> read_value f (dumps n j ++ rest) = Some (j, rest).

Lemma number_ends_new_line n rest : number_ends (new_line n ++ rest).
Proof. cbn. repeat split; discriminate. Qed.

Lemma read_items_ok n k l : Forall reads l -> forall x f rest, reads x ->
  (2 * length (join_with (","%char :: new_line n) (map (dumps n) (x :: l))) + 1 <= f)%nat ->
  read_items f (join_with (","%char :: new_line n) (map (dumps n) (x :: l)) ++ new_line k ++ "]"%char :: rest) = Some (x :: l, rest).
Proof.
  induction 1 as [|y l Hy Hl IH]; intros x f rest Hx F.
  - cbn [map join_with] in *. destruct f as [|f]; [lia|]. cbn [read_items]. rewrite Hx; [|lia|apply number_ends_new_line].
    rewrite skip_new_line. reflexivity.
  - change (join_with (","%char :: new_line n) (map (dumps n) (x :: y :: l)))
      with (dumps n x ++ (","%char :: new_line n) ++ join_with (","%char :: new_line n) (map (dumps n) (y :: l))) in *.
    rewrite !app_length in F. cbn [length] in F. destruct f as [|f]; [lia|]. cbn [read_items]. rewrite <- app_assoc, Hx; [|lia|cbn; repeat split; discriminate].
    rewrite <- app_assoc. cbn [app skip_ws]. replace (json_ws ",") with false by reflexivity.
    rewrite (read_items_ws f _ _ (skip_new_line n _)), IH; [reflexivity|exact Hy|lia].
Qed.

Lemma read_members_ok n k d : Forall (fun kv => reads (snd kv)) d -> forall x f rest, reads (snd x) ->
  (2 * length (join_with (","%char :: new_line n) (map (member_text n) (x :: d))) + 1 <= f)%nat ->
  read_members f (join_with (","%char :: new_line n) (map (member_text n) (x :: d)) ++ new_line k ++ "}"%char :: rest) = Some (x :: d, rest).
Proof.
  assert (One : forall x f rest, reads (snd x) -> (2 * length (member_text n x) <= f)%nat -> number_ends rest ->
    read_members (S f) (member_text n x ++ rest) =
    match skip_ws rest with
    | ","%char :: r4 => option_map (fun p => (x :: fst p, snd p)) (read_members f r4)
    | "}"%char :: r4 => Some ([x], r4)
    | _ => None
    end).
  { intros [key v] f rest Hx F E. unfold member_text in *. cbn [fst snd] in *. unfold json_string in *. cbn [app read_members skip_ws].
    replace (json_ws quote) with false by reflexivity. unfold quote at 1. cbv iota beta.
    rewrite <- !app_assoc. change ([quote] ++ ?t) with (quote :: t). rewrite read_string. cbn [list_ascii_of_string app skip_ws].
    replace (json_ws ":") with false by reflexivity. cbv iota beta.
    rewrite (read_value_ws f (" "%char :: dumps n v ++ rest) (dumps n v ++ rest) eq_refl), Hx; [reflexivity| |exact E].
    cbn [length] in F. rewrite !app_length in F. cbn [length] in F. lia. }
  induction 1 as [|y d Hy Hd IH]; intros x f rest Hx F.
  - cbn [map join_with] in *. destruct f as [|f]; [lia|]. rewrite One; [|exact Hx|lia|apply number_ends_new_line]. rewrite skip_new_line. reflexivity.
  - change (join_with (","%char :: new_line n) (map (member_text n) (x :: y :: d)))
      with (member_text n x ++ (","%char :: new_line n) ++ join_with (","%char :: new_line n) (map (member_text n) (y :: d))) in *.
    rewrite !app_length in F. cbn [length] in F. destruct f as [|f]; [lia|]. rewrite <- app_assoc, One; [|exact Hx|lia|cbn; repeat split; discriminate].
    rewrite <- app_assoc. cbn [app skip_ws]. replace (json_ws ",") with false by reflexivity.
    rewrite (read_members_ws f _ _ (skip_new_line n _)), IH; [reflexivity|exact Hy|lia].
Qed.

Lemma skip_value s rest : starts_value s -> exists c r, s ++ rest = c :: r /\ skip_ws (s ++ rest) = c :: r /\ c <> "]"%char /\ c <> "}"%char.
Proof. intros S. pose proof (starts_skip s rest S) as E. destruct S as (c & r & -> & _ & A & B). exists c, (r ++ rest). auto. Qed.

Lemma dumps_read j : reads j.
Proof.
  induction j as [|b|z|s|l IH|d IH] using json_rect'; intros n f rest F E.
  - cbn in F. destruct f; [lia|]. reflexivity.
  - destruct b; cbn in F; (destruct f; [lia|]); reflexivity.
  - cbn [dumps] in *. destruct f as [|f]; [|now apply read_number].
    pose proof (dumps_starts 0 (JNum z)) as (c & r & Q & _). cbn [dumps] in Q. rewrite Q in F. cbn in F. lia.
  - cbn [dumps] in *. unfold json_string in *. destruct f; [cbn in F; lia|]. cbn [app read_value skip_ws].
    replace (json_ws quote) with false by reflexivity. unfold quote at 1. cbv iota beta. rewrite <- app_assoc. change ([quote] ++ rest) with (quote :: rest). rewrite read_string. reflexivity.
  - destruct l as [|x l]; [cbn in F; destruct f; [lia|]; reflexivity|].
    change (dumps n (JList (x :: l))) with ("["%char :: new_line (S n) ++ join_with (","%char :: new_line (S n)) (map (dumps (S n)) (x :: l)) ++ new_line n ++ ["]"%char]) in *.
    inversion IH as [|? ? Hx Hl]; subst. destruct f as [|f]; [cbn in F; lia|]. cbn [app length] in F. rewrite !app_length in F.
    cbn [app read_value skip_ws]. replace (json_ws "[") with false by reflexivity. cbv iota beta.
    rewrite <- !app_assoc. rewrite (skip_new_line (S n)).
    assert (St : starts_value (join_with (","%char :: new_line (S n)) (map (dumps (S n)) (x :: l)))).
    { cbn [map join_with]. destruct (dumps_starts (S n) x) as (c & r & Q & W). rewrite Q. destruct l; cbn [map app]; do 2 eexists; (split; [reflexivity|exact W]). }
    destruct (skip_value _ (new_line n ++ ["]"%char] ++ rest) St) as (c & r & _ & K & N1 & N2). rewrite K.
    assert (Y : forall A (u : A) v, match c with "]"%char => u | _ => v end = v) by (intros; destruct c as [[] [] [] [] [] [] [] []]; try reflexivity; congruence).
    rewrite Y, (read_items_ws f _ _ (skip_new_line (S n) _)). cbn [app]. rewrite (read_items_ok (S n) n l Hl x f rest Hx); [reflexivity|].
    unfold new_line in F at 1. cbn [length] in F. lia.
  - destruct d as [|x d]; [cbn in F; destruct f; [lia|]; reflexivity|].
    change (dumps n (JObj (x :: d))) with ("{"%char :: new_line (S n) ++ join_with (","%char :: new_line (S n)) (map (member_text (S n)) (x :: d)) ++ new_line n ++ ["}"%char]) in *.
    inversion IH as [|? ? Hx Hl]; subst. destruct f as [|f]; [cbn in F; lia|]. cbn [app length] in F. rewrite !app_length in F.
    cbn [app read_value skip_ws]. replace (json_ws "{") with false by reflexivity. cbv iota beta.
    rewrite <- !app_assoc. rewrite (skip_new_line (S n)).
    assert (St : starts_value (join_with (","%char :: new_line (S n)) (map (member_text (S n)) (x :: d)))).
    { cbn [map join_with]. unfold member_text at 1, json_string. destruct d; cbn [map app]; do 2 eexists; (split; [reflexivity|repeat split; discriminate]). }
    destruct (skip_value _ (new_line n ++ ["}"%char] ++ rest) St) as (c & r & _ & K & N1 & N2). rewrite K.
    assert (Y : forall A (u : A) v, match c with "}"%char => u | _ => v end = v) by (intros; destruct c as [[] [] [] [] [] [] [] []]; try reflexivity; congruence).
    rewrite Y, (read_members_ws f _ _ (skip_new_line (S n) _)). cbn [app]. rewrite (read_members_ok (S n) n d Hl x f rest Hx); [reflexivity|].
    unfold new_line in F at 1. cbn [length] in F. lia.
Qed.

Lemma dumps_json j : read_json (dumps 0 j) = Some j.
Proof.
  unfold read_json. pose proof (dumps_read j 0%nat (2 * length (dumps 0 j) + 2)%nat []) as R. rewrite app_nil_r in R. rewrite R; [reflexivity|lia|exact I].
Qed.
