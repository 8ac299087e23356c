(** * Base: Python values used by every model file.

    Simplifications made here and inherited everywhere:
    - a Python [str] is a list of code points 0..255 ([list ascii]);
    - a Python [int] is [Z];
    - a Python [dict] is its list of items in insertion order;
    - an exception is a value [Err e]; messages are dropped. *)
From Coq Require Import Ascii String.
From Coq Require Import List ZArith Lia Bool Permutation Sorted.
Import ListNotations.
Open Scope list_scope.
Open Scope Z_scope.

(** ** Strings *)

Definition str := list ascii.
Coercion list_ascii_of_string : string >-> list.
Delimit Scope string_scope with string.
Open Scope string_scope.
Open Scope list_scope.
Open Scope Z_scope.

(** ** Exceptions as values *)

(** Python exception classes that can occur in the modelled code.
    [OutOfFuel] is not a Python exception: it means that the fuel handed to a
    model function was used up, i.e. the Python loop had not ended yet. *)
Inductive exn :=
| MapFileException   (* mapfile.py:12 *)
| MemMapException    (* memorymap.py:86 *)
| Elf_Exception      (* elf.py, class Elf_Exception *)
| ValueError | IndexError | KeyError | NameError | TypeError | AssertionError
| StructError        (* struct.error *)
| OSError
| AttributeError
| SyntaxError
| SystemExit         (* raised by log.die and sys.exit *)
| KeyboardInterrupt
| OutOfFuel.

Inductive res (A : Type) := Ok (a : A) | Err (e : exn).
Arguments Ok {A} a.
Arguments Err {A} e.

Definition bind {A B} (x : res A) (f : A -> res B) : res B :=
  match x with Ok a => f a | Err e => Err e end.
Notation "'do' x <- e ; f" := (bind e (fun x => f))
  (at level 60, x pattern, e at level 50, right associativity).

Definition is_ok {A} (x : res A) : bool := match x with Ok _ => true | Err _ => false end.

(** Left-to-right loop with early exit on exceptions. *)
Fixpoint foldM {A S} (f : S -> A -> res S) (s : S) (l : list A) : res S :=
  match l with
  | [] => Ok s
  | a :: l' => do s' <- f s a; foldM f s' l'
  end.

Fixpoint mapM {A B} (f : A -> res B) (l : list A) : res (list B) :=
  match l with
  | [] => Ok []
  | a :: l' => do b <- f a; do bs <- mapM f l'; Ok (b :: bs)
  end.

(** ** Decidable equality *)

Class Eqb (K : Type) := {
  keq : K -> K -> bool;
  keq_eq : forall x y, keq x y = true <-> x = y }.

#[global] Arguments keq {K Eqb} : simpl never.

Infix "=?=" := keq (at level 70, no associativity).

Lemma keq_refl {K} `{Eqb K} (x : K) : (x =?= x) = true.
Proof. apply keq_eq; reflexivity. Qed.

Lemma keq_neq {K} `{Eqb K} (x y : K) : (x =?= y) = false <-> x <> y.
Proof.
  split.
  - intros E F. subst. rewrite keq_refl in E. discriminate.
  - intros N. destruct (x =?= y) eqn:E; [|reflexivity].
    apply keq_eq in E. contradiction.
Qed.

Lemma keq_sym {K} `{Eqb K} (x y : K) : (x =?= y) = (y =?= x).
Proof.
  destruct (x =?= y) eqn:E.
  - apply keq_eq in E. subst. symmetry. apply keq_refl.
  - apply keq_neq in E. symmetry. apply keq_neq. congruence.
Qed.

Lemma keq_true {K} `{Eqb K} (x y : K) : (x =?= y) = true -> x = y.
Proof. apply keq_eq. Qed.

Lemma keqP {K} `{Eqb K} (x y : K) : reflect (x = y) (x =?= y).
Proof.
  destruct (x =?= y) eqn:E; constructor.
  - apply keq_eq, E.
  - apply keq_neq, E.
Qed.

Lemma eq_dec_of_eqb {K} `{Eqb K} (x y : K) : {x = y} + {x <> y}.
Proof. destruct (keqP x y); auto. Qed.

#[global] Program Instance Eqb_ascii : Eqb ascii := {| keq := Ascii.eqb |}.
Next Obligation. apply Ascii.eqb_eq. Qed.

#[global] Program Instance Eqb_Z : Eqb Z := {| keq := Z.eqb |}.
Next Obligation. apply Z.eqb_eq. Qed.

#[global] Program Instance Eqb_nat : Eqb nat := {| keq := Nat.eqb |}.
Next Obligation. apply PeanoNat.Nat.eqb_eq. Qed.

Fixpoint list_eqb {A} `{Eqb A} (l m : list A) : bool :=
  match l, m with
  | [], [] => true
  | x :: l', y :: m' => (x =?= y) && list_eqb l' m'
  | _, _ => false
  end.

#[global] Program Instance Eqb_list {A} `{Eqb A} : Eqb (list A) := {| keq := list_eqb |}.
Next Obligation.
  revert y. induction x as [|a x IH]; intros [|b y]; simpl; split; intros E; try discriminate; auto.
  - apply andb_true_iff in E. destruct E as [E1 E2].
    apply keq_eq in E1. apply IH in E2. subst. reflexivity.
  - injection E as -> ->. rewrite keq_refl. simpl. apply IH. reflexivity.
Qed.

#[global] Program Instance Eqb_prod {A B} `{Eqb A} `{Eqb B} : Eqb (A * B) :=
  {| keq := fun p q => (fst p =?= fst q) && (snd p =?= snd q) |}.
Next Obligation.
  cbn [fst snd]. rewrite andb_true_iff, !keq_eq. split; [intros [-> ->]; reflexivity|].
  intros E. injection E as -> ->. auto.
Qed.

Definition mem {A} `{Eqb A} (x : A) (l : list A) : bool := existsb (fun y => x =?= y) l.

Lemma mem_In {A} `{Eqb A} (x : A) l : mem x l = true <-> In x l.
Proof.
  unfold mem. rewrite existsb_exists. split.
  - intros (y & I & E). apply keq_eq in E. congruence.
  - intros I. exists x. split; [assumption|apply keq_refl].
Qed.

Lemma mem_not_In {A} `{Eqb A} (x : A) l : mem x l = false <-> ~ In x l.
Proof.
  rewrite <- mem_In. destruct (mem x l); intuition congruence.
Qed.

(** ** Dictionaries: items in insertion order *)

Definition dict (K V : Type) := list (K * V).

Section Dict.
  Context {K V : Type} `{Eqb K}.

  (** [d.get(k)] *)
  Fixpoint dget (k : K) (d : dict K V) : option V :=
    match d with
    | [] => None
    | (k', v) :: d' => if k =?= k' then Some v else dget k d'
    end.

  (** [d[k] = v]: overwrite in place, else append *)
  Fixpoint dset (k : K) (v : V) (d : dict K V) : dict K V :=
    match d with
    | [] => [(k, v)]
    | (k', v') :: d' => if k =?= k' then (k', v) :: d' else (k', v') :: dset k v d'
    end.

  (** in-place modification of the value stored under an existing key *)
  Fixpoint dupd (k : K) (f : V -> V) (d : dict K V) : dict K V :=
    match d with
    | [] => []
    | (k', v') :: d' => if k =?= k' then (k', f v') :: d' else (k', v') :: dupd k f d'
    end.

  (** [k in d] *)
  Definition dmem (k : K) (d : dict K V) : bool :=
    match dget k d with Some _ => true | None => false end.

  Definition keys (d : dict K V) : list K := map fst d.
  Definition vals (d : dict K V) : list V := map snd d.

  (** every Python dict satisfies this *)
  Definition wf_dict (d : dict K V) : Prop := NoDup (keys d).

  Lemma dget_In k v d : dget k d = Some v -> In (k, v) d.
  Proof.
    induction d as [|[k' v'] d IH]; simpl; intros E; [discriminate|].
    destruct (keqP k k') as [->|N].
    - injection E as ->. auto.
    - auto.
  Qed.

  Lemma dget_None k d : dget k d = None <-> ~ In k (keys d).
  Proof.
    induction d as [|[k' v'] d IH]; simpl.
    - tauto.
    - destruct (keqP k k') as [->|N].
      + split; [discriminate|]. intros F. exfalso. apply F. auto.
      + rewrite IH. split; intros F; intuition congruence.
  Qed.

  Lemma dget_Some_key k v d : dget k d = Some v -> In k (keys d).
  Proof. intros E. apply dget_In in E. apply (in_map fst) in E. exact E. Qed.

  Lemma In_key_dget k d : In k (keys d) -> exists v, dget k d = Some v.
  Proof.
    intros I. destruct (dget k d) eqn:E; eauto.
    apply dget_None in E. contradiction.
  Qed.

  Lemma In_dget k v d : wf_dict d -> In (k, v) d -> dget k d = Some v.
  Proof.
    unfold wf_dict. induction d as [|[k' v'] d IH]; simpl; intros W I; [contradiction|].
    inversion W as [|? ? N W']; subst.
    destruct I as [E|I].
    - injection E as -> ->. rewrite keq_refl. reflexivity.
    - destruct (keqP k k') as [->|Ne].
      + exfalso. apply N. apply (in_map fst) in I. exact I.
      + auto.
  Qed.

  Lemma dget_iff k v d : wf_dict d -> dget k d = Some v <-> In (k, v) d.
  Proof. intros W. split; [apply dget_In | apply In_dget; exact W]. Qed.

  Lemma dmem_In k d : dmem k d = true <-> In k (keys d).
  Proof.
    unfold dmem. destruct (dget k d) eqn:E.
    - split; [intros _; eapply dget_Some_key; eauto | reflexivity].
    - split; [discriminate|]. intros I. apply dget_None in E. contradiction.
  Qed.

  Lemma dmem_false k d : dmem k d = false <-> ~ In k (keys d).
  Proof. rewrite <- dmem_In. destruct (dmem k d); intuition congruence. Qed.

  Lemma dget_dset_eq k v d : dget k (dset k v d) = Some v.
  Proof.
    induction d as [|[k' v'] d IH]; simpl.
    - rewrite keq_refl. reflexivity.
    - destruct (keqP k k') as [->|N]; simpl.
      + rewrite keq_refl. reflexivity.
      + destruct (keqP k k'); [contradiction|]. exact IH.
  Qed.

  Lemma dget_dset_neq k k' v d : k <> k' -> dget k (dset k' v d) = dget k d.
  Proof.
    intros N. induction d as [|[k1 v1] d IH]; simpl.
    - destruct (keqP k k'); [contradiction|reflexivity].
    - destruct (keqP k' k1) as [->|N1]; simpl.
      + destruct (keqP k k1); [contradiction|]. reflexivity.
      + destruct (k =?= k1); [reflexivity|]. exact IH.
  Qed.

  Lemma keys_dset_in k v d : In k (keys d) -> keys (dset k v d) = keys d.
  Proof.
    induction d as [|[k' v'] d IH]; simpl; intros I; [contradiction|].
    destruct (keqP k k') as [->|N]; simpl; [reflexivity|].
    f_equal. apply IH. destruct I; [congruence|assumption].
  Qed.

  Lemma dset_notin k v d : ~ In k (keys d) -> dset k v d = d ++ [(k, v)].
  Proof.
    induction d as [|[k' v'] d IH]; simpl; intros I; [reflexivity|].
    destruct (keqP k k') as [->|N].
    - exfalso. auto.
    - f_equal. apply IH. tauto.
  Qed.

  Lemma keys_dset k v d :
    keys (dset k v d) = if dmem k d then keys d else keys d ++ [k].
  Proof.
    destruct (dmem k d) eqn:E.
    - apply keys_dset_in, dmem_In, E.
    - rewrite dset_notin by (apply dmem_false, E). unfold keys. rewrite map_app. reflexivity.
  Qed.

  Lemma In_keys_dset k k' v d : In k (keys (dset k' v d)) <-> k = k' \/ In k (keys d).
  Proof.
    rewrite keys_dset. destruct (dmem k' d) eqn:E.
    - apply dmem_In in E. split; [auto|]. intros [->|]; assumption.
    - rewrite in_app_iff. simpl. split; intuition.
  Qed.

  Lemma NoDup_app_singleton {A} (l : list A) x : NoDup l -> ~ In x l -> NoDup (l ++ [x]).
  Proof.
    intros N I. apply Permutation_NoDup with (l := x :: l).
    - apply Permutation_cons_append.
    - constructor; assumption.
  Qed.

  Lemma wf_dset k v d : wf_dict d -> wf_dict (dset k v d).
  Proof.
    unfold wf_dict. intros W. rewrite keys_dset. destruct (dmem k d) eqn:E; [assumption|].
    apply NoDup_app_singleton; [assumption|]. apply dmem_false, E.
  Qed.

  Lemma keys_dupd k f d : keys (dupd k f d) = keys d.
  Proof.
    induction d as [|[k' v'] d IH]; simpl; [reflexivity|].
    destruct (k =?= k'); simpl; [reflexivity|]. f_equal. exact IH.
  Qed.

  Lemma wf_dupd k f d : wf_dict d -> wf_dict (dupd k f d).
  Proof. unfold wf_dict. rewrite keys_dupd. auto. Qed.

  Lemma dget_dupd_eq k f d : dget k (dupd k f d) = option_map f (dget k d).
  Proof.
    induction d as [|[k' v'] d IH]; simpl; [reflexivity|].
    destruct (keqP k k') as [->|N]; simpl.
    - rewrite keq_refl. reflexivity.
    - destruct (keqP k k'); [contradiction|]. exact IH.
  Qed.

  Lemma dget_dupd_neq k k' f d : k <> k' -> dget k (dupd k' f d) = dget k d.
  Proof.
    intros N. induction d as [|[k1 v1] d IH]; simpl; [reflexivity|].
    destruct (keqP k' k1) as [->|N1]; simpl.
    - destruct (keqP k k1); [contradiction|]. reflexivity.
    - destruct (k =?= k1); [reflexivity|]. exact IH.
  Qed.

  Lemma dset_as_dupd k v d : In k (keys d) -> dset k v d = dupd k (fun _ => v) d.
  Proof.
    induction d as [|[k' v'] d IH]; simpl; intros I; [contradiction|].
    destruct (keqP k k') as [->|N]; [reflexivity|].
    f_equal. apply IH. destruct I; [congruence|assumption].
  Qed.

  Lemma dset_length_le k v d : (length d <= length (dset k v d))%nat.
  Proof.
    induction d as [|[k' v'] d IH]; simpl; [lia|].
    destruct (k =?= k'); simpl; lia.
  Qed.

  Lemma wf_nil : wf_dict [].
  Proof. constructor. Qed.

  Lemma wf_filter f d : wf_dict d -> wf_dict (filter f d).
  Proof.
    unfold wf_dict. induction d as [|[k v] d IH]; simpl; intros W; [constructor|].
    inversion W as [|? ? N W']; subst.
    destruct (f (k, v)); simpl; [|auto].
    constructor; [|auto]. intros I. apply N.
    unfold keys in *. apply in_map_iff in I. destruct I as ([k' v'] & E & I).
    simpl in E. subst. apply filter_In in I. apply in_map_iff. exists (k, v'). tauto.
  Qed.

  Lemma dget_filter_key (f : K -> V -> bool) k d :
    wf_dict d ->
    dget k (filter (fun kv => f (fst kv) (snd kv)) d) =
    match dget k d with Some v => if f k v then Some v else None | None => None end.
  Proof.
    unfold wf_dict. induction d as [|[k' v] d IH]; simpl; intros W; [reflexivity|].
    inversion W as [|? ? N W']; subst. specialize (IH W').
    destruct (keqP k k') as [->|Ne].
    - destruct (f k' v) eqn:F; simpl.
      + rewrite keq_refl. reflexivity.
      + rewrite IH. destruct (dget k' d) eqn:E; [|reflexivity].
        exfalso. apply N. eapply dget_Some_key; eauto.
    - destruct (f k' v); simpl; [|exact IH].
      destruct (keqP k k'); [contradiction|]. exact IH.
  Qed.

  Lemma wf_perm d d' : Permutation d d' -> wf_dict d -> wf_dict d'.
  Proof.
    unfold wf_dict. intros P W. eapply Permutation_NoDup; [|exact W].
    apply Permutation_map. exact P.
  Qed.

  Lemma dget_perm d d' k : wf_dict d -> Permutation d d' -> dget k d = dget k d'.
  Proof.
    intros W P. destruct (dget k d) eqn:E.
    - symmetry. apply In_dget; [eapply wf_perm; eauto|].
      eapply Permutation_in; [exact P|]. apply dget_In, E.
    - symmetry. apply dget_None. apply dget_None in E. intros I. apply E.
      unfold keys in *. eapply Permutation_in; [|exact I].
      apply Permutation_map, Permutation_sym, P.
  Qed.

  Lemma dget_app k d d' :
    dget k (d ++ d') = match dget k d with Some v => Some v | None => dget k d' end.
  Proof.
    induction d as [|[k' v] d IH]; simpl; [reflexivity|].
    destruct (k =?= k'); [reflexivity|exact IH].
  Qed.
End Dict.

(** mapping over the values, keeping keys and order *)
Definition dmap {K V W} (f : V -> W) (d : dict K V) : dict K W :=
  map (fun kv => (fst kv, f (snd kv))) d.

Lemma keys_dmap {K V W} (f : V -> W) (d : dict K V) : keys (dmap f d) = keys d.
Proof. unfold keys, dmap. rewrite map_map. reflexivity. Qed.

Lemma wf_dmap {K V W} (f : V -> W) (d : dict K V) : wf_dict d -> wf_dict (dmap f d).
Proof. unfold wf_dict. rewrite keys_dmap. auto. Qed.

Lemma dget_dmap {K V W} `{Eqb K} (f : V -> W) k (d : dict K V) :
  dget k (dmap f d) = option_map f (dget k d).
Proof.
  induction d as [|[k' v] d IH]; simpl; [reflexivity|].
  destruct (k =?= k'); [reflexivity|exact IH].
Qed.

(** mapping with access to the key *)
Definition dmapk {K V W} (f : K -> V -> W) (d : dict K V) : dict K W :=
  map (fun kv => (fst kv, f (fst kv) (snd kv))) d.

Lemma keys_dmapk {K V W} (f : K -> V -> W) (d : dict K V) : keys (dmapk f d) = keys d.
Proof. unfold keys, dmapk. rewrite map_map. reflexivity. Qed.

Lemma dget_dmapk {K V W} `{Eqb K} (f : K -> V -> W) k (d : dict K V) :
  dget k (dmapk f d) = option_map (f k) (dget k d).
Proof.
  induction d as [|[k' v] d IH]; simpl; [reflexivity|].
  destruct (keqP k k') as [->|]; [reflexivity|exact IH].
Qed.

(** ** Sums *)

Fixpoint zsum (l : list Z) : Z := match l with [] => 0 | x :: l' => x + zsum l' end.

Lemma zsum_app l m : zsum (l ++ m) = zsum l + zsum m.
Proof. induction l; simpl; lia. Qed.

Lemma zsum_perm l m : Permutation l m -> zsum l = zsum m.
Proof. induction 1; simpl; lia. Qed.

Lemma zsum_rev l : zsum (rev l) = zsum l.
Proof. apply zsum_perm, Permutation_sym, Permutation_rev. Qed.

Definition zsumf {A} (f : A -> Z) (l : list A) : Z := zsum (map f l).

Lemma zsumf_app {A} (f : A -> Z) l m : zsumf f (l ++ m) = zsumf f l + zsumf f m.
Proof. unfold zsumf. rewrite map_app. apply zsum_app. Qed.

Lemma zsumf_cons {A} (f : A -> Z) a l : zsumf f (a :: l) = f a + zsumf f l.
Proof. reflexivity. Qed.

Lemma zsumf_nil {A} (f : A -> Z) : zsumf f [] = 0.
Proof. reflexivity. Qed.

Lemma zsumf_perm {A} (f : A -> Z) l m : Permutation l m -> zsumf f l = zsumf f m.
Proof. intros P. apply zsum_perm, Permutation_map, P. Qed.

Lemma zsumf_ext {A} (f g : A -> Z) l : (forall a, In a l -> f a = g a) -> zsumf f l = zsumf g l.
Proof.
  unfold zsumf. induction l as [|a l IH]; simpl; intros E; [reflexivity|].
  rewrite (E a) by auto. rewrite IH; auto.
Qed.

Lemma zsumf_plus {A} (f g : A -> Z) l : zsumf (fun a => f a + g a) l = zsumf f l + zsumf g l.
Proof. unfold zsumf. induction l; simpl; lia. Qed.

Lemma zsumf_minus {A} (f g : A -> Z) l : zsumf (fun a => f a - g a) l = zsumf f l - zsumf g l.
Proof. unfold zsumf. induction l; simpl; lia. Qed.

Lemma zsumf_zero {A} (f : A -> Z) l : (forall a, In a l -> f a = 0) -> zsumf f l = 0.
Proof.
  unfold zsumf. induction l as [|a l IH]; simpl; intros E; [reflexivity|].
  rewrite (E a) by auto. rewrite IH; auto.
Qed.

Lemma zsumf_map {A B} (g : A -> B) (f : B -> Z) l : zsumf f (map g l) = zsumf (fun a => f (g a)) l.
Proof. unfold zsumf. rewrite map_map. reflexivity. Qed.

Lemma zsumf_flat_map {A B} (g : A -> list B) (f : B -> Z) l :
  zsumf f (flat_map g l) = zsumf (fun a => zsumf f (g a)) l.
Proof.
  induction l as [|a l IH]; simpl; [reflexivity|].
  rewrite zsumf_app, IH. reflexivity.
Qed.

Lemma zsumf_filter {A} (p : A -> bool) (f : A -> Z) l :
  zsumf f (filter p l) = zsumf (fun a => if p a then f a else 0) l.
Proof.
  induction l as [|a l IH]; simpl; [reflexivity|].
  rewrite !zsumf_cons. destruct (p a); rewrite ?zsumf_cons; lia.
Qed.

Lemma zsumf_split {A} (p : A -> bool) (f : A -> Z) l :
  zsumf f l = zsumf f (filter p l) + zsumf f (filter (fun a => negb (p a)) l).
Proof.
  induction l as [|a l IH]; simpl; [reflexivity|].
  destruct (p a); simpl; rewrite !zsumf_cons; lia.
Qed.

Lemma zsumf_nonneg {A} (f : A -> Z) l : (forall a, In a l -> 0 <= f a) -> 0 <= zsumf f l.
Proof.
  unfold zsumf. induction l as [|a l IH]; simpl; intros E; [lia|].
  pose proof (E a (or_introl eq_refl)). assert (0 <= zsum (map f l)) by auto. lia.
Qed.

(** ** Python's [sorted]: stable, also with [reverse=True] *)

Section Sort.
  Context {A : Type} (key : A -> Z).

  (** [before rev x y]: x may stand before y *)
  Definition before (reverse : bool) (x y : A) : bool :=
    if reverse then key y <=? key x else key x <=? key y.

  Fixpoint insert_sorted (reverse : bool) (x : A) (l : list A) : list A :=
    match l with
    | [] => [x]
    | y :: l' => if before reverse x y then x :: y :: l' else y :: insert_sorted reverse x l'
    end.

  Fixpoint py_sorted (reverse : bool) (l : list A) : list A :=
    match l with
    | [] => []
    | x :: l' => insert_sorted reverse x (py_sorted reverse l')
    end.

  Lemma insert_perm r x l : Permutation (x :: l) (insert_sorted r x l).
  Proof.
    induction l as [|y l IH]; simpl; [auto|].
    destruct (before r x y); [auto|].
    rewrite perm_swap. apply perm_skip, IH.
  Qed.

  Lemma py_sorted_perm r l : Permutation l (py_sorted r l).
  Proof.
    induction l as [|x l IH]; simpl; [auto|].
    rewrite <- insert_perm. apply perm_skip, IH.
  Qed.

  Definition ordered (r : bool) (x y : A) : Prop :=
    if r then key y <= key x else key x <= key y.

  Lemma before_ordered r x y : before r x y = true <-> ordered r x y.
  Proof. unfold before, ordered. destruct r; apply Z.leb_le. Qed.

  Lemma ordered_trans r x y z : ordered r x y -> ordered r y z -> ordered r x z.
  Proof. unfold ordered. destruct r; lia. Qed.

  Lemma ordered_total r x y : before r x y = false -> ordered r y x.
  Proof. unfold before, ordered. destruct r; intros E; apply Z.leb_gt in E; lia. Qed.

  Lemma insert_sorted_sorted r x l :
    StronglySorted (ordered r) l -> StronglySorted (ordered r) (insert_sorted r x l).
  Proof.
    induction l as [|y l IH]; simpl; intros S.
    - repeat constructor.
    - inversion S as [|? ? S' F]; subst.
      destruct (before r x y) eqn:B.
      + constructor; [assumption|]. apply before_ordered in B. constructor; [assumption|].
        eapply Forall_impl; [|exact F]. intros z O. eapply ordered_trans; eauto.
      + constructor; [auto|]. apply Forall_forall. intros z I.
        eapply Permutation_in in I; [|apply Permutation_sym, insert_perm].
        destruct I as [<-|I]; [apply ordered_total; assumption|].
        rewrite Forall_forall in F. auto.
  Qed.

  Lemma py_sorted_sorted r l : StronglySorted (ordered r) (py_sorted r l).
  Proof.
    induction l; simpl; [constructor|]. apply insert_sorted_sorted. assumption.
  Qed.

  (** stability: elements with equal keys keep their order *)
  Lemma insert_stable r x l k :
    StronglySorted (ordered r) l ->
    filter (fun a => key a =? k) (insert_sorted r x l) = filter (fun a => key a =? k) (x :: l).
  Proof.
    induction l as [|y l IH]; simpl; intros S; [reflexivity|].
    inversion S as [|? ? S' F]; subst. specialize (IH S'). simpl in IH.
    destruct (before r x y) eqn:B; simpl; [reflexivity|].
    rewrite IH.
    destruct (key x =? k) eqn:X, (key y =? k) eqn:Y; auto.
    exfalso. unfold before in B. destruct r; lia.
  Qed.

  Lemma py_sorted_stable r l k :
    filter (fun a => key a =? k) (py_sorted r l) = filter (fun a => key a =? k) l.
  Proof.
    induction l as [|x l IH]; simpl; [reflexivity|].
    rewrite insert_stable by apply py_sorted_sorted. simpl. rewrite IH. reflexivity.
  Qed.

  Lemma py_sorted_In r l x : In x (py_sorted r l) <-> In x l.
  Proof.
    split; intros I.
    - eapply Permutation_in; [apply Permutation_sym, py_sorted_perm|exact I].
    - eapply Permutation_in; [apply py_sorted_perm|exact I].
  Qed.

  Lemma insert_sorted_hd r x l : Forall (ordered r x) l -> insert_sorted r x l = x :: l.
  Proof.
    intros F. destruct l as [|y l]; simpl; [reflexivity|].
    inversion F; subst. replace (before r x y) with true; [reflexivity|].
    symmetry. apply before_ordered. assumption.
  Qed.

  Lemma py_sorted_id r l : StronglySorted (ordered r) l -> py_sorted r l = l.
  Proof.
    induction l as [|x l IH]; simpl; intros S; [reflexivity|].
    inversion S; subst. rewrite IH by assumption. apply insert_sorted_hd. assumption.
  Qed.

  Lemma py_sorted_idem r l : py_sorted r (py_sorted r l) = py_sorted r l.
  Proof. apply py_sorted_id, py_sorted_sorted. Qed.

  Lemma py_sorted_length r l : length (py_sorted r l) = length l.
  Proof. symmetry. apply Permutation_length, py_sorted_perm. Qed.
End Sort.

(** a list is determined by being sorted and by the order of equal elements *)
Lemma sorted_stable_unique {A} (key : A -> Z) r (l m : list A) :
  StronglySorted (ordered key r) l -> StronglySorted (ordered key r) m ->
  (forall k, filter (fun a => key a =? k) l = filter (fun a => key a =? k) m) -> l = m.
Proof.
  revert m. induction l as [|x l IH]; intros m Sl Sm E.
  - destruct m as [|y m]; [reflexivity|].
    specialize (E (key y)). simpl in E. rewrite Z.eqb_refl in E. discriminate.
  - destruct m as [|y m].
    + specialize (E (key x)). simpl in E. rewrite Z.eqb_refl in E. discriminate.
    + inversion Sl as [|? ? Sl' Fl]; inversion Sm as [|? ? Sm' Fm]; subst.
      assert (K : key x = key y).
      { assert (H1 : ordered key r x y).
        { assert (I : In y (x :: l)).
          { assert (I : In y (filter (fun a => key a =? key y) (y :: m))).
            { apply filter_In. simpl. rewrite Z.eqb_refl. auto. }
            rewrite <- E in I. apply filter_In in I. tauto. }
          destruct I as [<-|I].
          - unfold ordered. destruct r; lia.
          - rewrite Forall_forall in Fl. auto. }
        assert (H2 : ordered key r y x).
        { assert (I : In x (y :: m)).
          { assert (I : In x (filter (fun a => key a =? key x) (x :: l))).
            { apply filter_In. simpl. rewrite Z.eqb_refl. auto. }
            rewrite E in I. apply filter_In in I. tauto. }
          destruct I as [<-|I].
          - unfold ordered. destruct r; lia.
          - rewrite Forall_forall in Fm. auto. }
        unfold ordered in *. destruct r; lia. }
      assert (X : x = y).
      { pose proof (E (key x)) as E1. simpl in E1.
        rewrite K, Z.eqb_refl in E1. congruence. }
      subst y. f_equal. apply IH; try assumption.
      intros k. specialize (E k). simpl in E. destruct (key x =? k); congruence.
Qed.

(** ** Small list facts *)

Lemma foldM_app {A S} (f : S -> A -> res S) s l m :
  foldM f s (l ++ m) = do s' <- foldM f s l; foldM f s' m.
Proof.
  revert s. induction l as [|a l IH]; intros s; simpl; [reflexivity|].
  destruct (f s a); simpl; [apply IH|reflexivity].
Qed.

Lemma filter_filter {A} (p q : A -> bool) l :
  filter p (filter q l) = filter (fun a => q a && p a) l.
Proof.
  induction l as [|a l IH]; simpl; [reflexivity|].
  destruct (q a); simpl; [|exact IH]. destruct (p a); simpl; rewrite IH; reflexivity.
Qed.

Lemma filter_true {A} (p : A -> bool) l : (forall a, In a l -> p a = true) -> filter p l = l.
Proof.
  induction l as [|a l IH]; simpl; intros E; [reflexivity|].
  rewrite E by auto. f_equal. auto.
Qed.

Lemma filter_false {A} (p : A -> bool) l : (forall a, In a l -> p a = false) -> filter p l = [].
Proof.
  induction l as [|a l IH]; simpl; intros E; [reflexivity|].
  rewrite E by auto. auto.
Qed.

Lemma filter_ext_in' {A} (p q : A -> bool) l :
  (forall a, In a l -> p a = q a) -> filter p l = filter q l.
Proof.
  induction l as [|a l IH]; simpl; intros E; [reflexivity|].
  rewrite E by auto. destruct (q a); [f_equal|]; auto.
Qed.

(** sum over a superset of the keys *)
Definition oval {V} (f : V -> Z) (o : option V) : Z := match o with Some v => f v | None => 0 end.

Lemma zsumf_keys {K V} `{Eqb K} (f : V -> Z) (d : dict K V) (L : list K) :
  wf_dict d -> NoDup L -> (forall k, In k (keys d) -> In k L) ->
  zsumf (fun k => oval f (dget k d)) L = zsumf (fun kv => f (snd kv)) d.
Proof.
  revert L. induction d as [|[k v] d IH]; intros L W N I.
  - apply zsumf_zero. reflexivity.
  - unfold wf_dict in W. simpl in W. inversion W as [|? ? Nk W']; subst.
    assert (Ik : In k L) by (apply I; simpl; auto).
    apply in_split in Ik. destruct Ik as (L1 & L2 & ->).
    rewrite zsumf_app, zsumf_cons, zsumf_cons. simpl. rewrite keq_refl. simpl.
    pose proof (NoDup_remove_2 _ _ _ N) as Nin.
    pose proof (NoDup_remove_1 _ _ _ N) as N'.
    rewrite <- (IH (L1 ++ L2)); [|assumption|assumption|].
    + rewrite zsumf_app.
      assert (E : forall l, ~ In k l -> zsumf (fun k0 => oval f (if k0 =?= k then Some v else dget k0 d)) l
                                   = zsumf (fun k0 => oval f (dget k0 d)) l).
      { intros l Nl. apply zsumf_ext. intros a Ia. destruct (keqP a k); [|reflexivity].
        subst. contradiction. }
      rewrite !E; [lia| |]; intros F; apply Nin; apply in_or_app; auto.
    + intros k' Ik'. assert (Ik2 : In k' (L1 ++ k :: L2)) by (apply I; simpl; auto).
      apply in_app_or in Ik2. apply in_or_app.
      destruct Ik2 as [|[<-|]]; auto. contradiction.
Qed.
