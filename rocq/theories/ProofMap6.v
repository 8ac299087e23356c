(** * Proofs about the map file parser: whole maps *)
From Coq Require Import Ascii String List ZArith Bool Lia.
From Verif Require Import Base MemMap Pipeline PyStr MapFile SpecMap ProofPyStr ProofMap1 ProofMap2 ProofMap3 ProofMap4 ProofMap5.
Import ListNotations.
Open Scope list_scope.
Open Scope Z_scope.

Lemma regions_map rs tbl ls post m : region_table rs tbl -> prefix "Linker script and memory map" ls ->
  map_file (tbl ++ ls :: post) = Ok m -> pm_regions m = rs.
Proof.
  intros R P H. destruct (map_file_parts _ _ H) as (pre & ls' & script & _ & _ & _ & G & _).
  rewrite (regions_ok _ _ _ _ R P) in G. congruence.
Qed.

Lemma crt_map rs l es lines m : printed_map rs l (Some es) lines -> map_file lines = Ok m ->
  (forall y v, (exists t, pm_crt m = Some t /\ dget y t = Some v) <-> last_entry es y v) /\
  match pm_crt m with Some t => map fst t | None => [] end = distinct (map en_symbol es).
Proof.
  intros P H. destruct (printed_map_reads _ _ _ _ _ P H) as (_ & _ & E). split.
  - intros y v. pose proof (put_entries_get es y [] v) as G.
    assert (X : (exists t, pm_crt m = Some t /\ dget y t = Some v) <-> dget y (fold_left put_entry es []) = Some v).
    { rewrite E. destruct (fold_left put_entry es []) as [|p t].
      - split; [intros (t & X & _); discriminate|discriminate].
      - split; [intros (t' & X & Y); now injection X as <-|intro Y; eauto]. }
    rewrite X, G. cbn. split; [intros [A|[A _]]; [exact A|discriminate]|auto].
  - pose proof (put_entries_keys es []) as K. cbn [map app existsb negb] in K.
    assert (FT : forall l : list str, filter (fun _ => true) l = l) by (induction l0; cbn; congruence).
    rewrite FT in K. rewrite <- K, E. destruct (fold_left put_entry es []); reflexivity.
Qed.

Lemma superseded_map lines m o l1 i j l2 a : map_file lines = Ok m -> In o (pm_sections m) -> po_isecs o = l1 ++ i :: j :: l2 ->
  pi_addr i = Some a -> pi_addr j = Some a -> pi_size i = Some 0.
Proof.
  intros H I E A B. pose proof (map_file_good _ _ H) as G. rewrite Forall_forall in G. destruct (G o I) as [C _].
  exact (chain_adjacent _ _ C _ _ _ _ E a A B).
Qed.

Lemma ranged_map lines m o i l : map_file lines = Ok m -> In o (pm_sections m) -> po_isecs o = i :: l -> Forall (ranged o) l.
Proof.
  intros H I E. pose proof (map_file_good _ _ H) as G. rewrite Forall_forall in G. destruct (G o I) as [_ C]. now rewrite E in C.
Qed.

Lemma inside_map lines m o i l j n : map_file lines = Ok m -> In o (pm_sections m) -> po_isecs o = i :: l -> In j l ->
  pi_size j = Some n -> n <> 0 ->
  exists oa os a, po_addr o = Some oa /\ po_size o = Some os /\ pi_addr j = Some a /\ oa <= a < oa + os.
Proof.
  intros H I E J S N. pose proof (ranged_map _ _ _ _ _ H I E) as R. rewrite Forall_forall in R.
  destruct (R j J) as (oa & os & a & A & B & C & D). exists oa, os, a. repeat split; auto.
  - destruct (Z_lt_ge_dec a oa); [|lia]. exfalso. rewrite D in S by auto. congruence.
  - destruct (Z_lt_ge_dec a (oa + os)); [lia|]. exfalso. rewrite D in S by (right; lia). congruence.
Qed.
