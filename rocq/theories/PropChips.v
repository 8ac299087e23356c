(** * Properties of the chip descriptions (C83, C84) *)
From Coq Require Import Ascii String List ZArith Lia Bool.
From Verif Require Import Base MemMap SpecTree PyStr SpecMap Pipeline SpecPipe Table SpecTable ProofTable SpecBytes Chips SpecChips ProofChips.
Import ListNotations.
Open Scope list_scope.
Open Scope Z_scope.

(** ** C83: a chip description means the numbers and names written in it *)
Theorem c83_memory_types : forall files target,
  match files (target ++ list_ascii_of_string ".yaml") with
  | Some l => forall types, Forall2 describes l types -> get_memory_types files target = Ok types
  | None => get_memory_types files target = Err MemMapException
  end.
Proof. intros files target. destruct (files _) as [l|] eqn:E; [intros types F; exact (memory_types_ok files target l types E F)|]. unfold get_memory_types. rewrite E. reflexivity. Qed.
Print Assumptions c83_memory_types.

Lemma c83_sum : sum "0x8000 + 6 * 0x10000" (0x8000 + 6 * 0x10000).
Proof.
  assert (L : forall s z, number z s -> product s z) by (intros; apply product_one; left; assumption).
  change (list_ascii_of_string "0x8000 + 6 * 0x10000") with (list_ascii_of_string "0x8000" ++ [" "%char] ++ "+"%char :: [" "%char] ++ list_ascii_of_string "6 * 0x10000").
  assert (H : forall c d s z, SpecMap.hex_digits s z -> SpecMap.hex_digit c d -> SpecMap.hex_digits (s ++ [c]) (z * 16 + d)) by (intros; constructor; assumption).
  apply sum_more; try (repeat constructor; fail).
  - apply sum_one, L. exists (list_ascii_of_string "8000"). split; [|reflexivity].
    apply (H "0"%char 0 "800" 0x800); [|split; [lia|reflexivity]]. apply (H "0"%char 0 "80" 0x80); [|split; [lia|reflexivity]].
    apply (H "0"%char 0 "8" 8); [|split; [lia|reflexivity]]. constructor. split; [lia|reflexivity].
  - change (list_ascii_of_string "6 * 0x10000") with (list_ascii_of_string "6" ++ [" "%char] ++ "*"%char :: [" "%char] ++ list_ascii_of_string "0x10000").
    apply product_more; try (repeat constructor; fail).
    + apply product_one. right. split; [lia|]. exact (show_Z_written 6).
    + left. exists (list_ascii_of_string "10000"). split; [|reflexivity].
      apply (H "0"%char 0 "1000" 0x1000); [|split; [lia|reflexivity]]. apply (H "0"%char 0 "100" 0x100); [|split; [lia|reflexivity]].
      apply (H "0"%char 0 "10" 0x10); [|split; [lia|reflexivity]]. apply (H "0"%char 0 "1" 1); [|split; [lia|reflexivity]].
      constructor. split; [lia|reflexivity].
Qed.
Example c83_example : describes (ye "DRAM_1" (YInt 0x3FC88000) (YStr "0x8000 + 6 * 0x10000") (Some (YInt 0x40378000)) (Some "DIRAM"%string))
    (ChipType "DIRAM" 0x3FC88000 0x40378000 0x68000) /\
  describes (ye "IRAM" (YInt 0x40370000) (YInt 0x8000) None None) (ChipType "IRAM" 0x40370000 0 0x8000) /\
  In (ye "DRAM_1" (YInt 0x3FC88000) (YStr "0x8000 + 6 * 0x10000") (Some (YInt 0x40378000)) (Some "DIRAM"%string)) yaml_esp32s3 /\
  chip_info "esp32s4.yaml" = None.
Proof.
  split; [split; [constructor|split; [apply denotes_sum, c83_sum|split; [constructor|reflexivity]]]|].
  split; [split; [constructor|split; [constructor|split; reflexivity]]|]. split; [right; left; reflexivity|reflexivity].
Qed.

(** ** C84: the shipped chip descriptions

    Full statement: each one loads; the address windows of its memory types are equal or
    disjoint, the lengths positive, the names distinct; and every memory type is the one
    found for some address.  The last part is false. *)
Theorem c84_types_reachable_refuted : exists c types t,
  get_memory_types chip_info c = Ok types /\ In t types /\ ~ reachable types t.
Proof.
  exists (list_ascii_of_string "esp32c6"). eexists. exists (ChipType "Flash Data" 0x42000000 0 0x1000000). split; [vm_compute; reflexivity|].
  split; [right; right; left; reflexivity|]. intros (a & l1 & l2 & E & (lo & hi & W & B) & N).
  destruct l1 as [|t1 [|t2 l1]]; [discriminate E|discriminate E|]. injection E as <- <- E.
  apply (N (ChipType "Flash Code" 0x42000000 0 0x1000000)); [right; left; reflexivity|].
  exists lo, hi. split; [exact W|exact B].
Qed.
Print Assumptions c84_types_reachable_refuted.

Theorem c84_shipped_chips : forall c,
  (In c (map fst chip_files) -> exists types, get_memory_types chip_info c = Ok types) /\
  (~ In c (map fst chip_files) -> get_memory_types chip_info c = Err MemMapException) /\
  forall types, get_memory_types chip_info c = Ok types ->
    windows_separate types /\ Forall (fun t => 0 < ct_length t) types /\ NoDup (map ct_name types) /\ types <> [] /\
    forall t, In t types -> reachable types t <-> own_window types t.
Proof.
  intros c. split; [apply chips_load|]. split; [apply chip_unknown|]. intros types E. destruct (chips_ok c types E) as (H1 & H2 & H3 & H4).
  split; [exact H1|]. split; [exact H2|]. split; [exact H3|]. split; [exact H4|]. intros t It. exact (own_window_reachable types t H1 H2 It).
Qed.
Print Assumptions c84_shipped_chips.
Example c84_example : exists types, get_memory_types chip_info "esp32s3" = Ok types /\ length types = 8%nat /\
  In (list_ascii_of_string "esp32s3") (map fst chip_files) /\ length chip_files = 13%nat /\
  get_memory_types chip_info "esp8266" = Err MemMapException.
Proof. eexists. split; [vm_compute; reflexivity|]. split; [reflexivity|]. split; [do 11 right; left; reflexivity|]. split; vm_compute; reflexivity. Qed.
