(** * Properties C12 - C16: splitting of regions and of output sections *)
From Coq Require Import Ascii String List ZArith Lia Bool.
From Verif Require Import Base MemMap SpecTree Pipeline SpecPipe ProofRegions ProofSplit FixPipe.
Import ListNotations.
Open Scope list_scope.
Open Scope Z_scope.

(** C12 *)
Theorem c12_regions_tiled : forall fuel types regions parts,
  Forall (fun r => 0 <= r_length r) regions ->
  split_memory_regions fuel regions types = Ok parts ->
  exists groups, parts = concat groups /\ Forall2 (region_parts types) regions groups.
Proof. exact split_regions_parts. Qed.
Print Assumptions c12_regions_tiled.

Example c12_example :
  let regions := filter_memory_regions regions_s3 in
  Forall (fun r => 0 <= r_length r) regions /\
  split_memory_regions (region_fuel chip_s3) regions chip_s3 = Ok parts_s3.
Proof.
  split; [|vm_compute; reflexivity]. repeat (apply Forall_cons; [cbn; lia|]). apply Forall_nil.
Qed.

(** C13 is false: a region that reaches an address without memory type and ends
    where an earlier part ends is never finished *)
Theorem c13_region_splitting_terminates_refuted : exists types regions,
  Forall (fun r => 0 <= r_length r) regions /\
  forall fuel, split_memory_regions fuel regions types = Err OutOfFuel.
Proof.
  exists chip_stuck, regions_stuck.
  assert (L : Forall (fun r => 0 <= r_length r) regions_stuck) by (repeat (apply Forall_cons; [cbn; lia|]); apply Forall_nil).
  split; [exact L|]. apply split_regions_diverges; [exact L|]. vm_compute. reflexivity.
Qed.
Print Assumptions c13_region_splitting_terminates_refuted.

(** C13, exactly when it terminates: no region reaches an address without memory
    type while ending where an earlier part ends *)
Theorem c13_region_splitting_terminates_partial : forall types regions,
  Forall (fun r => 0 <= r_length r) regions ->
  (exists fuel parts, split_memory_regions fuel regions types = Ok parts) <->
  (forall l1 r l2 e, regions = l1 ++ r :: l2 ->
     split_memory_regions (region_fuel types) l1 types = Ok e -> ~ blocked types e r).
Proof. exact split_regions_terminates_any. Qed.
Print Assumptions c13_region_splitting_terminates_partial.

(** C13: the bound, and a condition that only looks at the input *)
Theorem c13_covered_regions_terminate_partial : forall types regions,
  Forall (fun r => 0 <= r_length r) regions ->
  (forall r a, In r regions -> r_origin r <= a < r_origin r + r_length r -> covered types a) ->
  exists parts, split_memory_regions (region_fuel types) regions types = Ok parts.
Proof. exact split_regions_covered. Qed.
Print Assumptions c13_covered_regions_terminate_partial.

Example c13_example :
  forall r a, In r (filter_memory_regions regions_s3) -> r_origin r <= a < r_origin r + r_length r -> covered chip_s3 a.
Proof.
  intros r a I H.
  assert (C : forall t, In t chip_s3 -> covers t a -> covered chip_s3 a) by (intros t It Ct; exists t; auto).
  simpl in I. destruct I as [<-|[<-|[<-|[]]]]; cbn [r_origin r_length mk_region] in H.
  - destruct (Z.ltb_spec a 0x40378000).
    + apply (C t_iram); [simpl; auto|]. exists 0x40370000, 0x40378000. split; [left; split; reflexivity|lia].
    + apply (C t_diram); [simpl; auto|]. exists 0x40378000, 0x403e0000. split; [right; repeat split; discriminate|lia].
  - apply (C t_flash); [simpl; auto|]. exists 0x42000000, 0x44000000. split; [left; split; reflexivity|lia].
  - apply (C t_diram); [simpl; auto|]. exists 0x3FC88000, 0x3fcf0000. split; [left; split; reflexivity|lia].
Qed.

(** C14: section splitting ends, keeps the order, and each section is tiled *)
Theorem c14_sections_tiled : forall sections regions,
  exists groups, split_map_sections (section_fuel regions) sections regions = Ok (concat groups) /\
    Forall2 (section_parts regions) (rev sections) groups.
Proof. exact split_tiles. Qed.
Print Assumptions c14_sections_tiled.

(** the parts of the section that crosses the end of IRAM, of the one that fits, and
    of the one that overflows *)
Example c14_example :
  match split_map_sections (section_fuel parts_s3) sections_s3 parts_s3 with
  | Ok l => map (fun p => (o_name p, o_addr p, o_size p)) l
  | Err _ => []
  end =
  [ (".flash.text" : str, 0x427fff00, 0x100); (".flash.text" : str, 0x42800000, 0x100);
    (".dram0.data" : str, 0x3FC88000, 0x10);
    (".iram0.text" : str, 0x40374400, 0x3c00); (".iram0.text" : str, 0x40378000, 0x400) ].
Proof. vm_compute. reflexivity. Qed.

(** C15 *)
Theorem c15_cut_conserves : forall sections regions,
  exists groups, split_map_sections (section_fuel regions) sections regions = Ok (concat groups) /\
    Forall2 (fun s ps => section_parts regions s ps /\
      (forall a o, zsumf (fun p => object_bytes a o (o_isecs p)) ps = object_bytes a o (o_isecs s)) /\
      (forall a, zsumf (fun p => archive_bytes a (o_isecs p)) ps = archive_bytes a (o_isecs s)) /\
      (forall a o, zsumf (fun p => object_padding a o (o_isecs p)) ps = object_padding a o (o_isecs s)) /\
      (forall a o y, zsumf (fun p => symbol_bytes a o y (o_isecs p)) ps = symbol_bytes a o y (o_isecs s)))
      (rev sections) groups.
Proof. exact split_conserves. Qed.
Print Assumptions c15_cut_conserves.

Example c15_example :
  let q := "libfreertos.a" : str in let o := "queue.c.obj" : str in let y := "xQueueSend()" : str in
  match split_map_sections (section_fuel parts_s3) [text_s3] parts_s3 with
  | Ok l => map (fun p => (object_bytes q o (o_isecs p), symbol_bytes q o y (o_isecs p), object_padding q o (o_isecs p))) l
  | Err _ => []
  end = [(0xc, 0xc, 0); (0x34, 0x14, 8)] /\
  object_bytes q o (o_isecs text_s3) = 0x40 /\ symbol_bytes q o y (o_isecs text_s3) = 0x20.
Proof. vm_compute. repeat split; reflexivity. Qed.

(** C16 *)
Theorem c16_pieces_stay_inside : forall sections regions parts,
  split_map_sections (section_fuel regions) sections regions = Ok parts ->
  Forall content_inside sections -> Forall content_inside parts.
Proof. exact split_inside. Qed.
Print Assumptions c16_pieces_stay_inside.

Example c16_example : Forall content_inside sections_s3.
Proof.
  repeat (apply Forall_cons; [|]); try apply Forall_nil; unfold content_inside, isec_inside, symbol_inside; cbn;
    repeat (apply Forall_cons || apply Forall_nil || split); cbn; lia.
Qed.
