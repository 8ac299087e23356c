(** * Properties C17 - C24: archives and memory types *)
From Coq Require Import Ascii String List ZArith Lia Bool.
From Verif Require Import Base MemMap SpecTree Pipeline SpecPipe ProofRegions ProofSplit ProofArch ProofTypes FixPipe.
Import ListNotations.
Open Scope list_scope.
Open Scope Z_scope.

(** C17: sizes of archives and object files *)
Theorem c17_archive_totals : forall s a x,
  dget a (as_archives (add_archives s)) = Some x ->
  n_abbrev x = basename a /\ n_size x = archive_bytes a (o_isecs s) /\
  n_size x = zsumf (fun kv => n_size (snd kv)) (n_sub x) /\
  forall o b, dget o (n_sub x) = Some b -> n_abbrev b = basename o /\ n_size b = object_bytes a o (o_isecs s).
Proof. exact archives_totals. Qed.
Print Assumptions c17_archive_totals.

(** C17: every input section is listed ... *)
Theorem c17_archives_listed : forall s i, In i (o_isecs s) ->
  exists x b, dget (i_archive i) (as_archives (add_archives s)) = Some x /\ dget (i_object i) (n_sub x) = Some b.
Proof. exact archives_listed. Qed.
Print Assumptions c17_archives_listed.

(** ... nothing else is ... *)
Theorem c17_archives_no_more : forall s a x, dget a (as_archives (add_archives s)) = Some x ->
  (exists i, In i (o_isecs s) /\ i_archive i = a) /\
  forall o b, dget o (n_sub x) = Some b -> exists i, In i (o_isecs s) /\ i_archive i = a /\ i_object i = o.
Proof. exact archives_no_more. Qed.
Print Assumptions c17_archives_no_more.

(** ... and all are counted once *)
Theorem c17_archives_sum : forall s,
  zsumf (fun kv => n_size (snd kv)) (as_archives (add_archives s)) = zsumf i_size (o_isecs s).
Proof. exact archives_sum. Qed.
Print Assumptions c17_archives_sum.

Theorem c17_archives_wf : forall s, wf_sub wf_arch (as_archives (add_archives s)).
Proof. exact archives_wf. Qed.
Print Assumptions c17_archives_wf.

Example c17_example :
  map (fun kv => (fst kv, n_size (snd kv))) (as_archives (add_archives text_s3)) =
  [("libfreertos.a" : str, 0x3c30); ("libheap.a" : str, 0x3c4)] /\
  In (mk_isec ".iram1.2" 0x4037803c 0x3c4 0 "libheap.a" "heap.c.obj" [mk_symbol "malloc()" 0x4037803c 0x3c4]) (o_isecs text_s3).
Proof. split; [vm_compute; reflexivity|simpl; auto]. Qed.

(** C18 is false: two local functions of one object file with the same name *)
Definition text_twice : osection :=
  mk_osec ".flash.text" 0x42000020 0x30
    [ mk_isec ".text.init" 0x42000020 0x10 0 "libdrv.a" "drv.c.obj" [mk_symbol "init()" 0x42000020 0x10];
      mk_isec ".text.init" 0x42000030 0x20 0 "libdrv.a" "drv.c.obj" [mk_symbol "init()" 0x42000030 0x20] ].

Theorem c18_symbol_sizes_kept_refuted : exists s a o x b,
  dget a (as_archives (add_archives s)) = Some x /\ dget o (n_sub x) = Some b /\
  zsumf (fun kv => y_size (snd kv)) (n_sub b) <> zsumf sy_size (symbols_of_object a o (o_isecs s)).
Proof.
  exists text_twice, "libdrv.a", "drv.c.obj".
  eexists. eexists. split; [vm_compute; reflexivity|]. split; [vm_compute; reflexivity|]. vm_compute. discriminate.
Qed.
Print Assumptions c18_symbol_sizes_kept_refuted.

(** C18: a symbol shows the size of the last one of its name *)
Theorem c18_symbol_sizes_last_partial : forall s a o x b y,
  dget a (as_archives (add_archives s)) = Some x -> dget o (n_sub x) = Some b ->
  option_map y_size (dget y (n_sub b)) = last_symbol y (symbols_of_object a o (o_isecs s)).
Proof. exact object_symbols_last. Qed.
Print Assumptions c18_symbol_sizes_last_partial.

(** C18 holds if no two symbols of the object file have the same name *)
Theorem c18_symbol_sizes_kept_partial : forall s a o x b,
  dget a (as_archives (add_archives s)) = Some x -> dget o (n_sub x) = Some b ->
  NoDup (map sy_name (symbols_of_object a o (o_isecs s))) ->
  zsumf (fun kv => y_size (snd kv)) (n_sub b) = zsumf sy_size (symbols_of_object a o (o_isecs s)).
Proof. exact object_symbols_sum. Qed.
Print Assumptions c18_symbol_sizes_kept_partial.

Example c18_example :
  let l := symbols_of_object "libfreertos.a" "queue.c.obj" (o_isecs text_s3) in
  NoDup (map sy_name l) /\ zsumf sy_size l = 0x40.
Proof. split; [|reflexivity]. vm_compute. repeat constructor; simpl; intuition discriminate. Qed.

(** C19; the destinations are determined by [dest], see C22 *)
Theorem c19_used_conserved : forall types regions l dests,
  Forall (fun r => In (sr_type r) types) regions ->
  Forall2 (dest types regions) l dests ->
  zsumf (fun kv => t_used (snd kv)) (get_mem_type_map types regions l) =
  zsumf (fun sd => as_size (fst sd)) (filter (fun sd => is_some (snd sd)) (combine l dests)).
Proof. exact map_total. Qed.
Print Assumptions c19_used_conserved.

(** every part has exactly one destination *)
Theorem c19_destination_exists : forall types regions l, exists dests, Forall2 (dest types regions) l dests.
Proof. intros. exists (dests_of types regions l). exact (dests_ok types regions l). Qed.
Print Assumptions c19_destination_exists.
Theorem c19_destination_unique : forall types regions s d d',
  dest types regions s d -> dest types regions s d' -> d = d'.
Proof. exact dest_unique. Qed.
Print Assumptions c19_destination_unique.

(** the parts of the fixture: the overflowing one is lost, as there is no region above *)
Definition asections_s3 : list asection :=
  match split_map_sections (section_fuel parts_s3) sections_s3 parts_s3 with
  | Ok l => add_archives_to_sections l | Err _ => [] end.

Example c19_example :
  Forall (fun r => In (sr_type r) chip_s3) parts_s3 /\
  zsumf (fun kv => t_used (snd kv)) (get_mem_type_map chip_s3 parts_s3 asections_s3) = 0x4110 /\
  zsumf as_size asections_s3 = 0x4210 /\
  dests_of chip_s3 parts_s3 asections_s3 =
  [Some ("Flash Code" : str, false); None; Some ("DIRAM" : str, false); Some ("IRAM" : str, false); Some ("DIRAM" : str, false)].
Proof.
  split; [|vm_compute; repeat split; reflexivity]. unfold parts_s3, chip_s3. repeat (apply Forall_cons; [cbn [sr_type]; simpl; tauto|]). apply Forall_nil.
Qed.

(** C20 is false: the parts of one section that lie in two regions of the same type *)
Definition twice_regions : list sregion := [mk_sregion "a" 0x42000000 0x100 t_flash; mk_sregion "b" 0x42000100 0x100 t_flash].
Definition twice_sections : list asection :=
  match split_map_sections (section_fuel twice_regions) [mk_osec ".flash.text" 0x42000080 0x100 []] twice_regions with
  | Ok l => add_archives_to_sections l | Err _ => [] end.

Theorem c20_used_is_sum_refuted : exists types regions sections parts t T,
  split_map_sections (section_fuel regions) sections regions = Ok parts /\
  dget t (get_mem_type_map types regions (add_archives_to_sections parts)) = Some T /\
  t_used T <> zsumf (fun kv => n_size (snd kv)) (t_sections T).
Proof.
  exists [t_flash], twice_regions, [mk_osec ".flash.text" 0x42000080 0x100 []].
  eexists. exists "Flash Code". eexists. split; [vm_compute; reflexivity|]. split; [vm_compute; reflexivity|]. vm_compute. discriminate.
Qed.
Print Assumptions c20_used_is_sum_refuted.

(** C20 holds for a type whose parts are reported under different names *)
Theorem c20_used_is_sum_partial : forall types regions l dests t T,
  Forall2 (dest types regions) l dests ->
  dget t (get_mem_type_map types regions l) = Some T ->
  NoDup (flat_map dest_names (filter (goes_to t) (combine l dests))) ->
  t_used T = zsumf (fun kv => n_size (snd kv)) (t_sections T).
Proof. exact map_used_sum. Qed.
Print Assumptions c20_used_is_sum_partial.

Example c20_example :
  flat_map dest_names (filter (goes_to "DIRAM") (combine asections_s3 (dests_of chip_s3 parts_s3 asections_s3))) =
  [(".dram0.data" : str); (".iram0.text" : str)].
Proof. vm_compute. reflexivity. Qed.

(** C21 *)
Theorem c21_type_size : forall types regions l t T,
  dget t (get_mem_type_map types regions l) = Some T -> t_size T = type_size t regions.
Proof. exact map_sizes. Qed.
Print Assumptions c21_type_size.

(** the DIRAM of the fixture is seen through both buses and counted once *)
Example c21_example :
  map (fun kv => (fst kv, t_size (snd kv))) (get_mem_type_map chip_s3 parts_s3 asections_s3) =
  [("IRAM" : str, 0x4000); ("DIRAM" : str, 0x53700); ("Flash Code" : str, 0x7fffe0)].
Proof. vm_compute. reflexivity. Qed.

(** C22: every memory type lists exactly the parts that go to it (the last one of
    several with the same reported name) ... *)
Theorem c22_sections_of_type : forall types regions l t T n,
  dget t (get_mem_type_map types regions l) = Some T ->
  match dget n (t_sections T) with
  | Some x => exists l1 s l2 ov, l = l1 ++ s :: l2 /\ dest types regions s (Some (t, ov)) /\
                n = reported_name s ov /\ reported s ov x /\
                forall s' ov', In s' l2 -> dest types regions s' (Some (t, ov')) -> reported_name s' ov' <> n
  | None => forall s ov, In s l -> dest types regions s (Some (t, ov)) -> reported_name s ov <> n
  end.
Proof. exact map_sections. Qed.
Print Assumptions c22_sections_of_type.

(** ... and its used bytes are theirs *)
Theorem c22_used_of_type : forall types regions l dests t T,
  Forall2 (dest types regions) l dests ->
  dget t (get_mem_type_map types regions l) = Some T ->
  t_used T = zsumf (fun sd => as_size (fst sd)) (filter (goes_to t) (combine l dests)).
Proof. exact map_used. Qed.
Print Assumptions c22_used_of_type.

Theorem c22_types : forall types regions l t,
  In t (keys (get_mem_type_map types regions l)) <-> exists c, In c types /\ ct_name c = t.
Proof. exact map_keys. Qed.
Print Assumptions c22_types.

Theorem c22_map_wf : forall types regions l, wf_dict (get_mem_type_map types regions l) /\
  forall t T, dget t (get_mem_type_map types regions l) = Some T ->
    wf_dict (t_sections T) /\ t_size_diff T = 0 /\ t_used_diff T = 0.
Proof. intros. split; [exact (map_wf types regions l)|exact (map_only types regions l)]. Qed.
Print Assumptions c22_map_wf.

Definition gap_part : asection := ASection ".iram0.text" 0x40374100 0x40 ".text" [].
Definition gap_regions : list sregion :=
  [mk_sregion "c" 0x42000000 0x100 t_flash; mk_sregion "a" 0x40374000 0x100 t_iram; mk_sregion "b" 0x40378000 0x100 t_diram].

Example c22_example :
  match dget ("IRAM" : str) (get_mem_type_map chip_s3 gap_regions [gap_part]) with
  | Some T => map (fun kv => (fst kv, n_abbrev (snd kv), n_size (snd kv))) (t_sections T) | None => [] end =
  [(".iram0.text_overflow" : str, ".text_overflow" : str, 0x40)].
Proof. vm_compute. reflexivity. Qed.

(** C23 is false for the region with the highest address: the overflowing part of
    .flash.text goes nowhere ... *)
Theorem c23_overflow_reported_refuted : exists types regions sections parts r p,
  split_map_sections (section_fuel regions) sections regions = Ok parts /\
  In r regions /\ In p parts /\ o_addr p = sr_origin r + sr_length r /\ 0 < o_size p /\
  dest types regions (add_archives p) None /\
  forall t T, dget t (get_mem_type_map types regions (add_archives_to_sections parts)) = Some T ->
    dget (o_name p ++ "_overflow") (t_sections T) = None.
Proof.
  exists chip_s3, parts_s3, [flash_s3]. eexists. exists (SRegion "iram0_2_seg" 0x42000020 0x7fffe0 "xr" t_flash).
  exists (snd (cut_section 0x42800000 flash_s3)).
  split; [vm_compute; reflexivity|]. split; [simpl; tauto|]. split; [vm_compute; tauto|]. split; [reflexivity|].
  split; [reflexivity|]. split.
  - pose proof (route_dest chip_s3 parts_s3 (add_archives (snd (cut_section 0x42800000 flash_s3)))) as D.
    vm_compute in D. vm_compute. exact D.
  - intros t T E. apply dget_In in E. vm_compute in E. repeat (destruct E as [E|E]; [injection E as <- <-; reflexivity|]). destruct E.
Qed.
Print Assumptions c23_overflow_reported_refuted.

(** ... and a part below all regions is reported as overflow of the lowest one *)
Theorem c23_unpreceded_not_assigned_refuted : exists types regions s r,
  all_above regions (as_addr s) /\ In r regions /\ dest types regions s (Some (ct_name (sr_type r), true)).
Proof.
  exists chip_s3, gap_regions, (ASection ".data" 0x3f000000 0x40 ".data" []), (mk_sregion "a" 0x40374000 0x100 t_iram).
  split; [|split].
  - intros r I. simpl in I. destruct I as [<-|[<-|[<-|[]]]]; reflexivity.
  - simpl; auto.
  - pose proof (route_dest chip_s3 gap_regions (ASection ".data" 0x3f000000 0x40 ".data" [])) as D. vm_compute in D. vm_compute. exact D.
Qed.
Print Assumptions c23_unpreceded_not_assigned_refuted.

(** C23 holds for a part in a gap between two regions *)
Theorem c23_overflow_reported_partial : forall types regions l s p,
  Forall (fun r => In (sr_type r) types) regions ->
  In s l -> ~ by_name types (as_name s) -> in_no_region regions (as_addr s) ->
  preceding regions (as_addr s) p -> some_above regions (as_addr s) ->
  exists T x, dget (ct_name (sr_type p)) (get_mem_type_map types regions l) = Some T /\
    dget (as_name s ++ "_overflow") (t_sections T) = Some x.
Proof. exact gap_reported. Qed.
Print Assumptions c23_overflow_reported_partial.

Example c23_example :
  ~ by_name chip_s3 (as_name gap_part) /\ in_no_region gap_regions (as_addr gap_part) /\
  preceding gap_regions (as_addr gap_part) (mk_sregion "a" 0x40374000 0x100 t_iram) /\ some_above gap_regions (as_addr gap_part).
Proof.
  split; [intros [_ (rest & [E|E])]; discriminate E|]. split; [|split].
  - intros r I. simpl in I. unfold in_region. destruct I as [<-|[<-|[<-|[]]]]; cbn; lia.
  - exists [mk_sregion "c" 0x42000000 0x100 t_flash], [mk_sregion "b" 0x40378000 0x100 t_diram].
    split; [reflexivity|]. split; [cbn; lia|]. split; intros x [<-|[]]; cbn; lia.
  - exists (mk_sregion "b" 0x40378000 0x100 t_diram). split; [simpl; auto|reflexivity].
Qed.

(** C24: the named sections are listed under External RAM ... *)
Theorem c24_ext_ram_listed : forall types regions l s alias,
  ext_ram types alias -> ext_ram_name (as_name s) -> In s l ->
  exists T x, dget alias (get_mem_type_map types regions l) = Some T /\ dget (as_name s) (t_sections T) = Some x.
Proof. exact ext_listed. Qed.
Print Assumptions c24_ext_ram_listed.

(** ... whatever their address ... *)
Theorem c24_ext_ram_any_address : forall types regions l f alias,
  ext_ram types alias ->
  (forall s, In s l -> f s = s \/ (ext_ram_name (as_name s) /\ exists a, f s = set_addr s a)) ->
  get_mem_type_map types regions (map f l) = get_mem_type_map types regions l.
Proof. exact ext_address_irrelevant. Qed.
Print Assumptions c24_ext_ram_any_address.

(** ... and for all other sections only the address counts *)
Theorem c24_others_by_address : forall types regions s s' d,
  ~ ext_ram_name (as_name s) -> ~ ext_ram_name (as_name s') -> as_addr s = as_addr s' ->
  dest types regions s d -> dest types regions s' d.
Proof. exact others_by_address. Qed.
Print Assumptions c24_others_by_address.

Definition chip_psram : list chip_type := [t_diram; t_flash; mk_ctype "External RAM" 0x42000000 0 0x2000000].
Definition psram_part (a : Z) : asection := ASection ".ext_ram.bss" a 0x100 ".bss" [].
Example c24_example :
  ext_ram chip_psram "External RAM" /\ ext_ram_name (as_name (psram_part 0x42000040)) /\
  match dget ("External RAM" : str) (get_mem_type_map chip_psram [mk_sregion "a" 0x42000000 0x100 t_flash] [psram_part 0x42000040]) with
  | Some T => t_used T | None => 0 end = 0x100.
Proof.
  split; [|split].
  - exists [t_diram; t_flash], (mk_ctype "External RAM" 0x42000000 0 0x2000000), [].
    split; [reflexivity|]. split; [reflexivity|]. split; [auto|].
    intros u I. simpl in I. destruct I as [<-|[<-|[]]]; split; discriminate.
  - exists []. left. reflexivity.
  - vm_compute. reflexivity.
Qed.
