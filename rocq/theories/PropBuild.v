(** * Properties C25 - C33: construction of the memory map *)
From Coq Require Import Ascii String List ZArith Lia Bool Permutation.
From Verif Require Import Base MemMap SpecTree Pipeline SpecPipe SpecBuild ProofBuild ProofSyms ProofStrip ProofExpand ProofGet FixPipe.
Import ListNotations.
Open Scope list_scope.
Open Scope Z_scope.

(** C25 *)
Theorem c25_kept_sections : forall e sections, exists keep,
  (forall s, keep s = true <-> kept e s) /\
  filter_map_sections sections (get_elf_sections_headers e) = map nonempty_isecs (filter keep sections).
Proof. exact filter_kept. Qed.
Print Assumptions c25_kept_sections.

Example c25_example :
  let gap := mk_osec ".iram0.dummy" 0x3FC80000 0x400 [] in
  let dbg := mk_osec ".comment" 0 0x80 [] in
  let z := mk_isec ".text.z" 0x427fff00 0 0 "libz.a" "z.o" [] in
  filter_map_sections [gap; text_s3; dbg; mk_osec ".flash.text" 0x427fff00 0x200 (z :: o_isecs flash_s3)] (get_elf_sections_headers (Some elf_s3)) = [text_s3; flash_s3] /\
  filter_map_sections [gap; text_s3; dbg; data_s3] (get_elf_sections_headers None) = [text_s3; data_s3].
Proof. vm_compute. split; reflexivity. Qed.

(** C26 is false: of two allocated sections with one name the second replaces the first *)
Theorem c26_image_size_refuted : exists f sections, has_headers (Some f) /\
  get_image_size (get_elf_sections_headers (Some f)) sections <> progbits_bytes f.
Proof.
  exists (ElfFile [mk_shdr ".text" 1 6 0x100; mk_shdr ".text" 1 6 0x20] [] []), []. split.
  - exists (ElfFile [mk_shdr ".text" 1 6 0x100; mk_shdr ".text" 1 6 0x20] [] []), (mk_shdr ".text" 1 6 0x100). split; [reflexivity|]. split; [simpl; auto|]. split; vm_compute; discriminate.
  - vm_compute. discriminate.
Qed.
Print Assumptions c26_image_size_refuted.

(** C26 for ELF files whose allocated sections have distinct names *)
Theorem c26_image_size_partial : forall f sections,
  has_headers (Some f) -> NoDup (map sh_name (filter alloc_b (elf_shdrs f))) ->
  get_image_size (get_elf_sections_headers (Some f)) sections = progbits_bytes f.
Proof. exact image_size_elf. Qed.
Print Assumptions c26_image_size_partial.

(** C26, ELF files in general: never more than that *)
Theorem c26_image_size_at_most : forall f sections, has_headers (Some f) ->
  (forall h, In h (elf_shdrs f) -> 0 <= sh_size h) ->
  get_image_size (get_elf_sections_headers (Some f)) sections <= progbits_bytes f.
Proof. exact image_size_upper. Qed.
Print Assumptions c26_image_size_at_most.

(** C26 without ELF headers *)
Theorem c26_image_size_by_name : forall e sections, ~ has_headers e ->
  exists img, (forall s, img s = true <-> image_section (o_name s)) /\
  get_image_size (get_elf_sections_headers e) sections = zsumf o_size (filter img sections).
Proof. exact image_size_names. Qed.
Print Assumptions c26_image_size_by_name.

Example c26_example :
  NoDup (map sh_name (filter alloc_b (elf_shdrs elf_s3))) /\ has_headers (Some elf_s3) /\ progbits_bytes elf_s3 = 0x4210 /\
  get_image_size (get_elf_sections_headers (Some elf_s3)) sections_s3 = 0x4210 /\
  ~ has_headers None /\ get_image_size (get_elf_sections_headers None) (mk_osec ".dram0.bss" 0 0x40 [] :: sections_s3) = 0x4210.
Proof.
  split; [|split; [|split; [vm_compute; reflexivity|split; [vm_compute; reflexivity|split; [|vm_compute; reflexivity]]]]].
  - vm_compute. repeat constructor; simpl; intuition discriminate.
  - exists elf_s3, (mk_shdr ".iram0.text" 1 6 0x4000). split; [reflexivity|]. split; [simpl; auto|]. split; vm_compute; discriminate.
  - intros (f & h & E & _). discriminate E.
Qed.

(** C27 is false: the argument has no effect *)
Theorem c27_supplied_elf_refuted : exists w ls ud ma e m,
  get (World (w_map_fn w) (w_proj_desc w) (w_lto w) (w_mapfile w) (Ok (Some e)) (w_memory_types w)) ls ud ma None = Ok m /\
  get w ls ud ma (Some e) <> Ok m.
Proof.
  exists world_noelf, true, None, None, elf_s3. eexists. split; [vm_compute; reflexivity|]. vm_compute. discriminate.
Qed.
Print Assumptions c27_supplied_elf_refuted.

Theorem c27_supplied_elf_ignored : forall w ls ud ma e1 e2, get w ls ud ma e1 = get w ls ud ma e2.
Proof. exact elf_ignored. Qed.
Print Assumptions c27_supplied_elf_ignored.

(** C28 is false as far as symbols starting before an input section are concerned *)
Theorem c28_symbols_placed_refuted : exists e sections out y i,
  add_symbols_to_sections (Some e) sections = Ok out /\
  In y (elf_symbols e) /\ wanted y = true /\ In i (all_isecs out) /\
  st_value y < i_addr i + i_size i /\ i_addr i < st_value y + st_symsize y /\
  forall j, In j (all_isecs out) -> ~ In (shown y) (i_symbols j).
Proof.
  exists (ElfFile [] [mk_elfsym "f" 0xf8 0x10 2] []), [mk_osec ".text" 0x100 0x10 [mk_isec ".text.f" 0x100 0x10 0 "liba.a" "f.o" []]].
  eexists. exists (mk_elfsym "f" 0xf8 0x10 2). eexists. split; [vm_compute; reflexivity|].
  split; [simpl; auto|]. split; [reflexivity|]. split; [simpl; left; reflexivity|]. split; [reflexivity|]. split; [reflexivity|].
  intros j [<-|[]] [].
Qed.
Print Assumptions c28_symbols_placed_refuted.

(** C28 for the symbols that start in an input section: each is listed once, inside
    the input section; the others are skipped; nothing else is listed *)
Theorem c28_symbols_placed_partial : forall e sections out,
  add_symbols_to_sections (Some e) sections = Ok out ->
  Forall2 same_osec sections out /\
  exists groups skipped,
    Forall2 lists (all_isecs out) groups /\
    Permutation (concat groups ++ skipped) (filter wanted (elf_symbols e)) /\
    Forall (fun y => Forall (fun i => ~ starts_in i y) (all_isecs out)) skipped.
Proof. exact symbols_placed. Qed.
Print Assumptions c28_symbols_placed_partial.

Example c28_example :
  match add_symbols_to_sections (Some elf_s3) (clear_symbols sections_s3) with
  | Ok out => map (fun i => map sy_name (i_symbols i)) (all_isecs out)
  | Err _ => []
  end = [ ["vTaskSwitch()" : str]; ["xQueueSend()" : str; "xQueueRecv()" : str]; ["malloc()" : str];
          ["heap_lock" : str]; [".data.b" : str]; ["app_main()" : str] ].
Proof. vm_compute. reflexivity. Qed.

(** C29 is false: input sections after the one of the last symbol list nothing *)
Theorem c29_no_holes_refuted : exists e sections out i,
  add_symbols_to_sections (Some e) sections = Ok out /\ In i (all_isecs out) /\ 0 < i_size i /\ i_symbols i = [].
Proof.
  exists (ElfFile [] [mk_elfsym "f" 0x100 0x10 2] []),
    [mk_osec ".text" 0x100 0x20 [mk_isec ".text.f" 0x100 0x10 0 "liba.a" "f.o" []; mk_isec ".text.g" 0x110 0x10 0 "liba.a" "g.o" []]].
  eexists. eexists. split; [vm_compute; reflexivity|]. split; [simpl; right; left; reflexivity|]. split; reflexivity.
Qed.
Print Assumptions c29_no_holes_refuted.

(** C29 for non-empty, disjoint input sections up to the address of the last symbol *)
Theorem c29_no_holes_partial : forall e sections out,
  add_symbols_to_sections (Some e) sections = Ok out ->
  ForallOrdPairs disjoint (all_isecs sections) -> Forall (fun i => 0 < i_size i) (all_isecs sections) ->
  forall i y, In i (all_isecs out) -> In y (elf_symbols e) -> wanted y = true ->
    i_addr i + i_size i <= st_value y -> i_symbols i <> [].
Proof. exact no_holes. Qed.
Print Assumptions c29_no_holes_partial.

(** C29 without ELF file: every input section lists its own name *)
Theorem c29_own_names_partial : forall sections out, add_symbols_to_sections None sections = Ok out ->
  Forall2 same_osec sections out /\
  Forall (fun i => i_symbols i = [Symbol (i_name i) (i_addr i) (i_size i)]) (all_isecs out).
Proof. exact own_names. Qed.
Print Assumptions c29_own_names_partial.

Example c29_example :
  is_ok (add_symbols_to_sections (Some elf_s3) sections_s3) = true /\ is_ok (add_symbols_to_sections None sections_s3) = true /\
  ForallOrdPairs disjoint (all_isecs sections_s3) /\ Forall (fun i => 0 < i_size i) (all_isecs sections_s3) /\
  let y := mk_elfsym "app_main" 0x427fff00 0x200 2 in
  In y (elf_symbols elf_s3) /\ wanted y = true /\ 0x3FC88008 + 0x8 <= st_value y.
Proof.
  split; [vm_compute; reflexivity|]. split; [vm_compute; reflexivity|]. split; [|split].
  - unfold disjoint. cbn. repeat (apply FOP_cons || apply FOP_nil || apply Forall_cons || apply Forall_nil); cbn; lia.
  - cbn. repeat (apply Forall_cons; [cbn; lia|]). apply Forall_nil.
  - cbn. split; [auto 8|]. split; [reflexivity|discriminate].
Qed.

(** C30; whenever it succeeds with symbols, it also does without *)
Theorem c30_symbols_keep_sizes : forall w ud ma ea m mf,
  get w true ud ma ea = Ok (m, mf) -> get w false ud ma ea = Ok (strip_map m, mf).
Proof. exact get_strip. Qed.
Print Assumptions c30_symbols_keep_sizes.

Example c30_example : exists m mf, get world_s3 true None None None = Ok (m, mf) /\ strip_map m <> m /\ total_used m = 0x4110.
Proof. eexists. eexists. split; [vm_compute; reflexivity|]. split; [discriminate|vm_compute; reflexivity]. Qed.

(** C31 is false: without a symbol behind it the rest of an input section is dropped *)
Theorem c31_expansion_conserves_refuted : exists sections components e,
  zsumf (fun s => zsumf i_size (o_isecs s)) (expand_input_sections sections components e) <>
  zsumf (fun s => zsumf i_size (o_isecs s)) sections.
Proof.
  exists [mk_osec ".data" 0x100 0x20 [mk_isec ".data" 0x100 0x20 0 "(exe)" "/tmp/cc.o" []]], [Component "/p/main" "libmain.a"],
    (ElfFile [] [] [(0x100, mk_cusym "v" 0x100 0x8 "/p/main/main.c")]).
  vm_compute. discriminate.
Qed.
Print Assumptions c31_expansion_conserves_refuted.

(** ... and the padding of an input section is overwritten by a following empty one *)
Theorem c31_padding_refuted : exists symbols s,
  Forall (fun i => i_archive i = "(exe)" -> covered_by symbols i) (o_isecs s) /\
  zsumf i_fill (o_isecs (expand_osec symbols s)) <> zsumf i_fill (o_isecs s).
Proof.
  exists lto_symbols, (mk_osec ".text" 0x42000020 0x40
    [mk_isec ".text.a" 0x42000020 0x8 0x8 "liba.a" "a.o" []; mk_isec ".text" 0x42000030 0 0 "(exe)" "/tmp/cc.o" []]).
  split; [|vm_compute; discriminate].
  apply Forall_cons; [intros E; discriminate E|]. apply Forall_cons; [|apply Forall_nil]. intros _. split; [cbn; lia|]. split.
  - exists 0x42000030. eexists. split; [vm_compute; left; reflexivity|cbn; lia].
  - cbn [i_addr i_size mk_isec]. intros. lia.
Qed.
Print Assumptions c31_padding_refuted.

(** C31 if a symbol starts behind each such input section and none crosses its end *)
Theorem c31_expansion_conserves_partial : forall symbols s,
  Forall (fun i => i_archive i = "(exe)" -> covered_by symbols i) (o_isecs s) ->
  zsumf i_size (o_isecs (expand_osec symbols s)) = zsumf i_size (o_isecs s).
Proof. exact expand_osec_size. Qed.
Print Assumptions c31_expansion_conserves_partial.

(** ... then the pieces of an input section tile it, also the padding is kept *)
Theorem c31_pieces_partial : forall symbols s,
  Forall (fun i => i_archive i = "(exe)" -> 0 < i_size i /\ covered_by symbols i) (o_isecs s) ->
  o_name (expand_osec symbols s) = o_name s /\ o_addr (expand_osec symbols s) = o_addr s /\ o_size (expand_osec symbols s) = o_size s /\
  exists groups, o_isecs (expand_osec symbols s) = concat groups /\
    Forall2 (fun i g => (i_archive i <> "(exe)" /\ g = [i]) \/
       (i_archive i = "(exe)" /\ isec_tiles (i_addr i) (i_addr i + i_size i) g /\ Forall (piece_of symbols i) g /\ zsumf i_fill g = i_fill i))
      (o_isecs s) groups.
Proof. exact expand_osec_groups. Qed.
Print Assumptions c31_pieces_partial.

(** C31: input sections with an archive are always kept *)
Theorem c31_archives_kept : forall symbols s i, In i (o_isecs s) -> i_archive i <> "(exe)" ->
  exists j, In j (o_isecs (expand_osec symbols s)) /\ i_name j = i_name i /\ i_addr j = i_addr i /\ i_size j = i_size i /\
    i_archive j = i_archive i /\ i_object j = i_object i.
Proof. exact keep_others. Qed.
Print Assumptions c31_archives_kept.

Example c31_example :
  Forall (fun s => Forall (fun i => i_archive i = "(exe)" -> 0 < i_size i /\ covered_by lto_symbols i) (o_isecs s)) lto_sections /\
  map (fun s => map (fun i => (i_archive i, i_addr i, i_size i)) (o_isecs s)) (expand_input_sections lto_sections (pd_components lto_desc) lto_elf) =
  [[ ("(exe)" : str, 0x42000020, 0x10); ("esp-idf/main/libmain.a" : str, 0x42000030, 0x20); ("(exe)" : str, 0x42000050, 0x8);
     ("esp-idf/led/libled.a" : str, 0x42000058, 0x28); ("libc.a" : str, 0x42000088, 0x28) ]].
Proof.
  split; [|vm_compute; reflexivity]. apply Forall_cons; [|apply Forall_nil]. cbn [o_isecs mk_osec lto_sections].
  apply Forall_cons; [|apply Forall_cons; [intros E; discriminate E|apply Forall_nil]]. intros _. split; [reflexivity|].
  split; [discriminate|]. split.
  - exists 0x420000b0. eexists. split; [vm_compute; right; right; left; reflexivity|cbn; lia].
  - cbn [i_addr i_size mk_isec]. intros a y I R. vm_compute in I. destruct I as [E|[E|[E|[]]]]; injection E as <- <-; cbn; lia.
Qed.

(** C32 is false: DWARF based expansion stays in the map file *)
Theorem c32_repeatable_refuted : exists mf c1 mf1 c2,
  history mf [c1] mf1 /\ rmap fst (do_call c2 mf1) <> rmap fst (do_call c2 mf).
Proof.
  exists lto_mf, (Call world_lto false (Some true) None). eexists. exists (Call world_lto false (Some false) None). split.
  - econstructor; [vm_compute; reflexivity|constructor].
  - vm_compute. discriminate.
Qed.
Print Assumptions c32_repeatable_refuted.

(** C32 for histories without DWARF *)
Theorem c32_repeatable_partial : forall mf cs mf', history mf cs mf' ->
  Forall (fun c => wants_dwarf (c_dwarf c) (c_world c) false) cs ->
  forall c, wants_dwarf (c_dwarf c) (c_world c) false -> rmap fst (do_call c mf') = rmap fst (do_call c mf).
Proof. exact get_history. Qed.
Print Assumptions c32_repeatable_partial.

Example c32_example : exists mf', history mf_s3 [Call world_s3 true None None; Call world_noelf false None None] mf' /\
  Forall (fun c => wants_dwarf (c_dwarf c) (c_world c) false) [Call world_s3 true None None; Call world_noelf false None None].
Proof.
  eexists. split.
  - econstructor; [vm_compute; reflexivity|]. econstructor; [vm_compute; reflexivity|constructor].
  - constructor; [right; split; reflexivity|]. constructor; [right; split; reflexivity|constructor].
Qed.

(** C33, used bytes; per archive if no DWARF is used and no two parts of one type
    are reported under one name *)
Theorem c33_bytes_accounted : forall w ls ud ma ea m mf' mf e,
  get w ls ud ma ea = Ok (m, mf') -> map_file_of w ma mf -> w_elf w = Ok e ->
  exists types keep parts groups dests,
    w_memory_types w (m_target m) = Ok types /\
    (forall s, keep s = true <-> kept e s) /\
    Forall (fun r => In (sr_type r) types) parts /\
    Forall2 (section_parts parts) (rev (filter keep (mf_sections mf))) groups /\
    Forall2 (fun p d => dest types parts (add_archives p) d) (concat groups) dests /\
    total_used m + zsumf (fun sd => o_size (fst sd)) (filter lost (combine (concat groups) dests)) =
      zsumf o_size (filter keep (mf_sections mf)) /\
    (wants_dwarf ud w false ->
     (forall t, NoDup (flat_map dest_names (filter (goes_to t) (combine (map add_archives (concat groups)) dests)))) ->
     forall a, map_archive_bytes a m +
       zsumf (fun sd => archive_bytes a (o_isecs (fst sd))) (filter lost (combine (concat groups) dests)) =
       zsumf (fun s => archive_bytes a (o_isecs s)) (filter keep (mf_sections mf))).
Proof. exact get_accounted. Qed.
Print Assumptions c33_bytes_accounted.

(** the overflowing part of .flash.text is not assigned *)
Example c33_example : exists m mf, get world_s3 true None None None = Ok (m, mf) /\ map_file_of world_s3 None mf_s3 /\
  total_used m + 0x100 = zsumf o_size sections_s3 /\
  map_archive_bytes "libmain.a" m + 0x100 = 0x200 /\ map_archive_bytes "libfreertos.a" m = 0x3c30.
Proof.
  eexists. eexists. split; [vm_compute; reflexivity|]. split; [reflexivity|]. split; [vm_compute; reflexivity|]. split; vm_compute; reflexivity.
Qed.

(** C33 per archive is false in general: a part replaces another one of its name *)
Theorem c33_archive_bytes_refuted : exists w ls ud m mf' a,
  get w ls ud None None = Ok (m, mf') /\ wants_dwarf ud w false /\
  exists mf, w_mapfile w = Ok mf /\ (forall s, In s (mf_sections mf) -> kept None s) /\ w_elf w = Ok None /\
    total_used m = zsumf o_size (mf_sections mf) /\
    map_archive_bytes a m <> zsumf (fun s => archive_bytes a (o_isecs s)) (mf_sections mf).
Proof.
  exists (World "/p/app.map" None false
    (Ok (MapFile "esp32s3" [mk_region "a" 0x42000000 0x100 "xr"; mk_region "b" 0x42000100 0x100 "xr"]
      [mk_osec ".flash.text" 0x42000080 0x100 [mk_isec ".text.f" 0x42000080 0x100 0 "liba.a" "f.o" []]])) (Ok None) (fun _ => Ok chip_s3)), false, None.
  eexists. eexists. exists "liba.a". split; [vm_compute; reflexivity|]. split; [right; split; reflexivity|]. eexists. split; [reflexivity|].
  split; [|split; [reflexivity|split; [vm_compute; reflexivity|vm_compute; discriminate]]].
  cbn [mf_sections]. intros s [<-|[]]. apply keep_spec. vm_compute. reflexivity.
Qed.
Print Assumptions c33_archive_bytes_refuted.
