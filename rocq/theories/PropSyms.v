(** * Every byte of a symbol is reported under the memory type of its address (C112) *)
From Coq Require Import Ascii String List ZArith Lia Bool.
From Verif Require Import Base MemMap SpecTree Pipeline SpecPipe SpecBuild SpecBytes SpecSyms ProofBytes ProofBytes2 ProofBytes3 ProofSyms ProofSyms4 Chips SpecChips ProofChips FixPipe PropBytes.
Import ListNotations.
Open Scope list_scope.
Open Scope Z_scope.

(** ** C112: the symbols of an object file in an output section are the functions and objects
    of the ELF file that start in its input sections, or the input sections themselves; the
    memory types list each of them with its bytes in that memory type *)
Theorem c112_symbol_bytes : forall w ud ma ea m mf' mf e types,
  get w true ud ma ea = Ok (m, mf') -> map_file_of w ma mf -> w_elf w = Ok e -> w_memory_types w (m_target m) = Ok types ->
  wants_dwarf ud w false -> windows_separate types -> Forall (fun r => 0 <= r_length r) (mf_regions mf) ->
  Forall (fun s => kept e s -> 0 <= o_size s /\ section_mapped (mf_regions mf) types s /\ unbroken (mf_regions mf) types s /\ isecs_in s) (mf_sections mf) ->
  match e with Some e => Forall (fun y => 0 <= st_symsize y) (elf_symbols e) | None => True end ->
  exists keep d, (forall s, keep s = true <-> kept e s) /\ (forall n a T, d n a T = true <-> byte_goes types n a T) /\
    (NoDup (map o_name (filter keep (mf_sections mf))) ->
     ForallOrdPairs isecs_apart (flat_map (fun s => filter (fun i => negb (i_size i =? 0)) (o_isecs s)) (filter keep (mf_sections mf))) ->
     (forall s a o, In s (mf_sections mf) -> kept e s -> NoDup (map sy_name (symbols_in (option_map elf_symbols e) a o s))) ->
     forall T t, dget T (m_types m) = Some t ->
      forall s, In s (mf_sections mf) -> kept e s -> lists_symbols d (option_map elf_symbols e) T s (dget (o_name s) (t_sections t))).
Proof. exact symbol_bytes_ok. Qed.
Print Assumptions c112_symbol_bytes.

(** and no listed symbol leaves its input section: a file with such a symbol is refused *)
Theorem c112_symbols_inside : forall w ud ma ea m mf' mf e keep,
  get w true ud ma ea = Ok (m, mf') -> map_file_of w ma mf -> w_elf w = Ok e -> wants_dwarf ud w false ->
  (forall s, keep s = true <-> kept e s) ->
  Forall (fun s => kept e s -> isecs_in s) (mf_sections mf) ->
  match e with Some e => Forall (fun y => 0 <= st_symsize y) (elf_symbols e) | None => True end ->
  ForallOrdPairs isecs_apart (flat_map (fun s => filter (fun i => negb (i_size i =? 0)) (o_isecs s)) (filter keep (mf_sections mf))) ->
  forall s, In s (mf_sections mf) -> kept e s -> Forall (fun i => Forall (symbol_inside i) (isec_symbols (option_map elf_symbols e) i)) (o_isecs s).
Proof. exact symbols_inside_flag. Qed.
Print Assumptions c112_symbols_inside.

(** xQueueSend() crosses from IRAM to DIRAM; no symbol starts in .data.b *)
Definition elf_bytes : elf := ElfFile (elf_shdrs elf_s3) (filter (fun y => negb (st_name y =?= list_ascii_of_string "app_main")) (elf_symbols elf_s3)) [].
Definition world_syms : world := World "/p/build/app.map" None false (Ok mf_bytes) (Ok (Some elf_bytes)) (get_memory_types chip_info).
Definition apart_b (i j : isection) : bool := (i_addr i + i_size i <=? i_addr j) || (i_addr j + i_size j <=? i_addr i).
Fixpoint all_apart (l : list isection) : bool := match l with [] => true | i :: l => forallb (apart_b i) l && all_apart l end.
Lemma all_apart_ok l : all_apart l = true -> ForallOrdPairs isecs_apart l.
Proof.
  induction l as [|i l IH]; cbn [all_apart]; intros H; [constructor|]. apply andb_true_iff in H. destruct H as [H1 H2]. constructor; [|auto].
  apply Forall_forall. intros j J. rewrite forallb_forall in H1. specialize (H1 j J). unfold apart_b in H1. apply orb_true_iff in H1. rewrite !Z.leb_le in H1. exact H1.
Qed.
Example c112_example : exists m mf t u, get world_syms true None None None = Ok (m, mf) /\ wants_dwarf None world_syms false /\
  Forall (fun y => 0 <= st_symsize y) (elf_symbols elf_bytes) /\
  ForallOrdPairs isecs_apart (flat_map (fun s => filter (fun i => negb (i_size i =? 0)) (o_isecs s)) (mf_sections mf_bytes)) /\
  Forall (fun s => forall i, In i (o_isecs s) -> NoDup (map sy_name (symbols_in (Some (elf_symbols elf_bytes)) (i_archive i) (i_object i) s))) (mf_sections mf_bytes) /\
  dget (list_ascii_of_string "IRAM") (m_types m) = Some t /\ dget (list_ascii_of_string "DIRAM") (m_types m) = Some u /\
  symbol_size "libfreertos.a" "queue.c.obj" "xQueueSend()" (dget (list_ascii_of_string ".iram0.text") (t_sections t)) = 0xc /\
  symbol_size "libfreertos.a" "queue.c.obj" "xQueueSend()" (dget (list_ascii_of_string ".iram0.text") (t_sections u)) = 0x14 /\
  symbol_size "libfreertos.a" "queue.c.obj" "xQueueRecv()" (dget (list_ascii_of_string ".iram0.text") (t_sections u)) = 0x20 /\
  symbol_size "liblog.a" "log.c.obj" ".data.b" (dget (list_ascii_of_string ".dram0.data") (t_sections u)) = 8.
Proof.
  do 4 eexists. split; [vm_compute; reflexivity|]. split; [right; split; reflexivity|]. split; [repeat (constructor; [discriminate|]); constructor|].
  split; [apply all_apart_ok; vm_compute; reflexivity|]. split; [|vm_compute; repeat split; reflexivity].
  repeat (constructor; [intros i I; repeat (destruct I as [<-|I]; [apply nodup_ok; vm_compute; reflexivity|]); contradiction|]). constructor.
Qed.
