(** * Property C141: the report of archives is the sum of the report of their symbols *)
From Coq Require Import Ascii String List ZArith Lia Bool Permutation.
From Verif Require Import Base MemMap SpecTree SpecOps Filter SpecFilter Pipeline SpecPipe SpecBuild SpecBytes SpecShape SpecSyms PyStr MapFile SpecMap FixMap
  ElfRead SpecElf FixElf Project SpecProject FixProject ProofProject2 SpecEnd Chips SpecChips ProofChips Deps Table SpecTable Formats Main SpecMain FixMain Command SpecCommand SpecFail SpecReport SpecSymbols SpecAdds SpecTiles
  PropProject PropEnd PropCommand PropFail PropReport PropSymbols PropAdds ProofBytes ProofSteps ProofTiles.
Import ListNotations.
Open Scope list_scope.
Open Scope Z_scope.

Local Notation tx := list_ascii_of_string.

(** C141: the report of archives and the report on the symbols of the archives [x] (with
    --archive-details), as JSON, alone or compared with a reference.  If the input sections of
    these archives are made of the symbols that begin in them, without holes and without
    overlaps, then the difference of an archive is the sum of those of its symbols; the
    differences of the symbols of an archive that is not reported cancel; and if nothing is
    left out because it is the same in the reference, every figure of an archive is the sum of
    those of its symbols, and its symbols are reported if and only if it is.  The full claim
    has this for all symbols; that is refuted below. *)
Theorem c141_symbols_add_partial : forall d c x k q r r' o o' fs fs' s s' render encode ord pf,
  both_reported tiled d c x k q r r' -> x <> [] -> tells_symbols q r' -> a_format (c_args c) = FJson2 ->
  run_files d (get_memory_types chip_info) render encode ord pf (report_on false c) o (start fs) = (Done tt, s) ->
  run_files d (get_memory_types chip_info) render encode ord pf (report_details x c) o' (start fs') = (Done tt, s') ->
  exists archives symbols, s_printed s = [PEntries archives] /\ s_printed s' = [PEntries symbols] /\ symbols_add_up x (c_args c) archives symbols.
Proof. exact symbols_add. Qed.
Print Assumptions c141_symbols_add_partial.

(** ** example: two symbols make up the input section of libmain.a *)
Definition tl_args (x : option str) : args := Args FJson2 false false false false x false None false true false false false false (Some false) None (tx "1") None false true.
Definition tl_cmd (dir : str) : cmd := Cmd (tl_args None) (in_dir dir (tx "app.map")) false false None.
Definition tl_run (c : cmd) := run_files sx_disk (get_memory_types chip_info) mx_render mx_encode mx_order mx_pct c no_faults (start []).
Lemma tl_archive i : places i sx_account_new -> after_last "/"%char (it_archive i) (tx "libmain.a") -> i = fx_item1.
Proof.
  intros (o & Io & Co & Ii & _) (_ & A). rewrite (sx_counted o Io Co) in Ii. destruct Ii as [<-|[<-|[]]]; [reflexivity|]. exfalso. destruct A as [A|(pre & A)]; [discriminate A|].
  apply (f_equal (@List.length ascii)) in A. rewrite app_length in A. cbn in A. lia.
Qed.
Lemma tl_both : both_reported tiled sx_disk (tl_cmd dir1) (tx "libmain.a") sx_account_new sx_new None None.
Proof.
  split; [|split; [reflexivity|split; reflexivity]]. exists dir1, (tx "app.map"), px_text, (Some fx_entries), (Some sx_new_ys).
  split; [reflexivity|]. split; [exact sx_built1|]. split; [left; reflexivity|]. split; [right; exact sx_filled1|].
  split; [apply (sx_symbols_of _ _ sx_new_syms); [vm_compute; reflexivity|vm_compute; reflexivity|now left]|]. split; [exact sx_clear_new|]. split; [reflexivity|].
  intros i P A. rewrite (tl_archive i P A). exists [Symbol (tx "app_main()") 0x40080400 5; Symbol (tx "helper") 0x40080405 3].
  split; [replace (item_symbols (Some sx_new_ys) fx_item1) with [Symbol (tx "app_main()") 0x40080400 5; Symbol (tx "helper") 0x40080405 3] by (vm_compute; reflexivity); apply Permutation_refl|].
  apply (row_next (Symbol (tx "app_main()") 0x40080400 5)); [cbn; lia|]. apply (row_next (Symbol (tx "helper") 0x40080405 3)); [cbn; lia|]. constructor.
Qed.
Lemma tl_tells : tells_symbols sx_new None.
Proof. intros i [P|[]]. apply sx_tells. now left. Qed.
Example c141_example : exists s archives s' symbols,
  both_reported tiled sx_disk (tl_cmd dir1) (tx "libmain.a") sx_account_new sx_new None None /\ tells_symbols sx_new None /\ shows_all (c_args (tl_cmd dir1)) /\
  tl_run (report_on false (tl_cmd dir1)) = (Done tt, s) /\ s_printed s = [PEntries archives] /\
  ax_figures archives = [ (tx "(exe)", 16, 0, [(tx ".iram0.text", 16, 0)]); (tx "esp-idf/main/libmain.a", 8, 0, [(tx ".iram0.text", 8, 0)]) ] /\
  tl_run (report_details (tx "libmain.a") (tl_cmd dir1)) = (Done tt, s') /\ s_printed s' = [PEntries symbols] /\
  ax_figures symbols = [ (tx "esp-idf/main/libmain.a:app main.c.obj:app_main()", 5, 0, [(tx ".iram0.text", 5, 0)]);
                         (tx "esp-idf/main/libmain.a:app main.c.obj:helper", 3, 0, [(tx ".iram0.text", 3, 0)]) ].
Proof.
  do 4 eexists. split; [exact tl_both|]. split; [exact tl_tells|]. split; [left; reflexivity|].
  split; [vm_compute; reflexivity|]. split; [reflexivity|]. split; [vm_compute; reflexivity|]. split; [vm_compute; reflexivity|]. split; [reflexivity|]. vm_compute. reflexivity.
Qed.

(** ** example: builds without an ELF file, the new one compared with the old one; the symbols
    are the input sections *)
Definition ti_k : account := symbol_account None ax_k.
Definition ti_r : account := symbol_account None ax_r.
Lemma ti_clear v a b : 0 < v <= 1024 -> 0 < a -> 0 < b -> clear_symbols (Account fx_regions [ax_vectors v; ax_code a b] None types_esp32) None.
Proof.
  intros V A B. split.
  - destruct (counted_decided None) as (keep & K). exists keep. split; [exact K|]. cbn [ac_l].
    assert (E1 : filter (fun i => negb (it_size i =? 0)) (pr_items (ax_vectors v)) = pr_items (ax_vectors v)).
    { unfold ax_vectors, ax_item. cbn [pr_items filter it_size]. rewrite (proj2 (Z.eqb_neq v 0)) by lia. reflexivity. }
    assert (E2 : filter (fun i => negb (it_size i =? 0)) (pr_items (ax_code a b)) = pr_items (ax_code a b)).
    { unfold ax_code, ax_item. cbn [pr_items filter it_size]. rewrite (proj2 (Z.eqb_neq a 0)), (proj2 (Z.eqb_neq b 0)) by lia. reflexivity. }
    cbn [filter]. destruct (keep (ax_vectors v)), (keep (ax_code a b)); cbn [flat_map]; rewrite ?E1, ?E2, ?app_nil_r; unfold ax_vectors, ax_code, ax_item; cbn [pr_items app].
    all: repeat (constructor; [repeat (constructor; [left; cbn [it_addr it_size]; lia|]); constructor|]); constructor.
  - cbn [ac_l]. constructor; [|constructor; [|constructor]]; intros _; unfold by_symbols, item_symbols, symbols_at, ax_vectors, ax_code, ax_item; cbn [pr_items flat_map it_size it_name it_addr];
      rewrite ?(proj2 (Z.eqb_neq v 0)), ?(proj2 (Z.eqb_neq a 0)), ?(proj2 (Z.eqb_neq b 0)) by lia; cbn [map app symbol_item it_archive it_object it_name sy_name];
      repeat (constructor; [intros X; repeat (destruct X as [X|X]; [discriminate X|]); exact X|]); constructor.
Qed.
Lemma ti_within d dir a x l v y z : (forall fn, d_isfile d fn = false) -> directory dir -> description d dir = Some (JObj px_object) -> d_text d (in_dir dir (tx "app.map")) = Some (ax_text l) ->
  printed_map fx_regions [ax_vectors v; ax_code y z] None (splitlines (ax_text l)) -> 0 < v <= 1024 -> 0 < y <= 1024 -> 0 < z <= 1024 -> a_use_dwarf a = Some false ->
  symbols_within tiled d a x (in_dir dir (tx "app.map")) (Account fx_regions [ax_vectors v; ax_code y z] None types_esp32) (symbol_account None (Account fx_regions [ax_vectors v; ax_code y z] None types_esp32)).
Proof.
  intros Di Dd De Dt Mp V Y Z0 U. destruct (ax_built d dir l v y z Di Dd De Dt Mp V Y Z0) as (B & F). exists dir, (tx "app.map"), (ax_text l), None, None. split; [reflexivity|]. split; [exact B|]. split; [left; exact U|]. split; [right; exact F|].
  split; [constructor|]. split; [apply ti_clear; lia|]. split; [reflexivity|].
  intros i (o & Io & _ & Ii & Si) _.
  assert (P : 0 <= it_size i) by (destruct Io as [<-|[<-|[]]]; [destruct Ii as [<-|[]]|destruct Ii as [<-|[<-|[]]]]; unfold ax_item; cbn [it_size]; lia).
  apply whole_tiled; [exact P|]. unfold item_symbols, symbols_at. now rewrite (proj2 (Z.eqb_neq _ _) Si).
Qed.
Lemma ti_both u : both_reported tiled ax_disk (ax_cmd u) (tx "lib.a") ax_k ti_k (Some ax_r) (Some ti_r).
Proof.
  split; [|split; [|split; reflexivity]].
  - apply (ti_within ax_disk dir1 _ _ ax_new 16 8 8); [reflexivity|exact dir1_ok|reflexivity|vm_compute; reflexivity|exact ax_new_ok|lia|lia|lia|reflexivity].
  - exists (in_dir dir2 (tx "app.map")). split; [reflexivity|]. apply (ti_within ax_disk dir2 _ _ ax_old 8 16 4); [reflexivity|exact dir2_ok|reflexivity|vm_compute; reflexivity|exact ax_old_ok|lia|lia|lia|reflexivity].
Qed.
Lemma ti_tells : tells_symbols ti_k (Some ti_r).
Proof.
  intros i [(o & Io & _ & Ii & _)|(o & Io & _ & Ii & _)]; cbn in Io; repeat (destruct Io as [<-|Io]; [vm_compute in Ii; repeat (destruct Ii as [<-|Ii]; [split; t_not_in|]); contradiction|]); contradiction.
Qed.
Definition ti_run (c : cmd) := run_files ax_disk (get_memory_types chip_info) mx_render mx_encode mx_order mx_pct c no_faults (start []).
Example c141_differences : exists s archives s' symbols,
  both_reported tiled ax_disk (ax_cmd false) (tx "lib.a") ax_k ti_k (Some ax_r) (Some ti_r) /\ tells_symbols ti_k (Some ti_r) /\
  ti_run (report_on false (ax_cmd false)) = (Done tt, s) /\ s_printed s = [PEntries archives] /\
  ax_figures archives = [(tx "lib.a", 32, 4, [(tx ".iram0.vectors", 16, 8); (tx ".iram0.text", 16, -4)])] /\
  ti_run (report_details (tx "lib.a") (ax_cmd false)) = (Done tt, s') /\ s_printed s' = [PEntries symbols] /\
  map (fun e => (fst (fst (fst e)), snd (fst (fst e)), snd (fst e))) (ax_figures symbols) = [ (tx "lib.a:a.o:.vec.a", 16, 8); (tx "lib.a:b.o:.text.b", 8, 4); (tx "lib.a:a.o:.text.a", 8, -8) ].
Proof.
  do 4 eexists. split; [apply ti_both|]. split; [exact ti_tells|].
  split; [vm_compute; reflexivity|]. split; [reflexivity|]. split; [vm_compute; reflexivity|]. split; [vm_compute; reflexivity|]. split; [reflexivity|]. vm_compute. reflexivity.
Qed.

(** the older build of the first example: the symbols of libmain.a have 12 and 1 bytes, but its
    input section has 16, three of which are behind the last symbol.  The archive is reported
    with 16 bytes, its symbols with 13. *)
Theorem c141_padding_refuted : exists d c x k q o fs s s' render encode ord pf archives symbols,
  both_reported (fun _ _ => True) d c x k q None None /\ x <> [] /\ tells_symbols q None /\ a_format (c_args c) = FJson2 /\
  run_files d (get_memory_types chip_info) render encode ord pf (report_on false c) o (start fs) = (Done tt, s) /\
  run_files d (get_memory_types chip_info) render encode ord pf (report_details x c) o (start fs) = (Done tt, s') /\
  s_printed s = [PEntries archives] /\ s_printed s' = [PEntries symbols] /\ ~ symbols_add_up x (c_args c) archives symbols.
Proof.
  exists sx_disk, (tl_cmd dir2), (tx "libmain.a"), sx_account_old, sx_old, no_faults, []. do 2 eexists. exists mx_render, mx_encode, mx_order, mx_pct. do 2 eexists.
  split; [|split; [discriminate|split; [|split; [reflexivity|split; [vm_compute; reflexivity|split; [vm_compute; reflexivity|split; [reflexivity|split; [reflexivity|]]]]]]]].
  - split; [|split; [reflexivity|split; reflexivity]]. exists dir2, (tx "app.map"), rx_text, None, (Some sx_old_ys). split; [reflexivity|]. split; [exact sx_built2|]. split; [left; reflexivity|]. split; [right; exact sx_filled2|].
    split; [|split; [exact sx_clear_old|split; [reflexivity|intros; exact I]]]. apply (sx_symbols_of _ _ sx_old_syms); [vm_compute; reflexivity|vm_compute; reflexivity|right; now left].
  - intros i [P|[]]. apply sx_tells. now right.
  - intros A. destruct (A (tx "esp-idf/main/libmain.a") (part_in (tx "esp-idf/main/libmain.a"))) as (_ & _ & B).
    + split; [t_not_in|]. right. exists (tx "esp-idf/main"). reflexivity.
    + apply part_in_ok.
    + destruct (B (or_introl eq_refl)) as (B' & _). specialize (B' _ ColTotal (or_introl eq_refl)). vm_compute in B'. discriminate B'.
Qed.
Print Assumptions c141_padding_refuted.
