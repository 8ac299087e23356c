(** * Properties C115 and C116: the report on the symbols of an archive is made, or the failure is diagnosed *)
From Coq Require Import Ascii String List ZArith Lia Bool Sorted.
From Verif Require Import Base MemMap SpecTree SpecOps Filter SpecFilter Pipeline SpecPipe SpecBuild SpecBytes SpecShape SpecSyms PyStr MapFile SpecMap FixMap
  ElfRead SpecElf FixElf Project SpecProject FixProject ProofProject2 SpecEnd Chips SpecChips ProofChips Deps Table SpecTable Formats Main SpecMain FixMain Command SpecCommand SpecFail SpecReport SpecSymbols SpecFits
  PropProject PropEnd PropCommand PropFail PropReport PropSymbols ProofFits3.
Import ListNotations.
Open Scope list_scope.
Open Scope Z_scope.

(** C115: the functions and objects of the ELF file fit the input sections of the map file, and
    something of the archive is listed: then the report is made *)
Theorem c115_reported : forall d ord pf c x, asked_symbols (c_args c) x -> a_unify (c_args c) = false -> a_archive_dependencies (c_args c) = false -> a_format (c_args c) <> FDot ->
  forall render encode s q r,
  symbols_reported d c q r -> fitting_project d (c_args c) (c_input c) -> fitting_reference d (c_args c) -> (exists i, symbol_of x q r i) ->
  a_format (c_args c) = FJson2 \/
  (a_format (c_args c) = FTable \/ a_format (c_args c) = FText \/ a_format (c_args c) = FCsv) /\ names_column (map list_ascii_of_string ["Name"; "Total Size"]%string) (a_sort (c_args c)) 1 ->
  exists s', run_files d (get_memory_types chip_info) render encode ord pf c no_faults s = (Done tt, s').
Proof. exact symbols_run_done. Qed.
Print Assumptions c115_reported.
(** there is no such archive, or nothing of it is in the program *)
Theorem c115_not_found : forall d ord pf c x, asked_symbols (c_args c) x -> a_unify (c_args c) = false -> a_archive_dependencies (c_args c) = false -> a_format (c_args c) <> FDot ->
  forall render encode s q r,
  symbols_reported d c q r -> fitting_project d (c_args c) (c_input c) -> fitting_reference d (c_args c) -> ~ (exists i, symbol_of x q r i) ->
  a_format (c_args c) = FJson2 \/ a_format (c_args c) = FTable \/ a_format (c_args c) = FText \/ a_format (c_args c) = FCsv ->
  diagnosed s (run_files d (get_memory_types chip_info) render encode ord pf c no_faults s).
Proof. exact symbols_run_none. Qed.
Print Assumptions c115_not_found.
(** a function or an object does not fit: the ELF file is not that of the map file *)
Theorem c115_misfit : forall d ord pf c x, asked_symbols (c_args c) x -> a_unify (c_args c) = false -> a_archive_dependencies (c_args c) = false -> a_format (c_args c) <> FDot ->
  forall render encode s,
  misfitting_project d (c_args c) (c_input c) \/
  fitting_project d (c_args c) (c_input c) /\ (exists fn, a_diff (c_args c) = Some fn /\ misfitting_project d (c_args c) fn) ->
  diagnosed s (run_files d (get_memory_types chip_info) render encode ord pf c no_faults s).
Proof. exact misfit_diagnosed. Qed.
Print Assumptions c115_misfit.

(** ** examples *)
Lemma sx_linked d dir text rs l crt syms : directory dir -> d_text d (in_dir dir (tx "app.map")) = Some text -> printed_map rs l crt (splitlines text) -> Forall regular l ->
  description d dir = Some (JObj px_object) -> d_isfile d (in_dir dir (tx "app.elf")) = true -> d_bytes d (in_dir dir (tx "app.elf")) = Some (sx_elf syms) -> In syms [sx_new_syms; sx_old_syms] ->
  linked d dir (tx "app.map") text rs l crt (Some sx_headers) (tx "esp32").
Proof.
  intros D T M R Ds If By Is. split; try assumption.
  - apply proper_ok. reflexivity.
  - now apply (sx_image d dir syms).
  - exists (tx "esp32"). split; [|left; split; [discriminate|reflexivity]]. apply (target_given _ _ _ px_object (tx "app.elf")); [exact Ds|exact px_describes|reflexivity].
Qed.
Lemma sx_placed i : placed (Some sx_headers) fx_sections i <-> i = fx_item1 \/ i = fx_item2.
Proof.
  split.
  - intros (o & Io & Co & Ii & _). rewrite (sx_counted o Io Co) in Ii. destruct Ii as [<-|[<-|[]]]; auto.
  - intros H. exists px_text_section. split; [left; reflexivity|]. split; [apply sx_kept; vm_compute; reflexivity|]. destruct H as [-> | ->]; (split; [cbn; auto|discriminate]).
Qed.
Lemma sx_placed_old i : placed (Some sx_headers) [rx_section] i <-> i = rx_item.
Proof.
  split.
  - intros (o & [<-|[]] & _ & [<-|[]] & _). reflexivity.
  - intros ->. exists rx_section. split; [left; reflexivity|]. split; [apply sx_kept; vm_compute; reflexivity|]. split; [left; reflexivity|discriminate].
Qed.
Lemma sx_fit_new : symbols_fit (Some sx_headers) fx_sections (Some sx_new_ys).
Proof.
  split; [exists fx_item1; apply sx_placed; now left|]. apply Forall_forall. intros y I W. split.
  - exists fx_item2. split; [apply sx_placed; now right|]. unfold ends_after. destruct I as [<-|[<-|[<-|[<-|[]]]]]; [discriminate W|cbn; lia|cbn; lia|cbn; lia].
  - intros i (P & E & M). unfold ends_after in E. assert (P1 := M fx_item1). rewrite sx_placed in P1. specialize (P1 (or_introl eq_refl)). unfold ends_after in P1. apply sx_placed in P.
    destruct I as [<-|[<-|[<-|[<-|[]]]]]; [discriminate W| | |]; destruct P as [-> | ->]; cbn in *; lia.
Qed.
Lemma sx_fit_old : symbols_fit (Some sx_headers) [rx_section] (Some sx_old_ys).
Proof.
  split; [exists rx_item; now apply sx_placed_old|]. apply Forall_forall. intros y I W. split.
  - exists rx_item. split; [now apply sx_placed_old|]. unfold ends_after. destruct I as [<-|[<-|[<-|[<-|[]]]]]; [discriminate W|cbn; lia|discriminate W|cbn; lia].
  - intros i (P & E & _). apply sx_placed_old in P. subst i. destruct I as [<-|[<-|[<-|[<-|[]]]]]; [discriminate W|cbn; lia|discriminate W|cbn; lia].
Qed.
Definition sx_look (f : format) (archive : string) : args :=
  Args f false false false false (Some (tx archive)) false (Some (in_dir dir2 (tx "app.map"))) false true false false false false (Some false) None (tx "1") None true true.
Lemma sx_fits1 f n : fitting_project sx_disk (sx_look f n) (in_dir dir1 (tx "app.map")).
Proof.
  exists dir1, (tx "app.map"), px_text, fx_regions, fx_sections, (Some fx_entries), (Some sx_headers), (tx "esp32"), (Some sx_new_ys). split; [reflexivity|].
  split; [apply (sx_linked _ _ _ _ _ _ sx_new_syms); [exact dir1_ok|vm_compute; reflexivity|exact (bt_map _ _ _ _ _ _ _ _ _ sx_built1)|exact (bt_regular _ _ _ _ _ _ _ _ _ sx_built1)|vm_compute; reflexivity|vm_compute; reflexivity|vm_compute; reflexivity|now left]|].
  split; [left; reflexivity|]. split; [apply (sx_symbols_of _ _ sx_new_syms); [vm_compute; reflexivity|vm_compute; reflexivity|now left]|]. split; [exact sx_fit_new|exact px_on_chip].
Qed.
Lemma sx_fits2 f n : fitting_project sx_disk (sx_look f n) (in_dir dir2 (tx "app.map")).
Proof.
  exists dir2, (tx "app.map"), rx_text, fx_regions, [rx_section], None, (Some sx_headers), (tx "esp32"), (Some sx_old_ys). split; [reflexivity|].
  split; [apply (sx_linked _ _ _ _ _ _ sx_old_syms); [exact dir2_ok|vm_compute; reflexivity|exact rx_map_ok|exact (bt_regular _ _ _ _ _ _ _ _ _ sx_built2)|vm_compute; reflexivity|vm_compute; reflexivity|vm_compute; reflexivity|right; now left]|].
  split; [left; reflexivity|]. split; [apply (sx_symbols_of _ _ sx_old_syms); [vm_compute; reflexivity|vm_compute; reflexivity|right; now left]|]. split; [exact sx_fit_old|exact px_on_chip].
Qed.
Lemma sx_look_reported f n : symbols_reported sx_disk (px_cmd (sx_look f n)) sx_new (Some sx_old).
Proof. exact (sx_reported f None). Qed.
Lemma sx_there : exists i, symbol_of (tx "libmain.a") sx_new (Some sx_old) i.
Proof.
  exists (Item (tx "helper") 0x40080405 3 (tx "esp-idf/main/libmain.a") (tx "app main.c.obj") []). split.
  - left. exists (by_symbols (Some sx_new_ys) px_text_section). split; [left; reflexivity|]. split; [apply sx_kept; vm_compute; reflexivity|]. split; [|discriminate].
    right. left. vm_compute. reflexivity.
  - split; [t_not_in|]. right. exists (tx "esp-idf/main"). reflexivity.
Qed.
Example c115_reported_example : asked_symbols (sx_look FTable "libmain.a") (tx "libmain.a") /\ symbols_reported sx_disk (px_cmd (sx_look FTable "libmain.a")) sx_new (Some sx_old) /\
  fitting_project sx_disk (sx_look FTable "libmain.a") (c_input (px_cmd (sx_look FTable "libmain.a"))) /\ fitting_reference sx_disk (sx_look FTable "libmain.a") /\
  (exists i, symbol_of (tx "libmain.a") sx_new (Some sx_old) i) /\ names_column (map list_ascii_of_string ["Name"; "Total Size"]%string) (a_sort (sx_look FTable "libmain.a")) 1 /\
  exists s tb, sx_run (sx_look FTable "libmain.a") = (Done tt, s) /\ s_printed s = [PTable tb] /\ List.length (tb_rows tb) = 2%nat.
Proof.
  split; [split; [reflexivity|split; [reflexivity|discriminate]]|]. split; [apply sx_look_reported|]. split; [apply sx_fits1|].
  split; [right; exists (in_dir dir2 (tx "app.map")); split; [reflexivity|apply sx_fits2]|]. split; [exact sx_there|].
  split; [left; exists 1; split; [vm_compute; reflexivity|]; cbn; lia|]. do 2 eexists. split; [vm_compute; reflexivity|]. split; [reflexivity|]. vm_compute. reflexivity.
Qed.
(** an archive that is not in the program *)
Example c115_not_found_example : asked_symbols (sx_look FCsv "libz.a") (tx "libz.a") /\ symbols_reported sx_disk (px_cmd (sx_look FCsv "libz.a")) sx_new (Some sx_old) /\
  ~ (exists i, symbol_of (tx "libz.a") sx_new (Some sx_old) i) /\
  outcome (sx_run (sx_look FCsv "libz.a")) = (Raised SystemExit, [], [], [Died]) /\ outcome (sx_run (sx_look FJson2 "libz.a")) = (Raised SystemExit, [], [], [Died]).
Proof.
  split; [split; [reflexivity|split; [reflexivity|discriminate]]|]. split; [apply sx_look_reported|]. split; [|split; vm_compute; reflexivity].
  assert (G : forall y, after_last "/"%char y (tx "libz.a") -> In y (map tx ["esp-idf/main/libmain.a"; "(exe)"; "lib.a"]%string) -> False).
  { intros y A [<-|[<-|[<-|[]]]]; destruct A as (_ & [A|(pre & A)]); try discriminate A; apply (f_equal (@rev ascii)) in A; rewrite rev_app_distr in A; cbn in A; discriminate A. }
  intros (i & [(o & Io & _ & Ii & _)|(o & Io & _ & Ii & _)] & A); apply (G _ A); clear G A.
  - destruct Io as [<-|[<-|[]]]; vm_compute in Ii; repeat (destruct Ii as [<-|Ii]; [vm_compute; tauto|]); contradiction.
  - destruct Io as [<-|[]]; vm_compute in Ii; repeat (destruct Ii as [<-|Ii]; [vm_compute; tauto|]); contradiction.
Qed.
(** the ELF file of the old build with the map file of the new one *)
Definition fx_stale : disk := disk_with (Some px_text) (Some px_desc) (sx_elf sx_old_syms).
Definition fx_alone (f : format) : args := Args f false false false false (Some (tx "libmain.a")) false None false true false false false false (Some false) (Some (tx "out/report")) (tx "1") None true true.
Lemma fx_misfits f : misfitting_project fx_stale (fx_alone f) (in_dir dir1 (tx "app.map")).
Proof.
  exists dir1, (tx "app.map"), px_text, fx_regions, fx_sections, (Some fx_entries), (Some sx_headers), (tx "esp32"), sx_old_ys, (ElfSym (tx "app_main") 0x40080400 12 2). split; [reflexivity|].
  split; [apply (sx_linked _ _ _ _ _ _ sx_old_syms); [exact dir1_ok|vm_compute; reflexivity|exact (bt_map _ _ _ _ _ _ _ _ _ sx_built1)|exact (bt_regular _ _ _ _ _ _ _ _ _ sx_built1)|vm_compute; reflexivity|vm_compute; reflexivity|vm_compute; reflexivity|right; now left]|].
  split; [left; reflexivity|]. split; [apply (sx_symbols_of _ _ sx_old_syms); [vm_compute; reflexivity|vm_compute; reflexivity|right; now left]|].
  split; [right; left; reflexivity|]. split; [reflexivity|]. split; [exists fx_item1; apply sx_placed; now left|]. split; [|exact px_on_chip].
  intros i (P & E & M). specialize (M fx_item1). rewrite sx_placed in M. specialize (M (or_introl eq_refl)). unfold ends_after in *. apply sx_placed in P. destruct P as [-> | ->]; cbn in *; lia.
Qed.
Example c115_misfit_example : misfitting_project fx_stale (fx_alone FTable) (c_input (px_cmd (fx_alone FTable))) /\ outcome (run_on fx_stale (fx_alone FTable)) = failed_run.
Proof. split; [apply fx_misfits|vm_compute; reflexivity]. Qed.

(** ** C116: a project whose ELF file has nothing of the output sections with input sections *)
Theorem c116_empty : forall d ord pf c x, asked_symbols (c_args c) x -> a_archive_dependencies (c_args c) = false -> a_format (c_args c) <> FDot ->
  forall render encode s, empty_project d (c_args c) (c_input c) ->
  exists s', run_files d (get_memory_types chip_info) render encode ord pf c no_faults s = (Raised IndexError, s').
Proof. exact empty_raises. Qed.
Print Assumptions c116_empty.
Definition fx_bare : disk := disk_with (Some ox_text) (Some px_desc) (sx_elf sx_new_syms).
Lemma fx_empty f : empty_project fx_bare (fx_alone f) (in_dir dir1 (tx "app.map")).
Proof.
  exists dir1, (tx "app.map"), ox_text, fx_regions, ox_sections, None, (Some sx_headers), (tx "esp32"), sx_new_ys. split; [reflexivity|].
  split; [apply (sx_linked _ _ _ _ _ _ sx_new_syms); [exact dir1_ok|vm_compute; reflexivity|exact (bt_map _ _ _ _ _ _ _ _ _ ox_built)|exact (bt_regular _ _ _ _ _ _ _ _ _ ox_built)|vm_compute; reflexivity|vm_compute; reflexivity|vm_compute; reflexivity|now left]|].
  split; [left; reflexivity|]. split; [apply (sx_symbols_of _ _ sx_new_syms); [vm_compute; reflexivity|vm_compute; reflexivity|now left]|]. split; [|exact px_on_chip].
  intros i (o & [<-|[]] & C & _). apply sx_kept in C. discriminate C.
Qed.
Theorem c116_diagnosed_refuted : exists d a, empty_project d a (c_input (px_cmd a)) /\ asked_symbols a (tx "libmain.a") /\
  fst (run_files d (get_memory_types chip_info) mx_render mx_encode mx_order mx_pct (px_cmd a) no_faults (start [])) = Raised IndexError /\
  ~ diagnosed (start []) (run_files d (get_memory_types chip_info) mx_render mx_encode mx_order mx_pct (px_cmd a) no_faults (start [])).
Proof.
  exists fx_bare, (fx_alone FTable). split; [apply fx_empty|]. split; [split; [reflexivity|split; [reflexivity|discriminate]]|].
  assert (E : fst (run_files fx_bare (get_memory_types chip_info) mx_render mx_encode mx_order mx_pct (px_cmd (fx_alone FTable)) no_faults (start [])) = Raised IndexError) by (vm_compute; reflexivity).
  split; [exact E|]. intros (X & _). rewrite E in X. discriminate X.
Qed.
Print Assumptions c116_diagnosed_refuted.
