(** * Property C148: --unify adds up the rows with the same short name *)
From Coq Require Import Ascii String List ZArith Lia Bool Sorted.
From Verif Require Import Base MemMap SpecTree SpecOps Filter SpecFilter Pipeline SpecPipe SpecBuild SpecBytes SpecShape SpecSyms PyStr MapFile SpecMap FixMap
  ElfRead SpecElf FixElf Project SpecProject FixProject ProofProject2 SpecEnd Chips SpecChips ProofChips Deps Table SpecTable Formats Main SpecMain FixMain Command SpecCommand SpecFail SpecReport SpecSymbols SpecMerge SpecMergeFiles SpecMergeSyms
  PropProject PropEnd PropCommand PropFail PropReport PropMerge PropMergeFiles PropMergeSyms SpecAdds SpecGroup ProofGroup2.
Import ListNotations.
Open Scope list_scope.
Open Scope Z_scope.

(** C148: what --unify changes in a report, in terms of the report itself.
    Of archives: *)
Theorem c148_archives : forall d c k r o o' fs fs' s s' render encode ord pf,
  reported d (unify_on false c) k r -> asked false (c_args c) -> (given (a_archive_details (c_args c)) = true -> a_use_dwarf (c_args c) <> Some true) -> a_format (c_args c) = FJson2 ->
  run_files d (get_memory_types chip_info) render encode ord pf (unify_on false c) o (start fs) = (Done tt, s) ->
  run_files d (get_memory_types chip_info) render encode ord pf (unify_on true c) o' (start fs') = (Done tt, s') ->
  exists plain unified, s_printed s = [PEntries plain] /\ s_printed s' = [PEntries unified] /\ grouped (c_args c) plain unified.
Proof. exact archives_grouped. Qed.
Print Assumptions c148_archives.
(** of object files: *)
Theorem c148_files : forall d c k r o o' fs fs' s s' render encode ord pf,
  reported d (unify_on false c) k r -> asked true (c_args c) -> tells_files true k r -> a_format (c_args c) = FJson2 ->
  run_files d (get_memory_types chip_info) render encode ord pf (unify_on false c) o (start fs) = (Done tt, s) ->
  run_files d (get_memory_types chip_info) render encode ord pf (unify_on true c) o' (start fs') = (Done tt, s') ->
  exists plain unified, s_printed s = [PEntries plain] /\ s_printed s' = [PEntries unified] /\ grouped (c_args c) plain unified.
Proof. exact files_grouped. Qed.
Print Assumptions c148_files.
(** of the symbols of an archive: *)
Theorem c148_symbols : forall d c x q r o o' fs fs' s s' render encode ord pf,
  symbols_reported d (unify_on false c) q r -> asked_symbols (c_args c) x -> tells_symbols q r -> a_format (c_args c) = FJson2 ->
  run_files d (get_memory_types chip_info) render encode ord pf (unify_on false c) o (start fs) = (Done tt, s) ->
  run_files d (get_memory_types chip_info) render encode ord pf (unify_on true c) o' (start fs') = (Done tt, s') ->
  exists plain unified, s_printed s = [PEntries plain] /\ s_printed s' = [PEntries unified] /\ grouped (c_args c) plain unified.
Proof. exact symbols_grouped. Qed.
Print Assumptions c148_symbols.

(** ** example: the projects of C144 and C147 *)
Local Notation tx := (fun s => list_ascii_of_string s%string).
Definition gr_args (archives files : bool) (details diff : option str) : args :=
  Args FJson2 archives false false false details files diff true false false false false false (Some false) None (tx "1") None false true.
Definition gr_run (d : disk) (unify : bool) (a : args) := run_files d (get_memory_types chip_info) mx_render mx_encode mx_order mx_pct (unify_on unify (px_cmd a)) no_faults (start []).
Lemma gr_reported archives : reported uf_disk (unify_on false (px_cmd (gr_args archives (negb archives) None uf_ref))) uf_new (Some vx_old).
Proof. destruct (uf_merged FJson2 None) as (P & Q & _). split; [exact P|]. split; [exact Q|]. split; reflexivity. Qed.
Lemma gr_symbols : symbols_reported un_disk (unify_on false (px_cmd (gr_args false false (Some (tx "libx.a")) None))) un_new None.
Proof. destruct (un_alone FJson2 None) as (P & _). split; [exact P|]. split; [reflexivity|]. split; reflexivity. Qed.
(** archives, with a reference *)
Example c148_archives_example : exists s plain s' unified,
  reported uf_disk (unify_on false (px_cmd (gr_args true false None uf_ref))) uf_new (Some vx_old) /\ asked false (gr_args true false None uf_ref) /\
  gr_run uf_disk false (gr_args true false None uf_ref) = (Done tt, s) /\ s_printed s = [PEntries plain] /\
  rx_brief plain = [ (tx "esp-idf/b/libx.a", (tx "libx.a", 8, 8)); (tx "libz.a", (tx "libz.a", 8, 8)); (tx "esp-idf/a/libx.a", (tx "libx.a", 8, 8)); (tx "liby.a", (tx "liby.a", 8, 8)); (tx "esp-idf/main/libmain.a", (tx "libmain.a", 0, -16)) ] /\
  gr_run uf_disk true (gr_args true false None uf_ref) = (Done tt, s') /\ s_printed s' = [PEntries unified] /\
  rx_brief unified = [ (tx "libx.a", (tx "libx.a", 16, 16)); (tx "libz.a", (tx "libz.a", 8, 8)); (tx "liby.a", (tx "liby.a", 8, 8)); (tx "libmain.a", (tx "libmain.a", 0, -16)) ].
Proof.
  do 4 eexists. split; [apply (gr_reported true)|]. split; [reflexivity|]. split; [vm_compute; reflexivity|]. split; [reflexivity|]. split; [vm_compute; reflexivity|]. split; [vm_compute; reflexivity|]. split; [reflexivity|]. vm_compute. reflexivity.
Qed.
(** object files *)
Lemma gr_tells : tells_files true uf_new (Some vx_old).
Proof. intros _ i [(o & Io & _ & Ii & _)|(o & Io & _ & Ii & _)]; cbn in Io; repeat (destruct Io as [<-|Io]; [vm_compute in Ii; repeat (destruct Ii as [<-|Ii]; [t_not_in|]); contradiction|]); contradiction. Qed.
Example c148_files_example : exists s plain s' unified,
  reported uf_disk (unify_on false (px_cmd (gr_args false true None uf_ref))) uf_new (Some vx_old) /\ asked true (gr_args false true None uf_ref) /\ tells_files true uf_new (Some vx_old) /\
  gr_run uf_disk false (gr_args false true None uf_ref) = (Done tt, s) /\ s_printed s = [PEntries plain] /\
  rx_brief plain = [ (tx "esp-idf/b/libx.a:a.o", (tx "a.o", 8, 8)); (tx "libz.a:c.o", (tx "c.o", 8, 8)); (tx "esp-idf/a/libx.a:a.o", (tx "a.o", 8, 8)); (tx "liby.a:c.o", (tx "c.o", 8, 8)); (tx "esp-idf/main/libmain.a:app main.c.obj", (tx "app main.c.obj", 0, -16)) ] /\
  gr_run uf_disk true (gr_args false true None uf_ref) = (Done tt, s') /\ s_printed s' = [PEntries unified] /\
  rx_brief unified = [ (tx "a.o", (tx "a.o", 16, 16)); (tx "c.o", (tx "c.o", 16, 16)); (tx "app main.c.obj", (tx "app main.c.obj", 0, -16)) ].
Proof.
  do 4 eexists. split; [apply (gr_reported false)|]. split; [repeat split|]. split; [exact gr_tells|]. split; [vm_compute; reflexivity|]. split; [reflexivity|]. split; [vm_compute; reflexivity|]. split; [vm_compute; reflexivity|]. split; [reflexivity|]. vm_compute. reflexivity.
Qed.
(** symbols, without a reference *)
Lemma gr_tells_symbols : tells_symbols un_new None.
Proof. intros i [(o & Io & _ & Ii & _)|[]]; cbn in Io; repeat (destruct Io as [<-|Io]; [vm_compute in Ii; repeat (destruct Ii as [<-|Ii]; [split; t_not_in|]); contradiction|]); contradiction. Qed.
Example c148_symbols_example : exists s plain s' unified, let a := gr_args false false (Some (tx "libx.a")) None in
  symbols_reported un_disk (unify_on false (px_cmd a)) un_new None /\ asked_symbols a (tx "libx.a") /\ tells_symbols un_new None /\ shows_all a /\
  gr_run un_disk false a = (Done tt, s) /\ s_printed s = [PEntries plain] /\
  map (fun kv => (se_abbrev (snd kv), se_size (snd kv), map (fun T => (fst T, st_size (snd T))) (se_types (snd kv)))) plain =
    [ (tx ".text.a", 8, [(tx "IRAM", 8)]); (tx ".text.c", 8, [(tx "IRAM", 8)]); (tx ".text.a", 8, [(tx "IRAM", 8)]); (tx ".text.c", 8, [(tx "IRAM", 8)]) ] /\
  gr_run un_disk true a = (Done tt, s') /\ s_printed s' = [PEntries unified] /\
  map (fun kv => (fst kv, se_size (snd kv), map (fun T => (fst T, st_size (snd T))) (se_types (snd kv)))) unified = [ (tx ".text.a", 16, [(tx "IRAM", 16)]); (tx ".text.c", 16, [(tx "IRAM", 16)]) ].
Proof.
  do 4 eexists. cbv zeta. split; [exact gr_symbols|]. split; [split; [reflexivity|split; [reflexivity|discriminate]]|]. split; [exact gr_tells_symbols|]. split; [left; reflexivity|].
  split; [vm_compute; reflexivity|]. split; [reflexivity|]. split; [vm_compute; reflexivity|]. split; [vm_compute; reflexivity|]. split; [reflexivity|]. vm_compute. reflexivity.
Qed.
