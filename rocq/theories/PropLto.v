(** * Property C129: link time optimisation: who gets the bytes of the optimised code *)
From Coq Require Import Ascii String List ZArith Bool Lia.
From Verif Require Import Base MemMap SpecTree Filter SpecFilter Pipeline SpecPipe SpecBuild SpecBytes PyStr MapFile SpecMap FixMap ElfRead SpecElf FixElf Dwarf SpecDwarf SpecDebug
  Project SpecProject FixProject Chips SpecChips SpecShape SpecPath SpecOwner SpecEnd PropProject PropEnd PropPath SpecLto SpecLto2 ProofLto2 ProofLto4 FixLto.
Import ListNotations.
Open Scope list_scope.
Open Scope Z_scope.

(** C129: [get] with the symbols of the units: every archive and object file is listed with its
    input sections and, of the optimised code, with the bytes of the symbols of its source files *)
Theorem c129_archive_bytes : forall w ls ud ma ea m mf' mf e pd types,
  get w ls ud ma ea = Ok (m, mf') -> map_file_of w ma mf -> w_elf w = Ok (Some e) -> w_proj_desc w = Some pd -> w_memory_types w (m_target m) = Ok types ->
  wants_dwarf ud w true -> windows_separate types -> Forall (fun r => 0 <= r_length r) (mf_regions mf) ->
  (forall p, In p (elf_cusyms e) -> cu_value (snd p) = fst p) ->
  let syms := map usym_of (elf_cusyms e) in
  symbols_ok (pd_components pd) syms ->
  Forall (fun s => kept (Some e) s -> optimised_section (mf_regions mf) types (pd_components pd) syms s) (mf_sections mf) ->
  exists keep d own, (forall s, keep s = true <-> kept (Some e) s) /\ (forall n a T, d n a T = true <-> byte_goes types n a T) /\ owners (pd_components pd) own syms /\
    (NoDup (map o_name (filter keep (mf_sections mf))) ->
     forall T t, dget T (m_types m) = Some t ->
      (forall s, In s (mf_sections mf) -> kept (Some e) s -> listed_optimised own syms d T s (dget (o_name s) (t_sections t))) /\
      (forall n x, dget n (t_sections t) = Some x -> exists s, In s (mf_sections mf) /\ kept (Some e) s /\ o_name s = n)).
Proof. exact optimised_bytes. Qed.
Print Assumptions c129_archive_bytes.

(** the same from the files of the project: map file, ELF file with debugging information,
    description with components *)
Theorem c129_files : forall d dir name text rs l crt file comps hs syms ls ud m types,
  directory dir -> proper name -> d_text d (in_dir dir name) = Some text -> printed_map rs l crt (splitlines text) -> Forall regular l ->
  described_elf d dir name file comps -> debugged file hs syms -> with_dwarf d dir ud -> symbols_ok comps syms ->
  get_files d (get_memory_types chip_info) (in_dir dir name) ls ud = Ok m -> get_memory_types chip_info (m_target m) = Ok types ->
  Forall (fun o => counted (Some hs) o -> optimised_printed rs types comps syms o) l ->
  exists keep b own, (forall o, keep o = true <-> counted (Some hs) o) /\ (forall n a T, b n a T = true <-> byte_goes types n a T) /\ owners comps own syms /\
    (NoDup (map pr_name (filter keep l)) ->
     forall T t, dget T (m_types m) = Some t ->
      (forall o, In o l -> counted (Some hs) o -> listed_optimised own syms b T (printed_section o) (dget (pr_name o) (t_sections t))) /\
      (forall n x, dget n (t_sections t) = Some x -> exists o, In o l /\ counted (Some hs) o /\ pr_name o = n)).
Proof. exact optimised_end. Qed.
Print Assumptions c129_files.

(** ** example: 16 bytes of optimised code, 8 of main/app.c, 4 of log/log.c and 4 of nobody *)
Local Notation tx := (fun s => list_ascii_of_string s%string).
Lemma ox_described : described_elf ox_disk dir1 (tx "app.map") ox_file ox_comps.
Proof.
  exists ox_object, (tx "app.elf"), (in_dir dir1 (tx "app.elf")). split; [vm_compute; reflexivity|]. split.
  { split; [reflexivity|]. exact (proj2 px_describes). }
  split; [right; split; [intros (r & R); discriminate R|reflexivity]|]. split; [vm_compute; reflexivity|]. split; [vm_compute; reflexivity|].
  exists (tx "/home/me/app/build"). eexists. exists [[Component (tx "/home/me/app/components/log") (tx "esp-idf/log/liblog.a")]; []; [Component (tx "/home/me/app/main") (tx "esp-idf/main/libmain.a")]].
  split; [reflexivity|]. split; [reflexivity|]. split; [|reflexivity].
  assert (S : starts (tx "/home/me/app/build") (tx "/")) by (t_starts 1%nat "home/me/app/build"%string).
  assert (N : names (tx "/home/me/app/build") (map tx ["home"; "me"; "app"; "build"]%string)) by t_names.
  constructor; [|constructor; [|constructor; [|constructor]]].
  - refine (component_some _ _ (tx "/home/me/app/build/esp-idf/log/liblog.a") (tx "/home/me/app/components/log") _ _ (map tx ["esp-idf"; "log"; "liblog.a"]%string) (tx "/") (map tx ["home"; "me"; "app"; "components"; "log"]%string) _ _ _ S N _ _ _ _).
    + eexists. split; reflexivity.
    + discriminate.
    + eexists. split; reflexivity.
    + t_starts 1%nat "home/me/app/build/esp-idf/log/liblog.a"%string.
    + t_names.
    + t_starts 1%nat "home/me/app/components/log"%string.
    + t_names.
  - apply component_none. eexists. split; reflexivity.
  - refine (component_some _ _ (tx "/home/me/app/build/esp-idf/main/libmain.a") (tx "/home/me/app/main") _ _ (map tx ["esp-idf"; "main"; "libmain.a"]%string) (tx "/") (map tx ["home"; "me"; "app"; "main"]%string) _ _ _ S N _ _ _ _).
    + eexists. split; reflexivity.
    + discriminate.
    + eexists. split; reflexivity.
    + t_starts 1%nat "home/me/app/build/esp-idf/main/libmain.a"%string.
    + t_names.
    + t_starts 1%nat "home/me/app/main"%string.
    + t_names.
Qed.
Lemma ox_inside y : In y ox_syms -> in_component ox_comps y.
Proof.
  intros [<-|[<-|[<-|[]]]].
  - eexists. split; [right; left; reflexivity|]. exists (tx "app.c"). reflexivity.
  - eexists. split; [right; left; reflexivity|]. exists (tx "app.c"). reflexivity.
  - eexists. split; [left; reflexivity|]. exists (tx "log.c"). reflexivity.
Qed.
Lemma ox_symbols_ok : symbols_ok ox_comps ox_syms.
Proof.
  split.
  - intros y [<-|[<-|[<-|[]]]]; (split; [reflexivity|discriminate]).
  - intros y z [<-|[<-|[<-|[]]]] [<-|[<-|[<-|[]]]] _ _; cbn; lia.
  - repeat (constructor; [cbn; intuition discriminate|]). constructor.
  - intros y c [<-|[<-|[<-|[]]]] [<-|[<-|[]]] (r & R); cbn in R; try discriminate R; injection R as <-; eexists; reflexivity.
Qed.
Lemma ox_followed i : In i (pr_items px_text_section) -> it_archive i = "(exe)" -> followed ox_comps ox_syms (item_section i).
Proof.
  intros [<-|[<-|[]]] E; [discriminate E|]. split.
  - exists ox_wait. split; [right; left; reflexivity|]. split; [apply ox_inside; right; left; reflexivity|]. cbn. lia.
  - intros y [<-|[<-|[<-|[]]]] _ S; cbn in *; try discriminate S; lia.
Qed.
Lemma ox_counted o : In o fx_sections -> counted (Some ox_headers) o -> o = px_text_section.
Proof.
  intros [<-|[<-|[]]] (_ & _ & C & _); [reflexivity|]. exfalso.
  destruct C as (hs & h & E & I & _).
  - exists (tx ".iram0.text"), ox_headers. eexists. split; [reflexivity|]. split; [right; left; reflexivity|]. split; discriminate.
  - injection E as <-. repeat (destruct I as [I|I]; [injection I as I _; discriminate I|]). destruct I.
Qed.
Example c129_example : exists m t x,
  directory dir1 /\ proper (tx "app.map") /\ d_text ox_disk (in_dir dir1 (tx "app.map")) = Some px_text /\
  printed_map fx_regions fx_sections (Some fx_entries) (splitlines px_text) /\ Forall regular fx_sections /\
  described_elf ox_disk dir1 (tx "app.map") ox_file ox_comps /\ debugged ox_file ox_headers ox_syms /\ with_dwarf ox_disk dir1 None /\ symbols_ok ox_comps ox_syms /\
  get_files ox_disk (get_memory_types chip_info) (in_dir dir1 (tx "app.map")) false None = Ok m /\ get_memory_types chip_info (m_target m) = Ok types_esp32 /\
  Forall (fun o => counted (Some ox_headers) o -> optimised_printed fx_regions types_esp32 ox_comps ox_syms o) fx_sections /\ NoDup (map pr_name fx_sections) /\
  dget (tx "IRAM") (m_types m) = Some t /\ dget (tx ".iram0.text") (t_sections t) = Some x /\ n_size x = 32 /\
  archive_size (tx "esp-idf/main/libmain.a") x = 16 /\ object_size (tx "esp-idf/main/libmain.a") (tx "app.c") x = 8 /\
  archive_size (tx "esp-idf/log/liblog.a") x = 4 /\ archive_size (tx "(exe)") x = 4.
Proof.
  do 3 eexists. split; [exact dir1_ok|]. split; [now apply proper_ok|]. split; [vm_compute; reflexivity|]. split; [rewrite px_lines; exact fx_map_ok|]. split; [exact fx_regular|].
  split; [exact ox_described|]. split; [exact ox_debugged|]. split; [right; split; [reflexivity|]; eexists; split; [vm_compute; reflexivity|reflexivity]|].
  split; [exact ox_symbols_ok|]. split; [vm_compute; reflexivity|]. split; [exact types_esp32_ok|]. split.
  { apply Forall_forall. intros o I C. rewrite (ox_counted o I C). split; [exact px_mapped|]. split; [exact px_unbroken|]. split; [exact px_items|].
    apply Forall_forall. exact ox_followed. }
  split; [repeat (constructor; [intros X; repeat (destruct X as [X|X]; [discriminate X|]); exact X|]); constructor|].
  split; [vm_compute; reflexivity|]. split; [vm_compute; reflexivity|]. repeat split; vm_compute; reflexivity.
Qed.
