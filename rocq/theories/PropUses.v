(** * Properties C101 to C103: which archives of a project use which *)
From Coq Require Import Ascii String List ZArith Lia Bool Sorted.
From Verif Require Import Base MemMap SpecTree SpecOps MapFile Deps SpecDeps Filter SpecFilter Pipeline SpecPipe SpecBuild SpecBytes SpecShape PyStr SpecMap FixMap
  ElfRead SpecElf FixElf Project SpecProject FixProject ProofProject2 SpecEnd Chips SpecChips ProofChips Table SpecTable Formats Main SpecMain FixMain Command SpecCommand SpecFail SpecReport
  PropDeps PropProject PropEnd PropCommand PropFail SpecUses ProofUses4.
Import ListNotations.
Open Scope list_scope.
Open Scope Z_scope.

(** C101: with --archive-dependencies the JSON report has the archives that use symbols of
    other archives (with --dep-reverse: whose symbols others use).  Both are archives with
    bytes in the image, and the symbols are functions and objects of the ELF file that the
    cross reference table has defined in the one and used in the other.  Nothing else is
    listed, nothing twice, all is in the order of the table, and each archive has the number
    of its bytes *)
Theorem c101_dependencies_json : forall d c k es ys o files s render encode ord pf,
  dep_project d c k es ys -> asks_deps (c_args c) -> set_iteration ord ->
  run_files d (get_memory_types chip_info) render encode ord pf c o (start files) = (Done tt, s) ->
  a_format (c_args c) = FJson2 \/ a_format (c_args c) = FRaw ->
  exists r ds, s_printed s = [PDeps r] /\ depreport_right k es ys (c_args c) (fun _ => True) ds /\ Forall2 (dep_object k) ds r.
Proof. exact json_done. Qed.
Print Assumptions c101_dependencies_json.

(** the same as a tree.  It does not heed --filter *)
Theorem c101_dependencies_tree : forall d c k es ys o files s render encode ord pf,
  dep_project d c k es ys -> asks_deps (c_args c) -> set_iteration ord ->
  run_files d (get_memory_types chip_info) render encode ord pf c o (start files) = (Done tt, s) ->
  a_format (c_args c) = FTree ->
  exists ds groups, s_printed s = [PTree ((0%nat, dep_title (c_args c)) :: concat groups)] /\
    depreport_right k es ys (c_args c) (fun _ => True) ds /\ Forall2 (dep_branch k (c_args c)) ds groups.
Proof. exact tree_done. Qed.
Print Assumptions c101_dependencies_tree.

(** C102: the table, the text and CSV have them for the archives whose shown name a pattern of
    --filter matches *)
Theorem c102_dependencies_table : forall d c k es ys o files s render encode ord pf,
  dep_project d c k es ys -> asks_deps (c_args c) -> set_iteration ord ->
  run_files d (get_memory_types chip_info) render encode ord pf c o (start files) = (Done tt, s) ->
  forall ps, a_format (c_args c) = FTable \/ a_format (c_args c) = FText \/ a_format (c_args c) = FCsv -> asked_filter (c_args c) ps ->
  exists tb ds rows, prints (c_args c) s tb /\ tb_headers tb = dep_headers (c_args c) /\ tb_rows tb = concat rows /\
    depreport_right k es ys (c_args c) (fun x => exists n, shown_archive (c_args c) x n /\ selected ps n) ds /\ Forall2 (dep_rows_right k (c_args c)) ds rows.
Proof. exact table_deps_done. Qed.
Print Assumptions c102_dependencies_table.

(** and so has the graph: a node for each archive, an edge from an archive to each that it uses *)
Theorem c102_dependencies_graph : forall d c k es ys o files s render encode ord pf,
  dep_project d c k es ys -> asks_deps (c_args c) -> set_iteration ord ->
  run_files d (get_memory_types chip_info) render encode ord pf c o (start files) = (Done tt, s) ->
  forall ps, a_format (c_args c) = FDot -> asked_filter (c_args c) ps ->
  exists ds lines, s_printed s = [PDot lines] /\
    depreport_right k es ys (c_args c) (fun x => exists n, shown_archive (c_args c) x n /\ selected ps n) ds /\ graph_right k (c_args c) ds lines.
Proof. exact dot_done. Qed.
Print Assumptions c102_dependencies_graph.

(** C103: a project whose link map has no cross reference table, or one without entries, or
    that has no ELF file, has no such report: there is a message, no output, and no file is
    changed *)
Theorem c103_no_dependencies : forall d render encode ord pf c dir name text rs l crt im t,
  linked d dir name text rs l crt im t -> c_input c = in_dir dir name -> without_dwarf d dir (c_args c) -> on_chip rs t ->
  a_format (c_args c) <> FRaw -> given (a_archive_details (c_args c)) = false ->
  a_archive_dependencies (c_args c) = true \/ given (a_diff (c_args c)) = false ->
  im = None \/ (exists ys, symbols_of d dir name ys) ->
  forall s, asks_deps (c_args c) -> crt = None \/ crt = Some [] \/ im = None ->
  diagnosed s (run_files d (get_memory_types chip_info) render encode ord pf c no_faults s).
Proof. exact no_report. Qed.
Print Assumptions c103_no_dependencies.

(** all other projects have *)
Theorem c103_dependencies : forall d render encode ord pf c dir name text rs l crt im t,
  linked d dir name text rs l crt im t -> c_input c = in_dir dir name -> without_dwarf d dir (c_args c) -> on_chip rs t ->
  a_format (c_args c) <> FRaw -> given (a_archive_details (c_args c)) = false ->
  a_archive_dependencies (c_args c) = true \/ given (a_diff (c_args c)) = false ->
  im = None \/ (exists ys, symbols_of d dir name ys) ->
  forall es ys s, set_iteration ord -> asks_deps (c_args c) -> crt = Some es -> es <> [] -> symbols_of d dir name ys ->
  exists s', run_files d (get_memory_types chip_info) render encode ord pf c no_faults s = (Done tt, s').
Proof. exact reports. Qed.
Print Assumptions c103_dependencies.

(** the graph is of dependencies only *)
Theorem c103_no_graph : forall d render encode ord pf c dir name text rs l crt im t,
  linked d dir name text rs l crt im t -> c_input c = in_dir dir name -> without_dwarf d dir (c_args c) -> on_chip rs t ->
  a_format (c_args c) <> FRaw -> given (a_archive_details (c_args c)) = false ->
  a_archive_dependencies (c_args c) = true \/ given (a_diff (c_args c)) = false ->
  im = None \/ (exists ys, symbols_of d dir name ys) ->
  forall s, a_format (c_args c) = FDot -> a_archive_dependencies (c_args c) = false ->
  diagnosed s (run_files d (get_memory_types chip_info) render encode ord pf c no_faults s).
Proof. exact no_graph. Qed.
Print Assumptions c103_no_graph.

(** ** a project: crt0.o uses app_main and vec of libmain.a, which uses counter of crt0.o; vec
    is an absolute symbol *)
Definition ux_tail : list str := map fx [
  "Cross Reference Table";
  "";
  "Symbol                                            File";
  "vec                                               esp-idf/main/libmain.a(app main.c.obj)";
  "                                                  crt0.o";
  "app_main                                          esp-idf/main/libmain.a(app main.c.obj)";
  "                                                  crt0.o";
  "counter                                           crt0.o";
  "                                                  esp-idf/main/libmain.a(app main.c.obj)"]%string.
Definition ux_entries : list SpecMap.entry :=
  [Entry (fx "vec") (fx "esp-idf/main/libmain.a", fx "app main.c.obj") [(fx "(exe)", fx "crt0.o")];
   Entry (fx "app_main") (fx "esp-idf/main/libmain.a", fx "app main.c.obj") [(fx "(exe)", fx "crt0.o")];
   Entry (fx "counter") (fx "(exe)", fx "crt0.o") [(fx "esp-idf/main/libmain.a", fx "app main.c.obj")]].
Ltac t_member := exists "e"%char, (fx "sp-idf/main/libmain.a(app main.c.obj)"); split; [reflexivity|]; unfold ws; cbn; intuition discriminate.
Ltac t_direct := exists "c"%char, (fx "rt0.o"); split; [reflexivity|]; unfold ws; cbn; intuition discriminate.
Lemma ux_tail_ok : crt_lines ux_entries ux_tail.
Proof.
  change ux_tail with (fx "Cross Reference Table" :: [fx ""] ++ fx "Symbol                                            File" :: [] ++
    List.concat [[fx "vec" ++ fx "                                               " ++ fx "esp-idf/main/libmain.a(app main.c.obj)"; fx "                                                  crt0.o"];
      [fx "app_main" ++ fx "                                          " ++ fx "esp-idf/main/libmain.a(app main.c.obj)"; fx "                                                  crt0.o"];
      [fx "counter" ++ fx "                                           " ++ fx "crt0.o"; fx "                                                  esp-idf/main/libmain.a(app main.c.obj)"]] ++ []).
  apply crt_lines_intro.
  - t_prefix.
  - constructor; [t_not_prefix|constructor].
  - t_prefix.
  - constructor.
  - constructor; [|constructor; [|constructor; [|constructor]]].
    1,2: match goal with |- entry_lines ?e _ => apply (entry_lines_intro e) end; [t_word|t_gap|t_member|apply (loc_member (fx "esp-idf/main/libmain.a") (fx "app main.c.obj")); t_not_in|];
      (constructor; [|constructor]); exists " "%char, (fx "crt0.o"), (fx "                                                 "), [];
      repeat split; auto; try t_blank; [t_direct|exists (fx "crt0."), "o"%char; split; [reflexivity|]; unfold ws; cbn; intuition discriminate|apply (loc_direct (fx "crt0.o")); t_not_in].
    apply (entry_lines_intro (Entry (fx "counter") (fx "(exe)", fx "crt0.o") [(fx "esp-idf/main/libmain.a", fx "app main.c.obj")])); [t_word|t_gap|t_direct|apply (loc_direct (fx "crt0.o")); t_not_in|].
    constructor; [|constructor]. exists " "%char, (fx "esp-idf/main/libmain.a(app main.c.obj)"), (fx "                                                 "), [].
    repeat split; auto; try t_blank; [t_member|exists (fx "esp-idf/main/libmain.a(app main.c.obj"), ")"%char; split; [reflexivity|]; unfold ws; cbn; intuition discriminate|apply (loc_member (fx "esp-idf/main/libmain.a") (fx "app main.c.obj")); t_not_in].
  - left. reflexivity.
Qed.
Definition ux_lines : list str := fx_table ++ fx_head :: fx_script ++ ux_tail.
Lemma ux_map_ok : printed_map fx_regions fx_sections (Some ux_entries) ux_lines.
Proof. unfold ux_lines. apply pm_crt_present; [exact fx_table_ok|t_prefix|exact fx_script_ok|exact ux_tail_ok]. Qed.
Definition ux_text (ls : list str) : str := flat_map (fun l => l ++ ["010"%char]) ls.
Lemma ux_text_lines : splitlines (ux_text ux_lines) = ux_lines.
Proof. vm_compute. reflexivity. Qed.

Definition ux_shstr : list Z := bz "" ++ bz ".iram0.text" ++ bz ".symtab" ++ bz ".strtab" ++ bz ".shstrtab".
Definition ux_strtab : list Z := bz "" ++ bz "app_main" ++ bz "counter" ++ bz "vec".
Definition ux_syms : list (str * xsym) :=
  [ (tx "", XSym 3 0 0 0 0 0 0);
    (tx "app_main", XSym 3 1 0x40080400 8 18 0 1);
    (tx "counter", XSym 3 10 0x4008040c 4 17 0 1);
    (tx "vec", XSym 3 18 16 8 18 0 65521) ].
Definition ux_symtab : list Z := flat_map (sym_bytes false false) (map snd ux_syms).
Definition ux_o1 : Z := 52 + blen ux_shstr.
Definition ux_o2 : Z := ux_o1 + blen ux_strtab.
Definition ux_o3 : Z := ux_o2 + blen ux_symtab.
Definition ux_strings : xshdr := XShdr 29 3 0 0 52 (blen ux_shstr) 0 0 1 0.
Definition ux_shdrs : list xshdr :=
  [ XShdr 0 0 0 0 0 0 0 0 0 0;
    XShdr 1 8 6 0x40080400 52 32 0 0 4 0;
    XShdr 13 2 0 0 ux_o2 (blen ux_symtab) 3 1 4 16;
    XShdr 21 3 0 0 ux_o1 (blen ux_strtab) 0 0 1 0;
    ux_strings ].
Definition ux_headers : list (str * xshdr) := combine (map tx [""; ".iram0.text"; ".symtab"; ".strtab"; ".shstrtab"]%string) ux_shdrs.
Definition ux_ehdr : ehdr :=
  Ehdr [127; 69; 76; 70; 1; 1; 1; 0; 0; 0; 0; 0; 0; 0; 0; 0]
    2 94 1 0x40080400 0 ux_o3 0 52 (phdr_size false) 0 (shdr_size false) 5 4.
Definition ux_elf : list Z := ehdr_bytes false false ux_ehdr ++ ux_shstr ++ ux_strtab ++ ux_symtab ++ flat_map (shdr_bytes false false) ux_shdrs.
Lemma ux_image : elf_image false false ux_elf ux_ehdr [] ux_shdrs.
Proof.
  split; [split|vm_compute; discriminate].
  all: try (intros _).
  all: try (apply occursb_ok; vm_compute; reflexivity).
  all: try reflexivity.
  all: try (repeat constructor; numbers).
Qed.
Definition ux_disk (ls : list str) (elf : list Z) : disk := disk_with (Some (ux_text ls)) (Some px_desc) elf.
Lemma ux_located : located dir1 (tx "app.elf") (in_dir dir1 (tx "app.elf")).
Proof. right. split; [|reflexivity]. intros (r & R). discriminate R. Qed.
Lemma ux_file_image ls : image_of (ux_disk ls ux_elf) dir1 (tx "app.map") (Some ux_headers).
Proof.
  apply (image_file _ _ _ px_object (tx "app.elf") (in_dir dir1 (tx "app.elf")) ux_elf); [vm_compute; reflexivity|exact px_describes|exact ux_located|vm_compute; reflexivity|vm_compute; reflexivity|].
  exists false, false, ux_ehdr, [], ux_strings. split; [exact ux_image|]. split; [reflexivity|].
  assert (G : forall (n : str) h, SpecElf.plain n -> occursb ux_shstr (x_name h) (SpecElf.text n ++ [0]) = true ->
    SpecElf.plain (fst (n, h)) /\ string_at ux_elf ux_strings (x_name (snd (n, h))) (fst (n, h))).
  { intros n h Pn Oc. split; [exact Pn|]. exists ux_shstr. split; [apply occursb_ok; vm_compute; reflexivity|]. split; [reflexivity|]. now apply occursb_ok. }
  repeat (constructor; [apply G; [apply plain_ok; vm_compute; reflexivity|vm_compute; reflexivity]|]). constructor.
Qed.
Lemma ux_symbols ls : symbols_of (ux_disk ls ux_elf) dir1 (tx "app.map") ux_syms.
Proof.
  exists px_object, (tx "app.elf"), (in_dir dir1 (tx "app.elf")), ux_elf. split; [vm_compute; reflexivity|]. split; [exact px_describes|]. split; [exact ux_located|].
  split; [vm_compute; reflexivity|]. split; [vm_compute; reflexivity|].
  exists false, false, ux_ehdr, [], ux_shdrs, [map snd ux_syms]. split; [exact ux_image|]. split.
  - constructor; [|constructor]. split.
    + apply occursb_ok. vm_compute. reflexivity.
    + reflexivity.
    + repeat constructor; numbers.
    + repeat constructor.
  - split; [reflexivity|]. assert (G : forall (n : str) y, SpecElf.plain n -> x_strndx y = 3 -> occursb ux_strtab (x_stname y) (SpecElf.text n ++ [0]) = true ->
      code_symbol (snd (n, y)) -> exists t, nth_error ux_shdrs (Z.to_nat (x_strndx (snd (n, y)))) = Some t /\ SpecElf.plain (fst (n, y)) /\ string_at ux_elf t (x_stname (snd (n, y))) (fst (n, y))).
    { intros n y Pn Ex Oc _. cbn [fst snd]. rewrite Ex. eexists. split; [reflexivity|]. split; [exact Pn|]. exists ux_strtab. split; [apply occursb_ok; vm_compute; reflexivity|]. split; [reflexivity|]. now apply occursb_ok. }
    repeat (constructor; [apply G; [apply plain_ok; vm_compute; reflexivity|reflexivity|vm_compute; reflexivity]|]). constructor.
Qed.
Lemma ux_counted o : In o fx_sections -> counted (Some ux_headers) o -> o = px_text_section.
Proof.
  intros [<-|[<-|[]]] (_ & _ & C & _); [reflexivity|]. exfalso.
  destruct C as (hs & h & E & I & _).
  - exists (tx ".iram0.text"), ux_headers. eexists. split; [reflexivity|]. split; [right; left; reflexivity|]. split; discriminate.
  - injection E as <-. do 5 (destruct I as [I|I]; [injection I as I _; discriminate I|]). exact I.
Qed.
Lemma ux_built : built (ux_disk ux_lines ux_elf) dir1 (tx "app.map") (ux_text ux_lines) fx_regions fx_sections (Some ux_entries) (Some ux_headers) types_esp32.
Proof.
  split.
  - exact dir1_ok.
  - apply proper_ok. reflexivity.
  - vm_compute. reflexivity.
  - rewrite ux_text_lines. exact ux_map_ok.
  - exact fx_regular.
  - exact (ux_file_image ux_lines).
  - exists (tx "esp32"). split; [|exact types_esp32_ok].
    apply (target_described _ _ _ _ px_object (tx "app.elf")); [vm_compute; reflexivity|exact px_describes|reflexivity|discriminate].
  - apply Forall_forall. intros o I C. rewrite (ux_counted o I C). split; [exact px_mapped|]. split; [exact px_unbroken|exact px_items].
  - intros l1 o l2 o' l3 E Co Co'. exfalso.
    assert (H : NoDup fx_sections) by (repeat (constructor; [intros X; repeat (destruct X as [X|X]; [discriminate X|]); exact X|]); constructor).
    assert (I : In o fx_sections) by (rewrite E; apply in_or_app; right; now left).
    assert (I' : In o' fx_sections) by (rewrite E; apply in_or_app; right; right; apply in_or_app; right; now left).
    rewrite (ux_counted o I Co), (ux_counted o' I' Co') in E. rewrite E in H.
    apply NoDup_remove_2 in H. apply H. apply in_or_app. right. apply in_or_app. right. now left.
Qed.
Definition ux_account : account := Account fx_regions fx_sections (Some ux_headers) types_esp32.
Definition ux_args (f : format) (syms reverse unused : bool) (filter : option (list str)) : args :=
  Args f false true syms reverse None false None false true false unused false false (Some false) None (tx "1") filter false true.
Lemma ux_project a : without_dwarf (ux_disk ux_lines ux_elf) dir1 a -> a_use_dwarf a = Some false -> a_show_unused a = true ->
  dep_project (ux_disk ux_lines ux_elf) (px_cmd a) ux_account ux_entries ux_syms.
Proof.
  intros W U N. exists dir1, (tx "app.map"), (ux_text ux_lines). split; [reflexivity|]. split; [exact ux_built|]. split; [exact (ux_symbols ux_lines)|]. split; [exact W|].
  split; [intros _; cbn [px_cmd c_args]; rewrite U; discriminate|]. left. exact N.
Qed.
Lemma ux_linked : linked (ux_disk ux_lines ux_elf) dir1 (tx "app.map") (ux_text ux_lines) fx_regions fx_sections (Some ux_entries) (Some ux_headers) (tx "esp32").
Proof.
  destruct ux_built as [D P T M R I _ _ _]. split; try assumption. exists (tx "esp32"). split; [|left; split; [discriminate|reflexivity]].
  apply (target_given _ _ _ px_object (tx "app.elf")); [vm_compute; reflexivity|exact px_describes|reflexivity].
Qed.
Definition ux_run (d : disk) (a : args) := run_files d (get_memory_types chip_info) mx_render mx_encode ord1 mx_pct (px_cmd a) no_faults.
Definition ux_show (r : result unit * state) := (fst r, s_printed (snd r), s_notes (snd r)).

Example c101_example :
  (forall f syms rev, dep_project (ux_disk ux_lines ux_elf) (px_cmd (ux_args f syms rev true None)) ux_account ux_entries ux_syms) /\
  (forall f syms rev, asks_deps (ux_args f syms rev true None)) /\ set_iteration ord1 /\
  fst (ux_run (ux_disk ux_lines ux_elf) (ux_args FJson2 false false true None) (start [])) = Done tt /\
  s_printed (snd (ux_run (ux_disk ux_lines ux_elf) (ux_args FJson2 false false true None) (start []))) =
    [PDeps [(tx "(exe)", DArch (tx "(exe)") 16 [(tx "esp-idf/main/libmain.a", DEnt (tx "libmain.a") 8 [tx "app_main"])]);
            (tx "esp-idf/main/libmain.a", DArch (tx "libmain.a") 8 [(tx "(exe)", DEnt (tx "(exe)") 16 [tx "counter"])])]] /\
  s_printed (snd (ux_run (ux_disk ux_lines ux_elf) (ux_args FTree true true true None) (start []))) =
    [PTree (map (fun x => (fst x, tx (snd x))) [(0%nat, "Archive reverse dependencies"); (1%nat, "libmain.a 8"); (2%nat, "(exe) 16"); (3%nat, "app_main"); (1%nat, "(exe) 16"); (2%nat, "libmain.a 8"); (3%nat, "counter")]%string)].
Proof.
  split. { intros. apply ux_project; [left; reflexivity|reflexivity|reflexivity]. }
  split. { intros. split; [reflexivity|]. split; [reflexivity|]. right. right. right. split; reflexivity. }
  split; [exact ord1_ok|]. split; [vm_compute; reflexivity|]. split; vm_compute; reflexivity.
Qed.

Definition ux_pattern : list SpecFilter.piece := map SpecFilter.Char (tx "lib") ++ [SpecFilter.AnyText].
Example c102_example :
  (forall f syms rev, dep_project (ux_disk ux_lines ux_elf) (px_cmd (ux_args f syms rev true (Some [tx "lib*"]))) ux_account ux_entries ux_syms) /\
  (forall f syms rev, asks_deps (ux_args f syms rev true (Some [tx "lib*"]))) /\ set_iteration ord1 /\
  (forall f syms rev, asked_filter (ux_args f syms rev true (Some [tx "lib*"])) (Some [ux_pattern])) /\
  (exists tb, s_printed (snd (ux_run (ux_disk ux_lines ux_elf) (ux_args FTable true false true (Some [tx "lib*"])) (start []))) = [PTable tb] /\
    tb_rows tb = [map tx ["libmain.a"; "8"; "(exe)"; "16"; "counter"]%string]) /\
  (exists lines, s_printed (snd (ux_run (ux_disk ux_lines ux_elf) (ux_args FDot true true true (Some [tx "lib*"])) (start []))) = [PDot lines] /\
    flat_map edge_of lines = [(tx "(exe)", tx "esp-idf/main/libmain.a")]).
Proof.
  split. { intros. apply ux_project; [left; reflexivity|reflexivity|reflexivity]. }
  split. { intros. split; [reflexivity|]. split; [reflexivity|]. right. right. right. split; reflexivity. }
  split; [exact ord1_ok|]. split. { intros. split; [reflexivity|]. repeat constructor; discriminate. }
  split; eexists; (split; [vm_compute; reflexivity|vm_compute; reflexivity]).
Qed.

(** without cross reference table, without ELF file, and with both *)
Definition ux_bare : list str := fx_table ++ fx_head :: fx_script.
Lemma ux_bare_ok : printed_map fx_regions fx_sections None ux_bare.
Proof. apply pm_crt_absent; [exact fx_table_ok|t_prefix|exact fx_script_ok]. Qed.
Example c103_example : let a := ux_args FTable false false true None in
  linked (ux_disk ux_bare ux_elf) dir1 (tx "app.map") (ux_text ux_bare) fx_regions fx_sections None (Some ux_headers) (tx "esp32") /\ symbols_of (ux_disk ux_bare ux_elf) dir1 (tx "app.map") ux_syms /\
  linked (ux_disk ux_lines ux_elf) dir1 (tx "app.map") (ux_text ux_lines) fx_regions fx_sections (Some ux_entries) (Some ux_headers) (tx "esp32") /\
  symbols_of (ux_disk ux_lines ux_elf) dir1 (tx "app.map") ux_syms /\ on_chip fx_regions (tx "esp32") /\
  without_dwarf (ux_disk ux_bare ux_elf) dir1 a /\ without_dwarf (ux_disk ux_lines ux_elf) dir1 a /\ asks_deps a /\
  ux_show (ux_run (ux_disk ux_bare ux_elf) a (start [])) = (Raised SystemExit, [], [Died]) /\
  (exists s tb, ux_run (ux_disk ux_lines ux_elf) a (start []) = (Done tt, s) /\ s_printed s = [PTable tb] /\ length (tb_rows tb) = 2%nat).
Proof.
  intros a. split.
  { split.
    - exact dir1_ok.
    - apply proper_ok. reflexivity.
    - vm_compute. reflexivity.
    - replace (splitlines (ux_text ux_bare)) with ux_bare by (vm_compute; reflexivity). exact ux_bare_ok.
    - exact fx_regular.
    - exact (ux_file_image ux_bare).
    - exists (tx "esp32"). split; [|left; split; [discriminate|reflexivity]].
      apply (target_given _ _ _ px_object (tx "app.elf")); [vm_compute; reflexivity|exact px_describes|reflexivity]. }
  split; [exact (ux_symbols ux_bare)|]. split; [exact ux_linked|]. split; [exact (ux_symbols ux_lines)|]. split; [exact px_on_chip|].
  split; [left; reflexivity|]. split; [left; reflexivity|]. split; [split; [reflexivity|]; split; [reflexivity|]; right; right; right; split; reflexivity|].
  split; [vm_compute; reflexivity|]. do 2 eexists. split; [vm_compute; reflexivity|]. split; [reflexivity|reflexivity].
Qed.
