(** * Properties C113 and C114: the report on the symbols of an archive *)
From Coq Require Import Ascii String List ZArith Lia Bool Sorted.
From Verif Require Import Base MemMap SpecTree SpecOps Filter SpecFilter Pipeline SpecPipe SpecBuild SpecBytes SpecShape SpecSyms PyStr MapFile SpecMap FixMap
  ElfRead SpecElf FixElf Project SpecProject FixProject ProofProject2 SpecEnd Chips SpecChips ProofChips Deps Table SpecTable Formats Main SpecMain FixMain Command SpecCommand SpecFail SpecReport SpecSymbols
  PropProject PropEnd PropCommand PropFail PropReport ProofBuild ProofBytes ProofSymbols4 ProofSymbols5.
Import ListNotations.
Open Scope list_scope.
Open Scope Z_scope.

(** C113: the report on the symbols of an archive as JSON.  There is a row for every function
    and object of the ELF file that starts in an input section of the archive; an input section
    in which none starts is listed itself.  Every size is that of the symbol table, and every
    difference is that to the reference.  The report is only made if something of the archive
    is listed. *)
Theorem c113_symbols_json : forall d c x q r o fs s render encode ord pf,
  symbols_reported d c q r -> asked_symbols (c_args c) x -> tells_symbols q r -> a_format (c_args c) = FJson2 ->
  run_files d (get_memory_types chip_info) render encode ord pf c o (start fs) = (Done tt, s) ->
  exists rows, s_printed s = [PEntries rows] /\ (exists i, symbol_of x q r i) /\ symbols_right x q r (c_args c) rows /\ entries_sorted (c_args c) rows.
Proof. exact symbols_json. Qed.
Print Assumptions c113_symbols_json.

(** C114: the same report as a table, as text or as CSV, with --filter *)
Theorem c114_symbols_table : forall d c x q r o ps fs s render encode ord pf,
  symbols_reported d c q r -> asked_symbols (c_args c) x -> tells_symbols q r -> asked_filter (c_args c) ps ->
  a_format (c_args c) = FTable \/ a_format (c_args c) = FText \/ a_format (c_args c) = FCsv ->
  run_files d (get_memory_types chip_info) render encode ord pf c o (start fs) = (Done tt, s) ->
  exists tb is, prints (c_args c) s tb /\ (exists i, symbol_of x q r i) /\ symbol_items x q r (c_args c) ps is /\
    let first := list_ascii_of_string "Symbol" in
    (is = [] -> tb_headers tb = [first; list_ascii_of_string "Total Size"] /\ tb_rows tb = []) /\
    (is <> [] -> exists groups titles i col, columns_right q r (c_args c) groups /\ tb_headers tb = first :: titles /\ Forall2 (column_title (c_args c)) (columns groups) titles /\
       Forall2 (symbol_row q r (c_args c) (columns groups)) is (tb_rows tb) /\
       names_column (tb_headers tb) (a_sort (c_args c)) (S i) /\ nth_error (columns groups) i = Some col /\
       StronglySorted (fun y z => forall v w, measured q r (own_bytes (of_symbol y) col) v -> measured q r (own_bytes (of_symbol z) col) w ->
         in_order (a_sort_reverse (c_args c)) (pick (a_sort_diff (c_args c)) v) (pick (a_sort_diff (c_args c)) w)) is).
Proof. exact symbols_table_report. Qed.
Print Assumptions c114_symbols_table.

(** ** example: a project with a symbol table, and an older build of it *)
Definition sx_shstr : list Z := bz "" ++ bz ".iram0.text" ++ bz ".shstrtab" ++ bz ".symtab" ++ bz ".strtab".
Definition sx_strtab : list Z := bz "" ++ bz "app_main" ++ bz "helper" ++ bz "start".
Definition sx_new_syms : list xsym :=
  [ XSym 4 0 0 0 0 0 0; XSym 4 1 0x40080400 5 18 0 1; XSym 4 10 0x40080405 3 1 0 1; XSym 4 17 0x4008040c 16 18 0 1 ].
Definition sx_old_syms : list xsym :=
  [ XSym 4 0 0 0 0 0 0; XSym 4 1 0x40080400 12 18 0 1; XSym 4 17 0x40080400 0 0 0 1; XSym 4 10 0x4008040c 1 1 0 1 ].
Definition sx_shdrs : list xshdr :=
  [ XShdr 0 0 0 0 0 0 0 0 0 0;
    XShdr 1 8 6 0x40080400 52 32 0 0 4 0;
    XShdr 13 3 0 0 52 (blen sx_shstr) 0 0 1 0;
    XShdr 23 2 0 0 (52 + blen sx_shstr + blen sx_strtab) 64 4 1 4 16;
    XShdr 31 3 0 0 (52 + blen sx_shstr) (blen sx_strtab) 0 0 1 0 ].
Definition sx_ehdr : ehdr :=
  Ehdr [127; 69; 76; 70; 1; 1; 1; 0; 0; 0; 0; 0; 0; 0; 0; 0]
    2 94 1 0x40080400 0 (52 + blen sx_shstr + blen sx_strtab + 64) 0 52 (phdr_size false) 0 (shdr_size false) 5 2.
Definition sx_elf (syms : list xsym) : list Z :=
  ehdr_bytes false false sx_ehdr ++ sx_shstr ++ sx_strtab ++ flat_map (SpecElf.sym_bytes false false) syms ++ flat_map (shdr_bytes false false) sx_shdrs.
Definition sx_headers : list (str * xshdr) := combine (map tx [""; ".iram0.text"; ".shstrtab"; ".symtab"; ".strtab"]%string) sx_shdrs.
Lemma sx_elf_image syms : In syms [sx_new_syms; sx_old_syms] -> elf_image false false (sx_elf syms) sx_ehdr [] sx_shdrs.
Proof.
  intros [<-|[<-|[]]]; (split; [split|vm_compute; discriminate]).
  all: try (intros _).
  all: try (apply occursb_ok; vm_compute; reflexivity).
  all: try reflexivity.
  all: try (repeat constructor; numbers).
Qed.
Definition sx_new_ys : list elfsym :=
  [ElfSym [] 0 0 0; ElfSym (tx "app_main") 0x40080400 5 2; ElfSym (tx "helper") 0x40080405 3 1; ElfSym (tx "start") 0x4008040c 16 2].
Definition sx_old_ys : list elfsym :=
  [ElfSym [] 0 0 0; ElfSym (tx "app_main") 0x40080400 12 2; ElfSym (tx "start") 0x40080400 0 0; ElfSym (tx "helper") 0x4008040c 1 1].
Lemma sx_symbol_is syms x y : In syms [sx_new_syms; sx_old_syms] -> st_value y = x_value x -> st_symsize y = x_stsize x -> st_type y = x_stinfo x mod 16 -> x_strndx x = 4 ->
  SpecElf.plain (st_name y) -> occursb sx_strtab (x_stname x) (SpecElf.text (st_name y) ++ [0]) = true -> symbol_is (sx_elf syms) sx_shdrs x y.
Proof.
  intros Is E1 E2 E3 E4 P Oc. split; [exact E1|]. split; [exact E2|]. split; [exact E3|]. intros _. split; [exact P|].
  exists (XShdr 31 3 0 0 (52 + blen sx_shstr) (blen sx_strtab) 0 0 1 0). split; [now rewrite E4|]. exists sx_strtab. split; [|split; [reflexivity|now apply occursb_ok]].
  destruct Is as [<-|[<-|[]]]; apply occursb_ok; vm_compute; reflexivity.
Qed.
Lemma sx_tables syms ys : In (syms, ys) [(sx_new_syms, sx_new_ys); (sx_old_syms, sx_old_ys)] -> symbol_tables (sx_elf syms) ys.
Proof.
  intros Is. exists false, false, sx_ehdr, [], sx_shdrs, [syms].
  assert (Is' : In syms [sx_new_syms; sx_old_syms]) by (destruct Is as [E|[E|[]]]; injection E as <- <-; [left|right; left]; reflexivity).
  split; [exact (sx_elf_image _ Is')|]. split.
  - constructor; [|constructor]. destruct Is' as [<-|[<-|[]]]; (split; [apply occursb_ok; vm_compute; reflexivity|reflexivity|repeat constructor; numbers|repeat constructor]).
  - cbn [concat]. rewrite app_nil_r.
    assert (G : Forall2 (fun x y => st_value y = x_value x /\ st_symsize y = x_stsize x /\ st_type y = x_stinfo x mod 16 /\ x_strndx x = 4 /\
      SpecElf.plain (st_name y) /\ occursb sx_strtab (x_stname x) (SpecElf.text (st_name y) ++ [0]) = true) syms ys).
    { destruct Is as [E|[E|[]]]; injection E as <- <-;
        repeat (constructor; [split; [reflexivity|split; [reflexivity|split; [reflexivity|split; [reflexivity|split; [apply plain_ok; vm_compute; reflexivity|vm_compute; reflexivity]]]]]|]); constructor. }
    assert (H : forall x y, st_value y = x_value x /\ st_symsize y = x_stsize x /\ st_type y = x_stinfo x mod 16 /\ x_strndx x = 4 /\
      SpecElf.plain (st_name y) /\ occursb sx_strtab (x_stname x) (SpecElf.text (st_name y) ++ [0]) = true -> symbol_is (sx_elf syms) sx_shdrs x y).
    { intros x y (E1 & E2 & E3 & E4 & E5 & E6). now apply sx_symbol_is. }
    revert H G. generalize (sx_elf syms). clear Is Is'. intros file H. induction 1 as [|x y xs zs E _ IH]; constructor; [now apply H|exact IH].
Qed.
Definition sx_disk : disk :=
  {| d_cwd := d_cwd rx_disk; d_text := d_text rx_disk; d_json := d_json rx_disk; d_isfile := d_isfile rx_disk;
     d_bytes := fun fn => if fn =?= in_dir dir1 (tx "app.elf") then Some (sx_elf sx_new_syms)
                          else if fn =?= in_dir dir2 (tx "app.elf") then Some (sx_elf sx_old_syms) else None |}.
Lemma sx_image d dir syms : description d dir = Some (JObj px_object) -> d_isfile d (in_dir dir (tx "app.elf")) = true ->
  d_bytes d (in_dir dir (tx "app.elf")) = Some (sx_elf syms) -> In syms [sx_new_syms; sx_old_syms] ->
  image_of d dir (tx "app.map") (Some sx_headers).
Proof.
  intros D1 D2 D3 Is. apply (image_file _ _ _ px_object (tx "app.elf") (in_dir dir (tx "app.elf")) (sx_elf syms) _ D1 px_describes); [|exact D2|exact D3|].
  - right. split; [|reflexivity]. intros (r & R). discriminate R.
  - exists false, false, sx_ehdr, [], (XShdr 13 3 0 0 52 (blen sx_shstr) 0 0 1 0). split; [exact (sx_elf_image _ Is)|]. split; [reflexivity|].
    assert (Oc0 : occurs (sx_elf syms) 52 sx_shstr) by (destruct Is as [<-|[<-|[]]]; apply occursb_ok; vm_compute; reflexivity).
    assert (G : forall (n : str) h, SpecElf.plain n -> occursb sx_shstr (x_name h) (SpecElf.text n ++ [0]) = true ->
      SpecElf.plain (fst (n, h)) /\ string_at (sx_elf syms) (XShdr 13 3 0 0 52 (blen sx_shstr) 0 0 1 0) (x_name (snd (n, h))) (fst (n, h))).
    { intros n h Pn Oc. split; [exact Pn|]. exists sx_shstr. split; [exact Oc0|]. split; [reflexivity|]. now apply occursb_ok. }
    repeat (constructor; [apply G; [apply plain_ok; vm_compute; reflexivity|vm_compute; reflexivity]|]). constructor.
Qed.
Lemma sx_loaded n : loaded (Some sx_headers) n <-> n = tx ".iram0.text".
Proof.
  split.
  - intros (hs & h & E & I & A & B). injection E as <-. repeat (destruct I as [I|I]; [injection I as <- <-; try reflexivity; exfalso; (now apply A) || (now apply B)|]). contradiction.
  - intros ->. exists sx_headers. eexists. split; [reflexivity|]. split; [right; left; reflexivity|]. split; discriminate.
Qed.
Definition sx_keep (o : printed) : bool := negb (pr_size o =? 0) && (pr_name o =?= tx ".iram0.text").
Lemma iram_no_gap : ~ gap_section (tx ".iram0.text").
Proof.
  intros H. assert (E : exists p, In p ["dummy"; "reserved_for_iram"; "noload"]%string /\ has_suffix (tx ".iram0.text") p)
    by (destruct H as [H|[H|H]]; eexists; (split; [|exact H]); cbn; auto).
  apply ends_any_spec in E. vm_compute in E. discriminate E.
Qed.
Lemma sx_kept o : sx_keep o = true <-> counted (Some sx_headers) o.
Proof.
  assert (L : exists n, loaded (Some sx_headers) n) by (exists (tx ".iram0.text"); now apply sx_loaded).
  unfold sx_keep. rewrite andb_true_iff, negb_true_iff, Z.eqb_neq, keq_eq. unfold counted. split.
  - intros [A B]. split; [exact A|]. split; [|split; [intros _; now apply sx_loaded|intros X; contradiction]].
    rewrite B. exact iram_no_gap.
  - intros (A & _ & C & _). split; [exact A|]. apply sx_loaded. now apply C.
Qed.

Lemma sx_counted o : In o fx_sections -> counted (Some sx_headers) o -> o = px_text_section.
Proof. intros [<-|[<-|[]]] C; apply sx_kept in C; vm_compute in C; [reflexivity|discriminate C]. Qed.
Lemma sx_target dir text : description sx_disk dir = Some (JObj px_object) -> exists t, target_is sx_disk dir (tx "app.map") text t /\ get_memory_types chip_info t = Ok types_esp32.
Proof.
  intros D. exists (tx "esp32"). split; [|exact types_esp32_ok]. apply (target_described _ _ _ _ px_object (tx "app.elf")); [exact D|exact px_describes|reflexivity|discriminate].
Qed.
Lemma sx_built1 : built sx_disk dir1 (tx "app.map") px_text fx_regions fx_sections (Some fx_entries) (Some sx_headers) types_esp32.
Proof.
  destruct rx_built1 as [D P T M R _ _ _ _]. split; try assumption.
  - apply (sx_image _ _ sx_new_syms); [vm_compute; reflexivity|vm_compute; reflexivity|vm_compute; reflexivity|now left].
  - apply sx_target. vm_compute. reflexivity.
  - apply Forall_forall. intros o I C. rewrite (sx_counted o I C). split; [exact px_mapped|]. split; [exact px_unbroken|exact px_items].
  - intros l1 o l2 o' l3 E Co Co'. exfalso.
    assert (H : NoDup fx_sections) by (repeat (constructor; [intros X; repeat (destruct X as [X|X]; [discriminate X|]); exact X|]); constructor).
    assert (I : In o fx_sections) by (rewrite E; apply in_or_app; right; now left).
    assert (I' : In o' fx_sections) by (rewrite E; apply in_or_app; right; right; apply in_or_app; right; now left).
    rewrite (sx_counted o I Co), (sx_counted o' I' Co') in E. rewrite E in H.
    apply NoDup_remove_2 in H. apply H. apply in_or_app. right. apply in_or_app. right. now left.
Qed.
Lemma sx_built2 : built sx_disk dir2 (tx "app.map") rx_text fx_regions [rx_section] None (Some sx_headers) types_esp32.
Proof.
  destruct rx_built2 as [D P T M R _ _ S N]. split; try assumption.
  - apply (sx_image _ _ sx_old_syms); [vm_compute; reflexivity|vm_compute; reflexivity|vm_compute; reflexivity|right; now left].
  - apply sx_target. vm_compute. reflexivity.
  - constructor; [|constructor]. intros _. inversion S as [|? ? S' _]; subst. apply S'. clear.
    assert (L : loaded (Some px_headers) (tx ".iram0.text")) by (exists px_headers; eexists; split; [reflexivity|]; split; [right; left; reflexivity|]; split; discriminate).
    split; [discriminate|]. split; [exact iram_no_gap|]. split; [intros _; exact L|intros X; exfalso; apply X; eexists; exact L].
  - intros l1 o l2 o' l3 E. destruct l1 as [|x l1]; [|destruct l1; discriminate E]. injection E as _ E. destruct l2; discriminate E.
Qed.

Lemma sx_filled1 : filled (Some sx_headers) types_esp32 fx_sections.
Proof.
  apply Forall_forall. intros o I C T a (B1 & B2) G. rewrite (sx_counted o I C) in *. cbn in B1, B2.
  exists fx_item1, 1074267136. split; [left; reflexivity|]. split; [cbn; lia|].
  destruct G as [(N & X)|(N & t & F & Et)]; [left; now split|]. right. split; [exact N|].
  exists t. split; [|exact Et]. rewrite (first_covering_unique _ _ _ _ F (px_first a ltac:(lia))). apply px_first. lia.
Qed.
Lemma sx_filled2 : filled (Some sx_headers) types_esp32 [rx_section].
Proof.
  constructor; [|constructor]. intros C T a (B1 & B2) G. cbn in B1, B2.
  exists rx_item, 1074267136. split; [left; reflexivity|]. split; [cbn; lia|].
  destruct G as [(N & X)|(N & t & F & Et)]; [left; now split|]. right. split; [exact N|].
  exists t. split; [|exact Et]. rewrite (first_covering_unique _ _ _ _ F (px_first a ltac:(lia))). apply px_first. lia.
Qed.
Definition sx_account_new : account := Account fx_regions fx_sections (Some sx_headers) types_esp32.
Definition sx_account_old : account := Account fx_regions [rx_section] (Some sx_headers) types_esp32.
Definition sx_new : account := symbol_account (Some sx_new_ys) sx_account_new.
Definition sx_old : account := symbol_account (Some sx_old_ys) sx_account_old.
(** the symbols in place of the input sections *)
Example by_symbols_example :
  map (fun i => (it_name i, it_size i, it_archive i)) (flat_map pr_items (firstn 1 (ac_l sx_new))) =
    [(tx "app_main()", 5, tx "esp-idf/main/libmain.a"); (tx "helper", 3, tx "esp-idf/main/libmain.a"); (tx "start()", 16, tx "(exe)")] /\
  map (fun i => (it_name i, it_size i, it_archive i)) (flat_map pr_items (ac_l sx_old)) =
    [(tx "app_main()", 12, tx "esp-idf/main/libmain.a"); (tx "helper", 1, tx "esp-idf/main/libmain.a")].
Proof. vm_compute. split; reflexivity. Qed.
Definition items_apart_b (i j : item) : bool := (it_addr i + it_size i <=? it_addr j) || (it_addr j + it_size j <=? it_addr i).
Lemma sx_clear_new : clear_symbols sx_account_new (Some sx_new_ys).
Proof.
  split.
  - exists sx_keep. split; [exact sx_kept|]. replace (flat_map _ _) with [fx_item1; fx_item2] by (vm_compute; reflexivity).
    constructor; [constructor; [left; cbn; lia|constructor]|repeat constructor].
  - repeat (constructor; [intros _; cbn [by_symbols pr_items]; vm_compute; repeat (constructor; [intros X; repeat (destruct X as [X|X]; [discriminate X|]); exact X|]); constructor|]). constructor.
Qed.
Lemma sx_clear_old : clear_symbols sx_account_old (Some sx_old_ys).
Proof.
  split.
  - exists sx_keep. split; [exact sx_kept|]. replace (flat_map _ _) with [rx_item] by (vm_compute; reflexivity). repeat constructor.
  - repeat (constructor; [intros _; cbn [by_symbols pr_items]; vm_compute; repeat (constructor; [intros X; repeat (destruct X as [X|X]; [discriminate X|]); exact X|]); constructor|]). constructor.
Qed.
Lemma sx_symbols_of d dir syms ys : description d dir = Some (JObj px_object) -> d_bytes d (in_dir dir (tx "app.elf")) = Some (sx_elf syms) ->
  In (syms, ys) [(sx_new_syms, sx_new_ys); (sx_old_syms, sx_old_ys)] -> symbols_of d dir (tx "app.map") (Some sx_headers) (Some ys).
Proof.
  intros D1 D2 Is. apply (symbols_file _ _ _ sx_headers px_object (tx "app.elf") (in_dir dir (tx "app.elf")) (sx_elf syms) ys D1 px_describes); [|exact D2|exact (sx_tables _ _ Is)].
  right. split; [|reflexivity]. intros (r & R). discriminate R.
Qed.
Definition sx_args (f : format) (filter : option (list str)) : args :=
  Args f false false false false (Some (tx "libmain.a")) false (Some (in_dir dir2 (tx "app.map"))) false true false false false false (Some false) None (tx "1") filter true true.
Lemma sx_reported f filter : symbols_reported sx_disk (px_cmd (sx_args f filter)) sx_new (Some sx_old).
Proof.
  split; [|split; [|split; reflexivity]].
  - exists dir1, (tx "app.map"), px_text, (Some fx_entries), sx_account_new, (Some sx_new_ys). split; [reflexivity|]. split; [exact sx_built1|]. split; [left; reflexivity|]. split; [right; exact sx_filled1|].
    split; [|split; [exact sx_clear_new|reflexivity]]. apply (sx_symbols_of _ _ sx_new_syms); [vm_compute; reflexivity|vm_compute; reflexivity|now left].
  - exists (in_dir dir2 (tx "app.map")). split; [reflexivity|]. exists dir2, (tx "app.map"), rx_text, None, sx_account_old, (Some sx_old_ys). split; [reflexivity|]. split; [exact sx_built2|]. split; [left; reflexivity|]. split; [right; exact sx_filled2|].
    split; [|split; [exact sx_clear_old|reflexivity]]. apply (sx_symbols_of _ _ sx_old_syms); [vm_compute; reflexivity|vm_compute; reflexivity|right; now left].
Qed.
Lemma sx_tells : tells_symbols sx_new (Some sx_old).
Proof.
  intros i [(o & Io & _ & Ii & _)|(o & Io & _ & Ii & _)]; cbn in Io; repeat (destruct Io as [<-|Io]; [vm_compute in Ii; repeat (destruct Ii as [<-|Ii]; [split; t_not_in|]); contradiction|]); contradiction.
Qed.
Definition sx_run (a : args) := run_files sx_disk (get_memory_types chip_info) mx_render mx_encode mx_order mx_pct (px_cmd a) no_faults (start []).
(** app_main() has 7 bytes less than before, helper 2 bytes more; sorted by the difference *)
Example c113_example : exists s rows,
  symbols_reported sx_disk (px_cmd (sx_args FJson2 None)) sx_new (Some sx_old) /\ asked_symbols (sx_args FJson2 None) (tx "libmain.a") /\ tells_symbols sx_new (Some sx_old) /\
  sx_run (sx_args FJson2 None) = (Done tt, s) /\ s_printed s = [PEntries rows] /\
  rx_brief rows = [ (tx "esp-idf/main/libmain.a:app main.c.obj:helper", (tx "helper", 3, 2)); (tx "esp-idf/main/libmain.a:app main.c.obj:app_main()", (tx "app_main()", 5, -7)) ].
Proof.
  do 2 eexists. split; [apply sx_reported|]. split; [split; [reflexivity|split; [reflexivity|discriminate]]|]. split; [exact sx_tells|]. split; [vm_compute; reflexivity|]. split; [reflexivity|]. vm_compute. reflexivity.
Qed.
(** the symbols whose names begin with "app" *)
Definition sx_pattern : list (list SpecFilter.piece) := [[SpecFilter.Char "a"%char; SpecFilter.Char "p"%char; SpecFilter.Char "p"%char; AnyText]].
Example c114_example : exists s tb s' tb',
  symbols_reported sx_disk (px_cmd (sx_args FTable (Some (map show_pattern sx_pattern)))) sx_new (Some sx_old) /\ asked_symbols (sx_args FTable (Some (map show_pattern sx_pattern))) (tx "libmain.a") /\
  asked_filter (sx_args FTable (Some (map show_pattern sx_pattern))) (Some sx_pattern) /\ map show_pattern sx_pattern = [tx "app*"] /\
  sx_run (sx_args FTable (Some (map show_pattern sx_pattern))) = (Done tt, s) /\ s_printed s = [PTable tb] /\
  tb_headers tb = map tx ["Symbol"; "Total Size"; "IRAM"; ".text"]%string /\
  tb_rows tb = [ map tx ["app_main()"; "5     -7"; "5     -7"; "5     -7"] ]%string /\
  sx_run (sx_args FTable None) = (Done tt, s') /\ s_printed s' = [PTable tb'] /\
  tb_rows tb' = [ map tx ["helper"; "3     +2"; "3     +2"; "3     +2"]; map tx ["app_main()"; "5     -7"; "5     -7"; "5     -7"] ]%string.
Proof.
  do 4 eexists. split; [apply sx_reported|]. split; [split; [reflexivity|split; [reflexivity|discriminate]]|].
  split; [split; [reflexivity|]; constructor; [|constructor]; do 3 (constructor; [cbn; repeat split; discriminate|]); constructor; [exact I|constructor]|]. split; [reflexivity|].
  split; [vm_compute; reflexivity|]. split; [reflexivity|]. split; [vm_compute; reflexivity|]. split; [vm_compute; reflexivity|].
  split; [vm_compute; reflexivity|]. split; [reflexivity|]. vm_compute; reflexivity.
Qed.
