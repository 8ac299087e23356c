(** * Property C134: from the words of the command line to the report *)
From Coq Require Import Ascii String List ZArith Lia Bool Sorted.
From Verif Require Import Base MemMap SpecTree SpecOps Filter SpecFilter Pipeline SpecPipe SpecBuild SpecBytes SpecShape PyStr MapFile SpecMap FixMap
  ElfRead SpecElf FixElf Project SpecProject FixProject ProofProject2 SpecEnd Chips SpecChips ProofChips Deps Table SpecTable Formats Markup JsonText CommandLine Main SpecMain FixMain Command SpecCommand SpecFail SpecReport
  SpecText SpecLines ProofLines SpecSyms SpecSymbols SpecFile SpecLetters SpecLine SpecWords ProofWords PropProject PropEnd PropCommand PropFail PropReport PropFile.
Import ListNotations.
Open Scope list_scope.
Open Scope Z_scope.

(** what a command line means decides all that the command does, at every fault; so what is
    proved of the commands in the other properties is so of all the words that ask for them *)
Theorem c134_runs : forall d chips render encode ord pf env ws l c, says ws l -> ~ In (Switch Doc) l -> ~ In (Switch Help) l -> means l env c ->
  forall o s, main_words d chips render encode ord pf env ws o s = run_files d chips render encode ord pf c o s.
Proof. exact words_run. Qed.
Print Assumptions c134_runs.

(** [esp-idf-size MAP], with the map file of a project as the linker leaves it, ends without an
    error and prints the table of C92: the memory types of the chip with bytes, the fullest
    first, each with the bytes the linker placed in it *)
Theorem c134_table : forall d dir name text rs l crt im t types,
  built d dir name text rs l crt im types -> linked d dir name text rs l crt im t -> on_chip rs t -> no_dwarf d dir None -> filled im types l ->
  forall env fs render encode ord pf, let a := summary_args FTable None in
  exists s tb regions groups rows, main_words d (get_memory_types chip_info) render encode ord pf env [in_dir dir name] no_faults (start fs) = (Done tt, s) /\
    s_printed s = [PTable tb] /\ tb_headers tb = usage_headers /\
    Forall2 (region_parts types) (filter listed_region rs) regions /\
    tb_rows tb = concat rows /\ Forall2 (group_rows a) groups rows /\
    NoDup (map tg_type groups) /\ (forall T, In T (map tg_type groups) <-> (exists c, In c types /\ ct_name c = T) /\ exists n, type_bytes im types l T n /\ n <> 0) /\
    Forall (group_right im types l (concat regions) a) groups /\
    StronglySorted (fun x y => tg_value 1 y <= tg_value 1 x) groups /\
    Forall (fun g => StronglySorted (fun x y => snd y <= snd x) (tg_sections g)) groups.
Proof. exact default_table. Qed.
Print Assumptions c134_table.

(** [esp-idf-size --format json2 -o FILE MAP] ends without an error and leaves in the file a
    JSON text with the same values *)
Theorem c134_file : forall d dir name text rs l crt im t types,
  built d dir name text rs l crt im types -> linked d dir name text rs l crt im t -> on_chip rs t -> no_dwarf d dir None -> filled im types l ->
  forall env fn fs normalize render encode ord pf, let a := summary_args FJson2 (Some fn) in
  console_shows normalize render -> keeps_ascii encode -> fn <> [] -> distinct_shown a im l -> plain_names (Account rs l im types) ->
  exists s js groups, main_words d (get_memory_types chip_info) render encode ord pf env (json_words fn (in_dir dir name)) no_faults (start fs) = (Done tt, s) /\
    file_says fn s (PJson js) /\ Forall2 (region_parts types) (filter listed_region rs) groups /\
    NoDup (map j_name (js_layout js)) /\ (forall T, In T (map j_name (js_layout js)) <-> (exists c, In c types /\ ct_name c = T) /\ exists n, type_bytes im types l T n /\ n <> 0) /\
    Forall (type_report im types l (concat groups) a) (js_layout js) /\ image_bytes im l (js_total_size js).
Proof. exact json_file. Qed.
Print Assumptions c134_file.

(** and with --archives or --files the sizes of the archives or object files *)
Theorem c134_entries : forall d dir name text rs l crt im t types,
  built d dir name text rs l crt im types -> linked d dir name text rs l crt im t -> on_chip rs t -> no_dwarf d dir None -> filled im types l ->
  forall env files fn fs normalize render encode ord pf, let a := entries_args files (Some fn) in let k := Account rs l im types in
  console_shows normalize render -> keeps_ascii encode -> fn <> [] -> tells_files files k None -> plain_names k ->
  exists s rows, main_words d (get_memory_types chip_info) render encode ord pf env (entries_words files fn (in_dir dir name)) no_faults (start fs) = (Done tt, s) /\
    file_says fn s (PEntries rows) /\ entries_right files k None a rows /\ entries_sorted a rows.
Proof. exact entries_json_file. Qed.
Print Assumptions c134_entries.

(** ** examples *)
Example c134_runs_example : exists c, means [Switch Files; Set_ Sort (tx "2"); File (tx "a.map")] true c /\ says (map tx ["--files"; "--sort=2"; "a.map"]%string) [Switch Files; Set_ Sort (tx "2"); File (tx "a.map")].
Proof.
  eexists. split; [apply (ProofLine2.cmd_means _ _ FTable); reflexivity|].
  apply (says_switch Files "--files"); [cbn; auto|]. apply (says_equals Sort "--sort" (tx "2")); [cbn; auto|]. apply says_file; [left; discriminate|constructor].
Qed.
Example c134_example :
  built disk1 dir1 (tx "app.map") px_text fx_regions fx_sections (Some fx_entries) (Some px_headers) types_esp32 /\
  linked disk1 dir1 (tx "app.map") px_text fx_regions fx_sections (Some fx_entries) (Some px_headers) (tx "esp32") /\ on_chip fx_regions (tx "esp32") /\ no_dwarf disk1 dir1 None /\
  filled (Some px_headers) types_esp32 fx_sections /\ distinct_shown (summary_args FJson2 (Some (tx "out.json"))) (Some px_headers) fx_sections /\ tells_files true rx_new None /\ plain_names rx_new /\
  exists s tb, main_words disk1 (get_memory_types chip_info) mx_render mx_encode mx_order mx_pct true (map tx ["/home/me/app/build/app.map"]%string) no_faults (start []) = (Done tt, s) /\
    s_printed s = [PTable tb] /\ exists s' t, main_words disk1 (get_memory_types chip_info) jx_render (fun s => s) mx_order mx_pct false (json_words (tx "out.json") (tx "/home/me/app/build/app.map")) no_faults (start []) = (Done tt, s') /\
    s_files s' = [(tx "out.json", t)] /\ firstn 6 (splitlines t) = map tx ["{"; "    ""version"": ""1.2"","; "    ""total_size"": 0,"; "    ""layout"": ["; "        {"; "            ""name"": ""IRAM"","]%string /\
    exists s'' t', main_words disk1 (get_memory_types chip_info) jx_render (fun s => s) mx_order mx_pct false (entries_words true (tx "out.json") (tx "/home/me/app/build/app.map")) no_faults (start []) = (Done tt, s'') /\
    s_files s'' = [(tx "out.json", t')] /\ firstn 4 (splitlines t') = map tx ["{"; "    ""(exe):/path with space/crt0.o"": {"; "        ""abbrev_name"": ""crt0.o"","; "        ""size"": 16,"]%string.
Proof.
  split; [exact px_built|]. split; [exact px_linked|]. split; [exact px_on_chip|].
  split; [right; split; [reflexivity|]; right; exists []; split; [vm_compute; reflexivity|reflexivity]|]. split; [exact px_filled|].
  split; [intros o o' n I I' C C' _ _; rewrite (px_counted o I C), (px_counted o' I' C'); reflexivity|].
  split. { intros T i [P|[]]. apply (rx_tells true T). left. exact P. }
  split; [apply jx_plain_ok; vm_compute; reflexivity|].
  do 2 eexists. split; [vm_compute; reflexivity|]. split; [reflexivity|]. do 2 eexists. split; [vm_compute; reflexivity|]. split; [reflexivity|]. split; [vm_compute; reflexivity|].
  do 2 eexists. split; [vm_compute; reflexivity|]. split; [reflexivity|]. vm_compute. reflexivity.
Qed.
