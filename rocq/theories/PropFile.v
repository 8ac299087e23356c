(** * Property C119: the JSON report in the output file *)
From Coq Require Import Ascii String List ZArith Lia Bool Sorted.
From Verif Require Import Base MemMap SpecTree SpecOps Filter SpecFilter Pipeline SpecPipe SpecBuild SpecBytes SpecShape PyStr MapFile SpecMap FixMap
  ElfRead SpecElf FixElf Project SpecProject FixProject ProofProject2 SpecEnd Chips SpecChips ProofChips Deps Table SpecTable Formats Markup JsonText Main SpecMain FixMain Command SpecCommand SpecFail SpecReport
  SpecText SpecLines ProofLines SpecSyms SpecSymbols SpecFile ProofFile PropProject PropEnd PropCommand PropFail PropReport PropSymbols.
Import ListNotations.
Open Scope list_scope.
Open Scope Z_scope.

(** C119: with --format json2 and --output-file the file has a JSON text, from which any
    reader of RFC 8259 gets the report of C96, for any console that shows markup and does not
    wrap lines that fit, and any encoding that keeps ASCII *)
Theorem c119_entries : forall d c k r o files fn fs s normalize render encode ord pf,
  console_shows normalize render -> keeps_ascii encode -> output c fn -> c_quiet c = false ->
  reported d c k r -> asked files (c_args c) -> (given (a_archive_details (c_args c)) = true -> a_use_dwarf (c_args c) <> Some true) ->
  tells_files files k r -> a_format (c_args c) = FJson2 -> plain_project k r ->
  run_files d (get_memory_types chip_info) render encode ord pf c o (start fs) = (Done tt, s) ->
  exists rows, file_says fn s (PEntries rows) /\ entries_right files k r (c_args c) rows /\ entries_sorted (c_args c) rows.
Proof. exact entries_file. Qed.
Print Assumptions c119_entries.
(** the report of C113 on the symbols of an archive *)
Theorem c119_symbols : forall d c x q r o fn fs s normalize render encode ord pf,
  console_shows normalize render -> keeps_ascii encode -> output c fn -> c_quiet c = false ->
  symbols_reported d c q r -> asked_symbols (c_args c) x -> tells_symbols q r -> a_format (c_args c) = FJson2 -> plain_project q r ->
  run_files d (get_memory_types chip_info) render encode ord pf c o (start fs) = (Done tt, s) ->
  exists rows, file_says fn s (PEntries rows) /\ (exists i, symbol_of x q r i) /\ symbols_right x q r (c_args c) rows /\ entries_sorted (c_args c) rows.
Proof. exact symbols_file. Qed.
Print Assumptions c119_symbols.
(** the summary of C90 *)
Theorem c119_summary : forall d dir name text rs l crt im types c o fn fs s normalize render encode ord pf,
  console_shows normalize render -> keeps_ascii encode -> output c fn -> c_quiet c = false ->
  built d dir name text rs l crt im types -> c_input c = in_dir dir name -> alone (c_args c) -> of_types (c_args c) -> a_format (c_args c) = FJson2 -> no_lto d dir (c_args c) ->
  (a_show_unused (c_args c) = true \/ filled im types l) -> distinct_shown (c_args c) im l -> plain_names (Account rs l im types) ->
  run_files d (get_memory_types chip_info) render encode ord pf c o (start fs) = (Done tt, s) ->
  exists js groups, file_says fn s (PJson js) /\ Forall2 (region_parts types) (filter listed_region rs) groups /\
    NoDup (map j_name (js_layout js)) /\ (forall T, In T (map j_name (js_layout js)) <-> listed_type im types l (c_args c) T) /\
    Forall (type_report im types l (concat groups) (c_args c)) (js_layout js) /\ image_bytes im l (js_total_size js).
Proof. exact summary_file. Qed.
Print Assumptions c119_summary.

(** ** examples *)
(** a console that shows the texts *)
Definition jx_render (co : console) (l : list piece) : str :=
  if co_quiet co then [] else flat_map (fun p => match json_text p with Some t => match plain (fun s => s) t with Some s => s ++ [newline] | None => [] end | None => [] end) l.
Lemma jx_shows : console_shows (fun s => s) jx_render.
Proof.
  intros co p t s Q J S _. unfold jx_render. rewrite Q. cbn [flat_map]. rewrite J. unfold shown_as in S. rewrite S. now rewrite app_nil_r.
Qed.
Lemma jx_keeps : keeps_ascii (fun s => s).
Proof. intros t _. reflexivity. Qed.
Definition jx_out : option str := Some (tx "out/report.json").
Definition jx_cmd (a : args) : cmd := px_cmd (set_output jx_out a).
Lemma jx_narrow t : forallb (fun l => Z.of_nat (length l) <=? 10000) (splitlines t) = true -> narrow t.
Proof.
  intros H. exists (splitlines t). split; [now apply lines_exact|]. apply Forall_forall. intros l I. rewrite forallb_forall in H. apply Z.leb_le, H, I.
Qed.
Definition jx_plain_b (k : account) : bool :=
  forallb (fun o => free_b (pr_name o) && forallb (fun i => free_b (it_archive i) && free_b (it_object i) && free_b (it_name i)) (pr_items o)) (ac_l k).
Lemma jx_plain_ok k : jx_plain_b k = true -> plain_names k.
Proof.
  unfold jx_plain_b. rewrite forallb_forall. intros H. apply Forall_forall. intros o I _. specialize (H o I). apply andb_true_iff in H. destruct H as (H1 & H2). split; [now apply free_ok|].
  rewrite forallb_forall in H2. apply Forall_forall. intros i Ii _. specialize (H2 i Ii). rewrite !andb_true_iff in H2. destruct H2 as ((A & B) & C). repeat split; now apply free_ok.
Qed.
Definition jx_lines (l : list string) : str := flat_map (fun s => tx s ++ [newline]) l.
(** the archives, compared with the older build, in the file out/report.json *)
Definition jx_archives : str := jx_lines
  [ "{";
    "    ""(exe)"": {";
    "        ""abbrev_name"": ""(exe)"",";
    "        ""size"": 16,";
    "        ""size_diff"": 16,";
    "        ""memory_types"": {";
    "            ""IRAM"": {";
    "                ""size"": 16,";
    "                ""size_diff"": 16,";
    "                ""sections"": {";
    "                    "".iram0.text"": {";
    "                        ""size"": 16,";
    "                        ""size_diff"": 16,";
    "                        ""abbrev_name"": "".text""";
    "                    }";
    "                }";
    "            }";
    "        }";
    "    },";
    "    ""esp-idf/main/libmain.a"": {";
    "        ""abbrev_name"": ""libmain.a"",";
    "        ""size"": 8,";
    "        ""size_diff"": -8,";
    "        ""memory_types"": {";
    "            ""IRAM"": {";
    "                ""size"": 8,";
    "                ""size_diff"": -8,";
    "                ""sections"": {";
    "                    "".iram0.text"": {";
    "                        ""size"": 8,";
    "                        ""size_diff"": -8,";
    "                        ""abbrev_name"": "".text""";
    "                    }";
    "                }";
    "            }";
    "        }";
    "    }";
    "}" ]%string.
Example c119_entries_example : exists s,
  output (jx_cmd (rx_args FJson2 true false None)) (tx "out/report.json") /\ reported rx_disk (jx_cmd (rx_args FJson2 true false None)) rx_new (Some rx_old) /\ plain_project rx_new (Some rx_old) /\
  run_files rx_disk (get_memory_types chip_info) jx_render (fun s => s) mx_order mx_pct (jx_cmd (rx_args FJson2 true false None)) no_faults (start []) = (Done tt, s) /\
  s_files s = [(tx "out/report.json", jx_archives)] /\ narrow jx_archives.
Proof.
  eexists. split; [split; [reflexivity|discriminate]|]. split; [apply rx_reported|]. split; [split; apply jx_plain_ok; vm_compute; reflexivity|]. split; [vm_compute; reflexivity|].
  split; [vm_compute; reflexivity|]. apply jx_narrow. vm_compute. reflexivity.
Qed.
Example c119_symbols_example : exists s t,
  symbols_reported sx_disk (jx_cmd (sx_args FJson2 None)) sx_new (Some sx_old) /\ plain_project sx_new (Some sx_old) /\
  run_files sx_disk (get_memory_types chip_info) jx_render (fun s => s) mx_order mx_pct (jx_cmd (sx_args FJson2 None)) no_faults (start []) = (Done tt, s) /\
  s_files s = [(tx "out/report.json", t)] /\ narrow t /\
  firstn 6 (splitlines t) = map tx ["{"; "    ""esp-idf/main/libmain.a:app main.c.obj:helper"": {"; "        ""abbrev_name"": ""helper"","; "        ""size"": 3,"; "        ""size_diff"": 2,"; "        ""memory_types"": {"]%string.
Proof.
  do 2 eexists. split; [apply sx_reported|]. split; [split; apply jx_plain_ok; vm_compute; reflexivity|]. split; [vm_compute; reflexivity|].
  split; [reflexivity|]. split; [apply jx_narrow; vm_compute; reflexivity|vm_compute; reflexivity].
Qed.
Example c119_summary_example : exists s,
  distinct_shown px_args (Some px_headers) fx_sections /\ plain_names (Account fx_regions fx_sections (Some px_headers) types_esp32) /\
  run_files disk1 (get_memory_types chip_info) jx_render (fun s => s) mx_order mx_pct (jx_cmd px_args) no_faults (start []) = (Done tt, s) /\
  s_files s = [(tx "out/report.json", jx_lines
    [ "{";
      "    ""version"": ""1.2"",";
      "    ""total_size"": 0,";
      "    ""layout"": [";
      "        {";
      "            ""name"": ""IRAM"",";
      "            ""total"": 130048,";
      "            ""used"": 32,";
      "            ""free"": 130016,";
      "            ""parts"": {";
      "                "".text"": {";
      "                    ""size"": 32";
      "                }";
      "            }";
      "        }";
      "    ]";
      "}" ])]%string.
Proof.
  eexists. split.
  - intros o o' n I I' C C' _ _. rewrite (px_counted o I C), (px_counted o' I' C'). reflexivity.
  - split; [apply jx_plain_ok; vm_compute; reflexivity|]. split; vm_compute; reflexivity.
Qed.
