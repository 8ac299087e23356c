(** * Properties C42, C43, C44: archive, object file and symbol reports *)
From Coq Require Import Ascii String List ZArith Lia.
From Verif Require Import Base MemMap SpecTree SpecOps ProofDiff ProofOps ProofTrim Fixtures ProofSummary ProofSummary2 ProofSummary3.
Import ListNotations.
Open Scope list_scope.
Open Scope Z_scope.

(** C42: [row_ok] says that totals are sums and section values are those of the map;
    every archive has a row unless it is unchanged in a diff *)
Theorem c42_archives_report : forall m a x, wf_map m ->
  match dget x (get_archives_summary m a) with
  | Some e =>
      row_ok m (fun t s => look m t [s; x]) e /\ counts a (se_diff e) /\
      exists t s y, look m t [s; x] = Some y /\ se_abbrev e = e_abbrev y
  | None =>
      (forall t s, look m t [s; x] = None) \/
      exists e, row_ok m (fun t s => look m t [s; x]) e /\ ~ counts a (se_diff e)
  end.
Proof. exact archives_report. Qed.
Print Assumptions c42_archives_report.

Theorem c42_archives_once : forall m a, wf_dict (get_archives_summary m a).
Proof. exact archives_report_wf. Qed.
Print Assumptions c42_archives_once.

Example c42_example :
  wf_map ex_cur /\ keys (get_archives_summary ex_cur ex_args) = path ["esp-idf/log/liblog.a"; "esp-idf/main/libmain.a"] /\
  option_map se_size (dget ("esp-idf/main/libmain.a" : str) (get_archives_summary ex_cur ex_args)) = Some 44.
Proof. split; [exact ex_cur_wf|]. vm_compute. repeat split; reflexivity. Qed.

(** C43, without --unify and if "archive:object" identifies the object file *)
Theorem c43_objects_report_partial : forall m a n, wf_map m -> inj_objects m -> a_unify a = false ->
  match dget n (get_object_files_summary m a) with
  | Some e => exists x o,
      n = colon [x; o] /\ se_abbrev e = basename o /\
      (exists t s, look m t [s; x; o] <> None) /\
      row_ok m (fun t s => look m t [s; x; o]) e /\ counts a (se_diff e)
  | None => forall x o t s, n = colon [x; o] -> look m t [s; x; o] <> None ->
      exists e, row_ok m (fun t s => look m t [s; x; o]) e /\ ~ counts a (se_diff e)
  end.
Proof. exact objects_report. Qed.
Print Assumptions c43_objects_report_partial.

Theorem c43_names_without_colon : forall m,
  (forall t s x o, look m t [s; x; o] <> None -> ~ In ":"%char o) -> inj_objects m.
Proof. exact inj_objects_colon. Qed.
Print Assumptions c43_names_without_colon.

(** C43, always: the totals are those of all entries with the row's name.  Missing:
    the section values, which are those of the last such entry only. *)
Theorem c43_objects_totals_partial : forall m a n e, wf_map m ->
  dget n (get_object_files_summary m a) = Some e ->
  totals_ok m (fun t => obj_row m (a_unify a) t n) e.
Proof. exact objects_totals. Qed.
Print Assumptions c43_objects_totals_partial.

(** C43 is false with --unify: two archives with an object file of the same name *)
Definition ex_same_object : memmap := mk_map "esp32" 0
  [ mk_type "DRAM" 1000
      [ mk_sect ".dram0.data" ".data"
          [ mk_arch "a/liba.a" "liba.a" [ mk_obj "init.c.obj" [("x", 4)] ];
            mk_arch "b/libb.a" "libb.a" [ mk_obj "init.c.obj" [("x", 8)] ] ] ] ].
Theorem c43_objects_unify_refuted : exists m a n e t T,
  wf_map m /\ a_unify a = true /\ dget n (get_object_files_summary (unify m) a) = Some e /\
  dget t (se_types e) = Some T /\
  st_size T <> zsumf (fun kv => ss_size (snd kv)) (st_sections T).
Proof.
  exists ex_same_object, (args_unify ex_args), ("init.c.obj" : str). eexists. exists ("DRAM" : str). eexists.
  split; [apply wf_mapb_ok; vm_compute; reflexivity|]. split; [reflexivity|].
  split; [vm_compute; reflexivity|]. split; [vm_compute; reflexivity|]. vm_compute. discriminate.
Qed.
Print Assumptions c43_objects_unify_refuted.

Lemma ex_cur_no_colon : forall t s x o, look ex_cur t [s; x; o] <> None -> ~ In ":"%char o.
Proof.
  intros t s x o N I. destruct (look ex_cur t [s; x; o]) as [e|] eqn:E; [|congruence]. clear N.
  apply look_ents in E. destruct E as (T & I1 & I2).
  assert (H : forallb (fun tT => forallb (fun pe => match fst pe with [_; _; o] => negb (mem ":"%char o) | _ => true end)
             (ents_type (snd tT))) (m_types ex_cur) = true) by (vm_compute; reflexivity).
  rewrite forallb_forall in H. specialize (H _ I1). rewrite forallb_forall in H. specialize (H _ I2). simpl in H.
  apply mem_In in I. rewrite I in H. discriminate.
Qed.
Example c43_example :
  wf_map ex_cur /\ inj_objects ex_cur /\ a_unify ex_args = false /\
  option_map se_size (dget ("esp-idf/log/liblog.a:log.c.obj" : str) (get_object_files_summary ex_cur ex_args)) = Some 28.
Proof.
  split; [exact ex_cur_wf|]. split; [apply inj_objects_colon, ex_cur_no_colon|]. vm_compute. repeat split; reflexivity. Qed.

(** C44 *)
Theorem c44_symbols_report_partial : forall m a d rows n, wf_map m -> inj_symbols m -> a_unify a = false ->
  a_archive_details a = Some d -> get_symbols_summary m a = Ok rows ->
  match dget n rows with
  | Some e => exists x o y,
      n = colon [x; o; y] /\ se_abbrev e = y /\
      (exists t s, sym_val m d t s x o y <> None) /\
      row_ok m (fun t s => sym_val m d t s x o y) e /\ counts a (se_diff e)
  | None => forall x o y t s, n = colon [x; o; y] -> sym_val m d t s x o y <> None ->
      exists e, row_ok m (fun t s => sym_val m d t s x o y) e /\ ~ counts a (se_diff e)
  end.
Proof. exact symbols_report. Qed.
Print Assumptions c44_symbols_report_partial.

Theorem c44_names_without_colon : forall m,
  (forall t s x o, look m t [s; x; o] <> None -> ~ In ":"%char o) ->
  (forall t s x o y, look m t [s; x; o; y] <> None -> ~ In ":"%char y) -> inj_symbols m.
Proof. exact inj_symbols_colon. Qed.
Print Assumptions c44_names_without_colon.

Theorem c44_symbols_totals_partial : forall m a d rows n e, wf_map m -> a_archive_details a = Some d ->
  get_symbols_summary m a = Ok rows -> dget n rows = Some e ->
  totals_ok m (fun t => sym_row m (a_unify a) d t n) e.
Proof. exact symbols_totals. Qed.
Print Assumptions c44_symbols_totals_partial.

(** 'not found' is given exactly if no such archive has a symbol *)
Theorem c44_not_found_partial : forall m a d, wf_map m -> a_archive_details a = Some d ->
  get_symbols_summary m a = Err SystemExit <->
  forall t s x o y, sym_val m d t s x o y = None.
Proof. exact symbols_not_found. Qed.
Print Assumptions c44_not_found_partial.

(** so it is given for an archive that the map contains *)
Definition ex_no_symbols : memmap := mk_map "esp32" 0
  [ mk_type "DRAM" 1000
      [ mk_sect ".dram0.data" ".data" [ mk_arch "a/liba.a" "liba.a" [ (list_ascii_of_string "pad.S.obj", Node (list_ascii_of_string "pad.S.obj") 4 0 []) ] ] ] ].
Theorem c44_not_found_refuted : exists m a d t s x e,
  wf_map m /\ a_archive_details a = Some d /\ look m t [s; x] = Some e /\ e_abbrev e = d /\
  get_symbols_summary m a = Err SystemExit.
Proof.
  exists ex_no_symbols, (args_details "liba.a" ex_args), ("liba.a" : str), ("DRAM" : str), (".dram0.data" : str), ("a/liba.a" : str).
  eexists. split; [apply wf_mapb_ok; vm_compute; reflexivity|].
  split; [reflexivity|]. split; [vm_compute; reflexivity|]. split; vm_compute; reflexivity.
Qed.
Print Assumptions c44_not_found_refuted.

(** totals and section values disagree with --unify *)
Definition ex_same_symbol : memmap := mk_map "esp32" 0
  [ mk_type "DRAM" 1000
      [ mk_sect ".dram0.data" ".data"
          [ mk_arch "a/liba.a" "liba.a" [ mk_obj "f.c.obj" [("TAG", 4)]; mk_obj "g.c.obj" [("TAG", 8)] ] ] ] ].
Theorem c44_symbols_unify_refuted : exists m a rows n e t T,
  wf_map m /\ a_unify a = true /\ get_symbols_summary (unify m) a = Ok rows /\
  dget n rows = Some e /\ dget t (se_types e) = Some T /\
  st_size T <> zsumf (fun kv => ss_size (snd kv)) (st_sections T).
Proof.
  exists ex_same_symbol, (args_unify (args_details "liba.a" ex_args)). eexists. exists ("TAG" : str). eexists. exists ("DRAM" : str). eexists.
  split; [apply wf_mapb_ok; vm_compute; reflexivity|]. split; [reflexivity|].
  split; [vm_compute; reflexivity|]. split; [vm_compute; reflexivity|].
  split; [vm_compute; reflexivity|]. vm_compute. discriminate.
Qed.
Print Assumptions c44_symbols_unify_refuted.

Example c44_example :
  a_archive_details (args_details "liblog.a" ex_args) = Some ("liblog.a" : str) /\
  match get_symbols_summary ex_cur (args_details "liblog.a" ex_args) with
  | Ok rows => keys rows = path ["esp-idf/log/liblog.a:log.c.obj:s_level"; "esp-idf/log/liblog.a:log.c.obj:s_tag";
                                 "esp-idf/log/liblog.a:log.c.obj:s_buf"; "esp-idf/log/liblog.a:util.c.obj:u"]
  | Err _ => False
  end /\
  get_symbols_summary ex_cur (args_details "libnone.a" ex_args) = Err SystemExit.
Proof. vm_compute. repeat split; reflexivity. Qed.
