(** * Properties C41, C45, C46, C47, C48: walk, remove_unused, ignore_flash_size, trim, sort *)
From Coq Require Import Ascii String List ZArith Lia Sorted Permutation.
From Verif Require Import Base MemMap SpecLetters SpecTree SpecOps ProofDiff ProofOps ProofTrim Fixtures.
Import ListNotations.
Open Scope list_scope.
Open Scope Z_scope.

(** C41: the visited items are the entries of the requested depth, in tree order *)
Theorem c41_walk_visits : forall m d,
  map (fun w => (fst (w_type w), (w_path w, w_entry w))) (walk m d) =
  flat_map (fun t => map (fun pe => (fst t, pe)) (items_at (depth_len d) (snd t))) (m_types m).
Proof. exact walk_items. Qed.
Print Assumptions c41_walk_visits.

(** C41: each together with its ancestors *)
Theorem c41_walk_ancestors : forall m d w, In w (walk m d) -> w_chain m w.
Proof. exact walk_chain. Qed.
Print Assumptions c41_walk_ancestors.

(** C41: exactly once *)
Theorem c41_walk_once : forall m d,
  wf_map m -> NoDup (map (fun w => (fst (w_type w), w_path w)) (walk m d)).
Proof. exact walk_nodup. Qed.
Print Assumptions c41_walk_once.

Example c41_example :
  wf_map ex_cur /\ List.length (walk ex_cur DAll) = 6%nat /\ List.length (walk ex_cur DArchives) = 4%nat /\
  map (fun w => (fst (w_type w), w_path w)) (firstn 1 (walk ex_cur DAll)) =
  [("DRAM" : str, path [".dram0.data"; "esp-idf/log/liblog.a"; "log.c.obj"; "s_level"])].
Proof. split; [exact ex_cur_wf|]. vm_compute. repeat split; reflexivity. Qed.

(** C45 is false: a used memory type may keep no section ... *)
Definition ex_unused : memmap := mk_map "esp32" 0
  [ (list_ascii_of_string "IRAM", MType 100 0 4 0 [ (list_ascii_of_string ".iram0.text_end", Node [] 4 0 []) ]);
    mk_type "DRAM" 1000
      [ mk_sect ".dram0.data" ".data" [ mk_arch "a/liblog.a" "liblog.a" [ mk_obj "log.c.obj" [("s_level", 4)] ] ];
        (list_ascii_of_string ".dram0.end", Node [] 8 0 []) ];
    (list_ascii_of_string "RTC", MType 100 0 0 0 []) ].

Theorem c45_remove_unused_listed_types_used_refuted : exists m,
  wf_map m /\ exists t T, dget t (m_types (remove_unused m)) = Some T /\ t_used T = 0.
Proof.
  exists ex_unused. split; [apply wf_mapb_ok; vm_compute; reflexivity|].
  exists "IRAM"%string. eexists. split; vm_compute; reflexivity.
Qed.
Print Assumptions c45_remove_unused_listed_types_used_refuted.

(** ... and the second application removes it *)
Theorem c45_remove_unused_idempotent_refuted : exists m,
  wf_map m /\ remove_unused (remove_unused m) <> remove_unused m.
Proof.
  exists ex_unused. split; [apply wf_mapb_ok; vm_compute; reflexivity|]. vm_compute. discriminate.
Qed.
Print Assumptions c45_remove_unused_idempotent_refuted.

(** What holds: exactly the memory types with used = 0 go, exactly the sections
    without archives go, 'used' is the sum of the rest, order and all other values
    stay.  Missing: a type whose last section goes is still listed. *)
Theorem c45_remove_unused_partial : forall m,
  m_types (remove_unused m) =
  map (fun tT =>
    let left := filter (fun kv : str * sect => match n_sub (snd kv) with [] => false | _ => true end) (t_sections (snd tT)) in
    (fst tT, MType (t_size (snd tT)) (t_size_diff (snd tT)) (zsumf (fun kv => n_size (snd kv)) left)
                   (t_used_diff (snd tT)) left))
    (filter (fun tT => negb (t_used (snd tT) =? 0)) (m_types m)).
Proof. exact remove_unused_types. Qed.
Print Assumptions c45_remove_unused_partial.

(** nothing but the memory types changes *)
Theorem c45_remove_unused_header_partial : forall m,
  (m_target (remove_unused m), m_target_diff (remove_unused m), m_image_size (remove_unused m), m_image_size_diff (remove_unused m), m_project_path (remove_unused m), m_project_path_diff (remove_unused m)) =
  (m_target m, m_target_diff m, m_image_size m, m_image_size_diff m, m_project_path m, m_project_path_diff m).
Proof. reflexivity. Qed.
Print Assumptions c45_remove_unused_header_partial.

(** it is stable after two applications *)
Theorem c45_remove_unused_stable_partial : forall m,
  remove_unused (remove_unused (remove_unused m)) = remove_unused (remove_unused m).
Proof. exact remove_unused_thrice. Qed.
Print Assumptions c45_remove_unused_stable_partial.

Example c45_example :
  keys (m_types (remove_unused ex_unused)) = path ["IRAM"; "DRAM"] /\
  type_used_at ex_unused "DRAM" = 12 /\ type_used_at (remove_unused ex_unused) "DRAM" = 4 /\
  keys (m_types (remove_unused (remove_unused ex_unused))) = path ["DRAM"].
Proof. vm_compute. repeat split; reflexivity. Qed.

(** C46 *)
Theorem c46_flash_types : forall m t T, dget t (m_types m) = Some T ->
  exists n, dget t (m_types (ignore_flash_size m)) = Some (MType n (t_size_diff T) (t_used T) (t_used_diff T) (t_sections T)) /\
    (flash_name t -> n = 0) /\ (~ flash_name t -> n = t_size T).
Proof. exact ignore_flash_sizes. Qed.
Print Assumptions c46_flash_types.

Theorem c46_flash_entries : forall m t p, look (ignore_flash_size m) t p = look m t p.
Proof. exact ignore_flash_look. Qed.
Print Assumptions c46_flash_entries.

Theorem c46_flash_rest : forall m,
  keys (m_types (ignore_flash_size m)) = keys (m_types m) /\
  (m_target (ignore_flash_size m), m_target_diff (ignore_flash_size m), m_image_size (ignore_flash_size m), m_image_size_diff (ignore_flash_size m), m_project_path (ignore_flash_size m), m_project_path_diff (ignore_flash_size m)) =
  (m_target m, m_target_diff m, m_image_size m, m_image_size_diff m, m_project_path m, m_project_path_diff m).
Proof. intros m. split; [apply keys_dmapk|reflexivity]. Qed.
Print Assumptions c46_flash_rest.

Theorem c46_flash_idempotent : forall m, ignore_flash_size (ignore_flash_size m) = ignore_flash_size m.
Proof. exact ignore_flash_idem. Qed.
Print Assumptions c46_flash_idempotent.

(** what [in] means of texts *)
Theorem c46_contains_means_substring : forall sub s,
  contains sub s = true <-> exists pre post, s = pre ++ sub ++ post.
Proof. exact contains_ok. Qed.
Print Assumptions c46_contains_means_substring.

Example c46_example :
  type_size_at ex_cur "Flash Code" = 4096 /\ type_size_at (ignore_flash_size ex_cur) "Flash Code" = 0 /\
  type_size_at (ignore_flash_size ex_cur) "DRAM" = 1000.
Proof. vm_compute. repeat split; reflexivity. Qed.

(** C47: which entries are left *)
Theorem c47_trim_entries : forall m a t p e,
  wf_map m ->
  look (trim m a) t p = Some e <->
  look m t p = Some e /\
  (exists T, dget t (m_types m) = Some T /\ counts a (t_used_diff T)) /\
  (length p <= shown_levels a)%nat /\
  (forall n x, (1 <= n <= length p)%nat -> look m t (firstn n p) = Some x ->
     counts a (e_diff x) /\ (n = 2%nat -> archive_wanted a x)).
Proof. exact trim_look. Qed.
Print Assumptions c47_trim_entries.

Theorem c47_trim_order : forall m a, subseq (all_ents (trim m a)) (all_ents m).
Proof. exact trim_order. Qed.
Print Assumptions c47_trim_order.

(** nothing but the memory types changes *)
Theorem c47_trim_header : forall m a,
  (m_target (trim m a), m_target_diff (trim m a), m_image_size (trim m a), m_image_size_diff (trim m a), m_project_path (trim m a), m_project_path_diff (trim m a)) =
  (m_target m, m_target_diff m, m_image_size m, m_image_size_diff m, m_project_path m, m_project_path_diff m).
Proof. reflexivity. Qed.
Print Assumptions c47_trim_header.

(** "no entry below which something changed is dropped" is false: differences in
    a section may cancel *)
Definition ex_moved (a b : Z) : memmap := mk_map "esp32" 0
  [ mk_type "DRAM" 1000
      [ mk_sect ".dram0.data" ".data" [ mk_arch "a/liba.a" "liba.a" [ mk_obj "a.c.obj" [("x", a); ("y", b)] ] ] ] ].
Theorem c47_trim_keeps_changed_refuted : exists cur ref a t p e,
  wf_map cur /\ wf_map ref /\ given (a_diff a) = true /\ a_show_unchanged a = false /\
  look (diff cur ref) t p = Some e /\ e_diff e <> 0 /\
  (length p <= shown_levels a)%nat /\ given (a_archive_details a) = false /\
  look (trim (diff cur ref) a) t p = None.
Proof.
  exists (ex_moved 4 8), (ex_moved 8 4), (args_diff ex_args), ("DRAM" : str),
    (path [".dram0.data"; "a/liba.a"; "a.c.obj"; "x"]). eexists.
  split; [apply wf_mapb_ok; vm_compute; reflexivity|].
  split; [apply wf_mapb_ok; vm_compute; reflexivity|].
  split; [reflexivity|]. split; [reflexivity|].
  split; [vm_compute; reflexivity|]. split; [cbn; lia|]. split; [vm_compute; lia|].
  split; vm_compute; reflexivity.
Qed.
Print Assumptions c47_trim_keeps_changed_refuted.

Example c47_example :
  wf_map (diff ex_cur ex_ref) /\
  look (trim (diff ex_cur ex_ref) (args_diff ex_args)) "DRAM" (path [".dram0.bss"; "esp-idf/log/liblog.a"]) =
    Some (Entry "liblog.a" 18 7) /\
  look (trim (diff ex_cur ex_ref) (args_archives (args_diff ex_args))) "DRAM"
    (path [".dram0.bss"; "esp-idf/log/liblog.a"; "log.c.obj"]) = None /\
  look (trim (diff ex_cur ex_cur) (args_diff ex_args)) "DRAM" (path [".dram0.bss"]) = None.
Proof.
  split; [apply wf_mapb_ok; vm_compute; reflexivity|]. vm_compute. repeat split; reflexivity. Qed.

(** C48: on every level a permutation, ordered, stable, values unchanged *)
Theorem c48_sort_map : forall m a, sorted_map a m (sort m a).
Proof. exact sort_ok. Qed.
Print Assumptions c48_sort_map.

Theorem c48_sort_entries : forall m a t p, wf_map m -> look (sort m a) t p = look m t p.
Proof. exact sort_look. Qed.
Print Assumptions c48_sort_entries.

(** nothing but the memory types changes *)
Theorem c48_sort_header : forall m a,
  (m_target (sort m a), m_target_diff (sort m a), m_image_size (sort m a), m_image_size_diff (sort m a), m_project_path (sort m a), m_project_path_diff (sort m a)) =
  (m_target m, m_target_diff m, m_image_size m, m_image_size_diff m, m_project_path m, m_project_path_diff m).
Proof. reflexivity. Qed.
Print Assumptions c48_sort_header.

Theorem c48_sort_summary : forall entries a,
  sorted_from (fun e => the_size (a_sort_diff a) (se_size e) (se_diff e)) (a_sort_reverse a) (sorted_sentry a)
    entries (get_summary_sorted entries a).
Proof. exact summary_sort_ok. Qed.
Print Assumptions c48_sort_summary.

Example c48_example :
  wf_map ex_cur /\
  keys (m_types (sort ex_cur ex_args)) = path ["Flash Code"; "DRAM"] /\ keys (m_types ex_cur) = path ["DRAM"; "Flash Code"] /\
  option_map (fun T => keys (t_sections T)) (dget ("DRAM" : str) (m_types (sort ex_cur ex_args))) = Some (path [".dram0.bss"; ".dram0.data"]).
Proof. split; [exact ex_cur_wf|]. vm_compute. repeat split; reflexivity. Qed.
