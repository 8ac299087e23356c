(** * Properties C34, C35, C36: diff *)
From Verif Require Import Base MemMap SpecTree ProofDiff ProofDiff2 Fixtures.
From Coq Require Import Ascii String List ZArith Lia.
Import ListNotations.
Open Scope list_scope.
Open Scope Z_scope.

(** C34, entries: size is the current one, size_diff is current minus
    reference, an entry is there iff it is in one of the maps.  ([look m t p] is
    the entry at path [p] of memory type [t]; [size_at] is its size or 0.) *)
Theorem c34_diff_entries : forall cur ref t p,
  wf_map cur -> wf_map ref ->
  match look (diff cur ref) t p with
  | None => look cur t p = None /\ look ref t p = None
  | Some e =>
      (look cur t p <> None \/ look ref t p <> None) /\
      e_size e = size_at cur t p /\
      e_diff e = size_at cur t p - size_at ref t p /\
      Some (e_abbrev e) = match look cur t p with
                          | Some c => Some (e_abbrev c)
                          | None => option_map e_abbrev (look ref t p)
                          end
  end.
Proof. exact diff_exact. Qed.
Print Assumptions c34_diff_entries.

(** C34, memory types *)
Theorem c34_diff_memory_types : forall cur ref t,
  wf_map ref ->
  match dget t (m_types (diff cur ref)) with
  | None => dget t (m_types cur) = None /\ dget t (m_types ref) = None
  | Some T =>
      (dget t (m_types cur) <> None \/ dget t (m_types ref) <> None) /\
      t_size T = type_size_at cur t /\
      t_used T = type_used_at cur t /\
      t_size_diff T = type_size_at cur t - type_size_at ref t /\
      t_used_diff T = type_used_at cur t - type_used_at ref t
  end.
Proof. exact diff_type_exact. Qed.
Print Assumptions c34_diff_memory_types.

(** C34, every entry exactly once: no key occurs twice on any level *)
Theorem c34_diff_unique_keys : forall cur ref, wf_map cur -> wf_map ref -> wf_map (diff cur ref).
Proof. exact wf_diff. Qed.
Print Assumptions c34_diff_unique_keys.

(** C34, header *)
Theorem c34_diff_header : forall cur ref,
  m_image_size (diff cur ref) = m_image_size cur /\
  m_image_size_diff (diff cur ref) = m_image_size cur - m_image_size ref /\
  m_target (diff cur ref) = m_target cur /\ m_target_diff (diff cur ref) = m_target ref /\
  m_project_path (diff cur ref) = m_project_path cur /\ m_project_path_diff (diff cur ref) = m_project_path ref.
Proof. exact diff_image. Qed.
Print Assumptions c34_diff_header.

(** a common, a new and a removed symbol; a removed memory type *)
Example c34_example :
  wf_map ex_cur /\ wf_map ex_ref /\
  look (diff ex_cur ex_ref) "DRAM" (path [".dram0.bss"; "esp-idf/log/liblog.a"; "log.c.obj"; "s_buf"]) = Some (Entry "s_buf" 16 6) /\
  look (diff ex_cur ex_ref) "DRAM" (path [".dram0.bss"; "esp-idf/log/liblog.a"; "log.c.obj"; "s_old"]) = Some (Entry "s_old" 0 (-1)) /\
  look (diff ex_cur ex_ref) "DRAM" (path [".dram0.data"; "esp-idf/log/liblog.a"]) = Some (Entry "liblog.a" 12 12) /\
  look (diff ex_cur ex_ref) "RTC" (path [".rtc.text"]) = Some (Entry ".text" 0 (-12)) /\
  m_image_size_diff (diff ex_cur ex_ref) = 20.
Proof. split; [exact ex_cur_wf|]. split; [exact ex_ref_wf|]. vm_compute. repeat split; reflexivity. Qed.

(** C35: comparing a map with itself *)
Theorem c35_diff_self : forall m t p e,
  wf_map m -> look (diff m m) t p = Some e -> e_diff e = 0 /\ look m t p <> None.
Proof. exact diff_self. Qed.
Print Assumptions c35_diff_self.

Theorem c35_diff_self_memory_types : forall m t T,
  wf_map m -> dget t (m_types (diff m m)) = Some T -> t_size_diff T = 0 /\ t_used_diff T = 0.
Proof. exact diff_self_types. Qed.
Print Assumptions c35_diff_self_memory_types.

(** C35: swapping the maps ([diff_at] is size_diff at a path, 0 without entry) *)
Theorem c35_diff_antisymmetric : forall a b t p,
  wf_map a -> wf_map b -> diff_at (diff a b) t p = - diff_at (diff b a) t p.
Proof. exact diff_anti. Qed.
Print Assumptions c35_diff_antisymmetric.

(** C35: differences compose *)
Theorem c35_diff_chain : forall a b c t p,
  wf_map a -> wf_map b -> wf_map c ->
  diff_at (diff a c) t p = diff_at (diff a b) t p + diff_at (diff b c) t p.
Proof. exact diff_chain. Qed.
Print Assumptions c35_diff_chain.

Example c35_example :
  diff_at (diff ex_cur ex_cur) "DRAM" (path [".dram0.bss"; "esp-idf/log/liblog.a"]) = 0 /\
  diff_at (diff ex_cur ex_ref) "DRAM" (path [".dram0.bss"; "esp-idf/log/liblog.a"]) = 7 /\
  diff_at (diff ex_ref ex_cur) "DRAM" (path [".dram0.bss"; "esp-idf/log/liblog.a"]) = -7.
Proof. vm_compute. repeat split; reflexivity. Qed.

(** C36 *)
Theorem c36_diff_totals : forall a b t T,
  wf_map a -> wf_map b ->
  (forall n U, In (n, U) (m_types a) -> t_used U = zsumf (fun kv => n_size (snd kv)) (t_sections U)) ->
  (forall n U, In (n, U) (m_types b) -> t_used U = zsumf (fun kv => n_size (snd kv)) (t_sections U)) ->
  dget t (m_types (diff a b)) = Some T ->
  t_used_diff T = zsumf (fun kv => n_diff (snd kv)) (t_sections T).
Proof. exact diff_used_coherent. Qed.
Print Assumptions c36_diff_totals.

Example c36_example :
  (forall n U, In (n, U) (m_types ex_cur) -> t_used U = zsumf (fun kv => n_size (snd kv)) (t_sections U)) /\
  (forall n U, In (n, U) (m_types ex_ref) -> t_used U = zsumf (fun kv => n_size (snd kv)) (t_sections U)) /\
  option_map t_used_diff (dget ("DRAM" : str) (m_types (diff ex_cur ex_ref))) = Some 13.
Proof.
  repeat split; try (vm_compute; reflexivity).
  - intros n U [E|[E|[]]]; injection E as <- <-; reflexivity.
  - intros n U [E|[E|[]]]; injection E as <- <-; reflexivity.
Qed.
