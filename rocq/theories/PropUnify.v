(** * Properties C38, C39, C40: unify *)
From Verif Require Import Base MemMap SpecTree ProofUnify ProofUnifyDiff Fixtures.
From Coq Require Import Ascii String List ZArith Lia.
Import ListNotations.
Open Scope list_scope.
Open Scope Z_scope.

(** C38: [with_apath m t p] lists all entries of memory type [t] whose chain of
    abbreviated names is [p] *)
Theorem c38_unify_sums : forall m t p,
  match look (unify m) t p with
  | None => with_apath m t p = []
  | Some e => with_apath m t p <> [] /\
              e_size e = zsumf e_size (with_apath m t p) /\
              e_diff e = zsumf e_diff (with_apath m t p) /\
              (exists q, p = q ++ [e_abbrev e])
  end.
Proof. exact unify_look. Qed.
Print Assumptions c38_unify_sums.

Theorem c38_unify_unique_keys : forall m, wf_map m -> wf_map (unify m).
Proof. exact wf_unify. Qed.
Print Assumptions c38_unify_unique_keys.

Theorem c38_unify_totals : forall m t,
  option_map (fun T => (t_size T, t_size_diff T, (t_used T, t_used_diff T))) (dget t (m_types (unify m))) =
  option_map (fun T => (t_size T, t_size_diff T, (t_used T, t_used_diff T))) (dget t (m_types m)) /\
  keys (m_types (unify m)) = keys (m_types m).
Proof. exact unify_totals. Qed.
Print Assumptions c38_unify_totals.

(** the target, the image size and the project path stay as they are, and so do their
    differences *)
Theorem c38_unify_header : forall m,
  (m_target (unify m), m_target_diff (unify m), m_image_size (unify m), m_image_size_diff (unify m), m_project_path (unify m), m_project_path_diff (unify m)) =
  (m_target m, m_target_diff m, m_image_size m, m_image_size_diff m, m_project_path m, m_project_path_diff m).
Proof. reflexivity. Qed.
Print Assumptions c38_unify_header.

(** .dram0.bss and .dram1.bss become one .bss *)
Example c38_example :
  look (unify ex_ref) "DRAM" (path [".bss"; "liblog.a"; "log.c.obj"; "s_buf"]) = Some (Entry "s_buf" 13 0) /\
  List.length (with_apath ex_ref "DRAM" (path [".bss"; "liblog.a"; "log.c.obj"; "s_buf"])) = 2%nat /\
  look (unify ex_ref) "DRAM" (path [".bss"]) = Some (Entry ".bss" 21 0).
Proof. vm_compute. repeat split; reflexivity. Qed.

(** C39 *)
Theorem c39_unify_idempotent : forall m, unify (unify m) = unify m.
Proof. exact unify_idem. Qed.
Print Assumptions c39_unify_idempotent.

(** the hypothesis on abbreviated names holds of maps built by get(), where the
    abbreviated name is a function of the name on each level *)
Theorem c39_unify_diff_commute : forall a b t p,
  wf_map a -> wf_map b ->
  (forall t p x y, look a t p = Some x -> look b t p = Some y -> e_abbrev x = e_abbrev y) ->
  match look (unify (diff a b)) t p, look (diff (unify a) (unify b)) t p with
  | None, None => True
  | Some e, Some f => e_size e = e_size f /\ e_diff e = e_diff f /\ e_abbrev e = e_abbrev f
  | _, _ => False
  end.
Proof. exact unify_diff_comm. Qed.
Print Assumptions c39_unify_diff_commute.

Example c39_example :
  (forall t p x y, look ex_cur t p = Some x -> look ex_ref t p = Some y -> e_abbrev x = e_abbrev y) /\
  unify ex_ref <> ex_ref /\
  look (unify (diff ex_cur ex_ref)) "DRAM" (path [".bss"; "liblog.a"]) = Some (Entry "liblog.a" 18 4) /\
  look (diff (unify ex_cur) (unify ex_ref)) "DRAM" (path [".bss"; "liblog.a"]) = Some (Entry "liblog.a" 18 4).
Proof.
  split; [apply agreeb_ok; vm_compute; reflexivity|].
  split; [discriminate|]. vm_compute. repeat split; reflexivity. Qed.

(** C40 is false: unify() gives every symbol an additional key None
    ([y_null]), memorymap.py:446-465 *)
Theorem c40_unify_structure_refuted : exists m,
  Forall (fun w => match w_sym w with Some y => y_null (snd y) = false | None => True end) (walk m DAll) /\
  ~ Forall (fun w => match w_sym w with Some y => y_null (snd y) = false | None => True end) (walk (unify m) DAll).
Proof. exact unify_null. Qed.
Print Assumptions c40_unify_structure_refuted.
