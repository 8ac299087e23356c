(** * Properties C81, C82: the memory map returned by [get] *)
From Coq Require Import Ascii String List ZArith Lia Bool.
From Verif Require Import Base MemMap SpecTree Pipeline SpecPipe SpecBuild SpecShape ProofShape FixPipe.
Import ListNotations.
Open Scope list_scope.
Open Scope Z_scope.

(** ** C81 *)
Theorem c81_pristine : forall w ls ud ma ea m mf, get w ls ud ma ea = Ok (m, mf) -> pristine m /\ m_project_path m = w_map_fn w.
Proof. exact get_pristine. Qed.
Print Assumptions c81_pristine.

Example c81_example : exists m mf T, get world_s3 true None None None = Ok (m, mf) /\
  dget (list_ascii_of_string "DIRAM") (m_types m) = Some T /\
  map (fun pe => (fst pe, e_abbrev (snd pe))) (filter (fun pe => (List.length (fst pe) <=? 3)%nat) (firstn 4 (ents_type T))) =
  [([list_ascii_of_string ".dram0.data"], list_ascii_of_string ".data");
   (map list_ascii_of_string [".dram0.data"; "libheap.a"]%string, list_ascii_of_string "libheap.a");
   (map list_ascii_of_string [".dram0.data"; "libheap.a"; "heap.c.obj"]%string, list_ascii_of_string "heap.c.obj")].
Proof. eexists _, _, _. split; [vm_compute; reflexivity|]. split; vm_compute; reflexivity. Qed.
Example c81_label_example :
  label (map list_ascii_of_string [".dram0.data"; "esp-idf/heap/libheap.a"]%string) (list_ascii_of_string "libheap.a") /\
  ~ label (map list_ascii_of_string [".dram0.data"; "esp-idf/heap/libheap.a"]%string) (list_ascii_of_string "heap/libheap.a").
Proof.
  split.
  - split; [cbn; intuition discriminate|]. right. exists (list_ascii_of_string "esp-idf/heap"). reflexivity.
  - intros [N _]. apply N. cbn. tauto.
Qed.

(** ** C82 *)
Theorem c82_region_sizes : forall w ls ud ma ea m mf mf',
  map_file_of w ma mf -> Forall (fun r => 0 <= r_length r) (mf_regions mf) -> get w ls ud ma ea = Ok (m, mf') ->
  exists types groups,
    w_memory_types w (m_target m) = Ok types /\
    Forall2 (region_parts types) (filter listed_region (mf_regions mf)) groups /\
    (forall t, In t (keys (m_types m)) <-> exists c, In c types /\ ct_name c = t) /\
    (forall t T, dget t (m_types m) = Some T -> t_size T = type_size t (concat groups)).
Proof. exact get_sizes. Qed.
Print Assumptions c82_region_sizes.

Example c82_example : map_file_of world_s3 None mf_s3 /\ Forall (fun r => 0 <= r_length r) (mf_regions mf_s3) /\
  exists m mf, get world_s3 true None None None = Ok (m, mf) /\
  map (fun kv => (fst kv, t_size (snd kv))) (m_types m) =
  [(list_ascii_of_string "IRAM", 0x4000); (list_ascii_of_string "DIRAM", 0x53700); (list_ascii_of_string "Flash Code", 0x7fffe0)].
Proof.
  split; [reflexivity|]. split; [repeat (apply Forall_cons; [cbn; lia|]); apply Forall_nil|].
  eexists _, _. split; vm_compute; reflexivity.
Qed.
