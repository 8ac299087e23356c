(** * Concrete values used by the examples.  Not part of any statement. *)
From Verif Require Import Base MemMap SpecTree.
From Coq Require Import Ascii String List ZArith.
Import ListNotations.
Open Scope list_scope.
Open Scope Z_scope.

Definition mk_obj (a : string) (l : list (string * Z)) : str * obj :=
  (list_ascii_of_string a,
   Node (list_ascii_of_string a) (zsumf snd l) 0
     (map (fun p => (list_ascii_of_string (fst p), Sym (list_ascii_of_string (fst p)) (snd p) 0 false)) l)).
Definition mk_arch (path a : string) (l : list (str * obj)) : str * arch :=
  (list_ascii_of_string path, Node (list_ascii_of_string a) (zsumf (fun o => n_size (snd o)) l) 0 l).
Definition mk_sect (n a : string) (l : list (str * arch)) : str * sect :=
  (list_ascii_of_string n, Node (list_ascii_of_string a) (zsumf (fun o => n_size (snd o)) l) 0 l).
Definition mk_type (n : string) (size : Z) (l : list (str * sect)) : str * mtype :=
  (list_ascii_of_string n, MType size 0 (zsumf (fun o => n_size (snd o)) l) 0 l).
Definition mk_map (target : string) (image : Z) (l : list (str * mtype)) : memmap :=
  MemMap (list_ascii_of_string target) [] image 0 (list_ascii_of_string "/p") [] l.

(** two small projects with common and different content *)
Definition ex_cur : memmap := mk_map "esp32" 100
  [ mk_type "DRAM" 1000
      [ mk_sect ".dram0.data" ".data" [ mk_arch "esp-idf/log/liblog.a" "liblog.a" [ mk_obj "log.c.obj" [("s_level", 4); ("s_tag", 8)] ] ];
        mk_sect ".dram0.bss" ".bss"
          [ mk_arch "esp-idf/log/liblog.a" "liblog.a" [ mk_obj "log.c.obj" [("s_buf", 16)]; mk_obj "util.c.obj" [("u", 2)] ];
            mk_arch "esp-idf/main/libmain.a" "libmain.a" [ mk_obj "main.c.obj" [("counter", 4)] ] ] ];
    mk_type "Flash Code" 4096
      [ mk_sect ".flash.text" ".text" [ mk_arch "esp-idf/main/libmain.a" "libmain.a" [ mk_obj "main.c.obj" [("app_main()", 40)] ] ] ] ].

Definition ex_ref : memmap := mk_map "esp32s3" 80
  [ mk_type "DRAM" 900
      [ mk_sect ".dram0.bss" ".bss"
          [ mk_arch "esp-idf/log/liblog.a" "liblog.a" [ mk_obj "log.c.obj" [("s_buf", 10); ("s_old", 1)] ];
            mk_arch "esp-idf/heap/libheap.a" "libheap.a" [ mk_obj "heap.c.obj" [("h", 7)] ] ];
        mk_sect ".dram1.bss" ".bss"
          [ mk_arch "esp-idf/log/liblog.a" "liblog.a" [ mk_obj "log.c.obj" [("s_buf", 3)] ] ] ];
    mk_type "RTC" 64
      [ mk_sect ".rtc.text" ".text" [ mk_arch "esp-idf/main/libmain.a" "libmain.a" [ mk_obj "main.c.obj" [("wake()", 12)] ] ] ] ].

(** decision procedure for [wf_map], to discharge it by computation *)
Fixpoint nodupb (l : list str) : bool :=
  match l with [] => true | x :: l' => negb (mem x l') && nodupb l' end.
Lemma nodupb_ok l : nodupb l = true -> NoDup l.
Proof.
  induction l as [|x l IH]; simpl; intros H; [constructor|].
  apply Bool.andb_true_iff in H. destruct H as [H1 H2]. constructor; [|auto].
  apply mem_not_In. destruct (mem x l); [discriminate|reflexivity].
Qed.
Definition wf_subb {C} (wfb : C -> bool) (d : dict str C) : bool :=
  nodupb (keys d) && forallb (fun kv => wfb (snd kv)) d.
Lemma wf_subb_ok {C} (wfb : C -> bool) (wfC : C -> Prop) d :
  (forall c, wfb c = true -> wfC c) -> wf_subb wfb d = true -> wf_sub wfC d.
Proof.
  intros H E. apply Bool.andb_true_iff in E. destruct E as [E1 E2]. split.
  - apply nodupb_ok. exact E1.
  - apply Forall_forall. intros kv I. rewrite forallb_forall in E2. apply H, E2, I.
Qed.
Definition wf_mapb (m : memmap) : bool :=
  wf_subb (fun T => wf_subb (fun s => wf_subb (fun x => wf_subb (fun o : obj => wf_subb (fun _ => true) (n_sub o)) (n_sub x))
    (n_sub s)) (t_sections T)) (m_types m).
Lemma wf_mapb_ok m : wf_mapb m = true -> wf_map m.
Proof.
  apply wf_subb_ok. intros T. apply wf_subb_ok. intros s. apply wf_subb_ok. intros x.
  apply wf_subb_ok. intros o. apply wf_subb_ok. intros y _. exact I.
Qed.
Lemma ex_cur_wf : wf_map ex_cur. Proof. apply wf_mapb_ok. vm_compute. reflexivity. Qed.
Lemma ex_ref_wf : wf_map ex_ref. Proof. apply wf_mapb_ok. vm_compute. reflexivity. Qed.

Definition path (l : list string) : list str := map list_ascii_of_string l.

(** the entries found by lookup are the listed ones *)
Lemma look_node_ents {C} (lookC : list str -> C -> option entry) ents :
  (forall p c x, lookC p c = Some x -> In (p, x) (ents c)) ->
  forall p n x, look_node lookC p n = Some x -> In (p, x) (ents_node ents n).
Proof.
  intros H p n x E. destruct p as [|k p]; simpl in E.
  - injection E as <-. left. reflexivity.
  - right. unfold ents_dict. apply in_flat_map.
    destruct (dget k (n_sub n)) as [c|] eqn:D; [|discriminate].
    exists (k, c). split; [apply dget_In; assumption|].
    apply in_map_iff. exists (p, x). split; [reflexivity|]. apply H. assumption.
Qed.
Lemma look_ents m t p x : look m t p = Some x -> exists T, In (t, T) (m_types m) /\ In (p, x) (ents_type T).
Proof.
  unfold look. destruct (dget t (m_types m)) as [T|] eqn:D; [|discriminate]. intros E.
  exists T. split; [apply dget_In; assumption|].
  destruct p as [|k p]; [discriminate E|]. simpl in E. revert E.
  destruct (dget k (t_sections T)) as [c|] eqn:D2; [intros E|discriminate].
  apply in_flat_map. exists (k, c). split; [apply dget_In; assumption|].
  apply in_map_iff. exists (p, x). split; [reflexivity|].
  revert E. apply (look_node_ents look_arch ents_arch).
  apply (look_node_ents look_obj ents_obj). apply (look_node_ents look_sym ents_sym).
  intros [|k3 q3] y z E3; simpl in E3; [|discriminate E3]. injection E3 as <-. left. reflexivity.
Qed.
Definition agreeb (a b : memmap) : bool :=
  forallb (fun tT => forallb (fun pe => match look b (fst tT) (fst pe) with
    | Some y => e_abbrev (snd pe) =?= e_abbrev y | None => true end) (ents_type (snd tT))) (m_types a).
Lemma agreeb_ok a b : agreeb a b = true ->
  forall t p x y, look a t p = Some x -> look b t p = Some y -> e_abbrev x = e_abbrev y.
Proof.
  intros A t p x y Ea Eb. apply look_ents in Ea. destruct Ea as (T & I1 & I2).
  unfold agreeb in A. rewrite forallb_forall in A. specialize (A _ I1).
  rewrite forallb_forall in A. specialize (A _ I2). simpl in A. rewrite Eb in A. apply keq_true, A.
Qed.

(** default options *)
Definition ex_args : args :=
  Args FTable false false false false None false None false true false false false false None None
       (list_ascii_of_string "size") None false true.
Definition args_diff (a : args) : args :=
  Args (a_format a) (a_archives a) (a_archive_dependencies a) (a_dep_symbols a) (a_dep_reverse a)
       (a_archive_details a) (a_files a) (Some (list_ascii_of_string "ref.map")) (a_no_abbrev a) (a_abbrev a) (a_unify a)
       (a_show_unused a) (a_show_unchanged a) (a_use_flash_size a) (a_use_dwarf a) (a_output_file a)
       (a_sort a) (a_filter a) (a_sort_diff a) (a_sort_reverse a).
Definition args_details (d : string) (a : args) : args :=
  Args (a_format a) (a_archives a) (a_archive_dependencies a) (a_dep_symbols a) (a_dep_reverse a)
       (Some (list_ascii_of_string d)) (a_files a) (a_diff a) (a_no_abbrev a) (a_abbrev a) (a_unify a)
       (a_show_unused a) (a_show_unchanged a) (a_use_flash_size a) (a_use_dwarf a) (a_output_file a)
       (a_sort a) (a_filter a) (a_sort_diff a) (a_sort_reverse a).
Definition args_unify (a : args) : args :=
  Args (a_format a) (a_archives a) (a_archive_dependencies a) (a_dep_symbols a) (a_dep_reverse a)
       (a_archive_details a) (a_files a) (a_diff a) (a_no_abbrev a) (a_abbrev a) true
       (a_show_unused a) (a_show_unchanged a) (a_use_flash_size a) (a_use_dwarf a) (a_output_file a)
       (a_sort a) (a_filter a) (a_sort_diff a) (a_sort_reverse a).
Definition args_archives (a : args) : args :=
  Args (a_format a) true (a_archive_dependencies a) (a_dep_symbols a) (a_dep_reverse a)
       (a_archive_details a) (a_files a) (a_diff a) (a_no_abbrev a) (a_abbrev a) (a_unify a)
       (a_show_unused a) (a_show_unchanged a) (a_use_flash_size a) (a_use_dwarf a) (a_output_file a)
       (a_sort a) (a_filter a) (a_sort_diff a) (a_sort_reverse a).
Definition args_filter (l : list string) (a : args) : args :=
  Args (a_format a) (a_archives a) (a_archive_dependencies a) (a_dep_symbols a) (a_dep_reverse a)
       (a_archive_details a) (a_files a) (a_diff a) (a_no_abbrev a) (a_abbrev a) (a_unify a)
       (a_show_unused a) (a_show_unchanged a) (a_use_flash_size a) (a_use_dwarf a) (a_output_file a)
       (a_sort a) (Some (map list_ascii_of_string l)) (a_sort_diff a) (a_sort_reverse a).
