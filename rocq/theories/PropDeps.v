(** * Properties C50, C51, C52, C58, C69: dependencies between archives *)
From Coq Require Import Ascii String List ZArith Bool.
From Verif Require Import Base MemMap SpecTree SpecOps Filter Pipeline PyStr MapFile Deps SpecDeps ProofDeps2 ProofDot Fixtures.
Import ListNotations.
Open Scope list_scope.
Open Scope Z_scope.

(** a project: [log_write] of liblog.a is used by libmain.a and libfoo.a, [app_main] of
    libmain.a by liblog.a; [vec] is absolute, [gone] is not in the ELF file *)
Definition dx (s : string) : str := list_ascii_of_string s.
Definition dx_map : memmap := mk_map "esp32" 100
  [ mk_type "DRAM" 1000
      [ mk_sect ".dram0.data" ".data" [ mk_arch "esp-idf/log/liblog.a" "liblog.a" [ mk_obj "log.c.obj" [("s_level", 4)]%string ];
          mk_arch "esp-idf/foo/libfoo.a" "libfoo.a" [ mk_obj "foo.c.obj" [("foo", 4)]%string ] ] ];
    mk_type "Flash Code" 4096
      [ mk_sect ".flash.text" ".text" [ mk_arch "esp-idf/main/libmain.a" "libmain.a" [ mk_obj "main.c.obj" [("app_main()", 40)]%string ];
          mk_arch "esp-idf/log/liblog.a" "liblog.a" [ mk_obj "log.c.obj" [("log_write()", 14)]%string ] ] ] ].
Definition dx_log := dx "esp-idf/log/liblog.a".
Definition dx_main := dx "esp-idf/main/libmain.a".
Definition dx_foo := dx "esp-idf/foo/libfoo.a".
Definition dx_crt : crt_table :=
  [ (dx "log_write", [(dx_log, dx "log.c.obj"); (dx_main, dx "main.c.obj"); (dx_main, dx "other.c.obj"); (dx_foo, dx "foo.c.obj"); (dx_log, dx "util.c.obj")]);
    (dx "app_main", [(dx_main, dx "main.c.obj"); (dx_log, dx "log.c.obj")]);
    (dx "log_level", [(dx_log, dx "log.c.obj"); (dx_main, dx "main.c.obj"); (dx "libgone.a", dx "x.obj")]);
    (dx "gone", [(dx_log, dx "log.c.obj"); (dx_main, dx "main.c.obj")]);
    (dx "vec", [(dx_log, dx "log.c.obj"); (dx_main, dx "main.c.obj")]) ].
Definition dx_syms : list dsym :=
  [DSym (dx "log_write") 2 5; DSym (dx "app_main") 2 5; DSym (dx "log_level") 1 6; DSym (dx "vec") 2 65521].
(** two orders: as inserted, and reversed *)
Definition dedup (l : list str) : list str := fold_right (fun x acc => if mem x acc then acc else x :: acc) [] l.
Definition ord1 : set_order := fun _ l => dedup l.
Definition ord2 : set_order := fun _ l => List.rev (dedup l).

Lemma dedup_ok l : NoDup (dedup l) /\ forall x, In x (dedup l) <-> In x l.
Proof.
  induction l as [|y l [N I]]; cbn [dedup fold_right]; [split; [constructor|reflexivity]|]. fold (dedup l).
  destruct (mem y (dedup l)) eqn:M.
  - apply mem_In in M. split; auto. intro x. cbn. rewrite I in *. split; [tauto|]. intros [<-|J]; auto.
  - apply mem_not_In in M. split; [now constructor|]. intro x. cbn. now rewrite I.
Qed.
Lemma ord1_ok : set_iteration ord1. Proof. intros y l. apply dedup_ok. Qed.
Lemma ord2_ok : set_iteration ord2.
Proof. intros y l. destruct (dedup_ok l) as [N I]. split; [now apply NoDup_rev|]. intro x. unfold ord2. rewrite <- in_rev. apply I. Qed.
Lemma dx_proper : proper_crt dx_crt.
Proof. split; [apply nodupb_ok; reflexivity|]. intros s refs I. cbn in I. repeat destruct I as [I|I]; try contradiction; injection I as <- <-; discriminate. Qed.
Lemma dx_wf : wf_map dx_map. Proof. apply wf_mapb_ok. reflexivity. Qed.
Definition dx_args (reverse : bool) : args :=
  Args FTable false true true reverse None false None false true false false false false None None (dx "1") None false false.

(** ** C50 *)

(** both reports contain the same triples *)
Theorem c50_converse : forall ord ord' crt m syms a a' r r',
  set_iteration ord -> set_iteration ord' -> proper_crt crt -> wf_map m -> given (a_diff a) = false -> given (a_diff a') = false ->
  a_dep_reverse a = false -> a_dep_reverse a' = true ->
  get_archives_dependencies ord (Some crt) m (Some syms) a = Ok r ->
  get_archives_dependencies ord' (Some crt) m (Some syms) a' = Ok r' ->
  forall x y s, listed r x y s <-> listed r' y x s.
Proof. exact reports_converse. Qed.
Print Assumptions c50_converse.

(** the table that is read from a map file is one *)
Theorem c50_table_read : forall lines m crt, map_file lines = Ok m -> pm_crt m = Some crt -> proper_crt crt.
Proof. exact map_crt_proper. Qed.
Print Assumptions c50_table_read.

Example c50_example : set_iteration ord1 /\ set_iteration ord2 /\ proper_crt dx_crt /\ wf_map dx_map /\
  exists r r', get_archives_dependencies ord1 (Some dx_crt) dx_map (Some dx_syms) (dx_args false) = Ok r /\
    get_archives_dependencies ord2 (Some dx_crt) dx_map (Some dx_syms) (dx_args true) = Ok r' /\
    map fst r = [dx_main; dx_foo; dx_log] /\ map fst r' = [dx_log; dx_main] /\ listed r dx_foo dx_log (dx "log_write").
Proof.
  split; [exact ord1_ok|]. split; [exact ord2_ok|]. split; [exact dx_proper|]. split; [exact dx_wf|]. eexists _, _.
  split; [vm_compute; reflexivity|]. split; [vm_compute; reflexivity|]. split; [reflexivity|]. split; [reflexivity|].
  eexists _, _. split; [reflexivity|]. split; [reflexivity|]. now left.
Qed.

(** ** C51 *)

(** the report exists, lists exactly the uses, every symbol once, with the sizes of the archives *)
Theorem c51_report : forall ord crt m syms a, set_iteration ord -> proper_crt crt -> wf_map m -> given (a_diff a) = false ->
  exists r, get_archives_dependencies ord (Some crt) m (Some syms) a = Ok r /\
    (forall x y s, listed r x y s <-> if a_dep_reverse a then uses crt m syms y x s else uses crt m syms x y s) /\
    (forall x d, dget x r = Some d -> da_abbrev d = basename x /\ da_size d = archive_size m x /\ (exists y s, listed r x y s) /\
       forall y e, dget y (da_archives d) = Some e ->
         de_abbrev e = basename y /\ de_size e = archive_size m y /\ NoDup (de_symbols e) /\ de_symbols e <> []).
Proof. exact report_ok. Qed.
Print Assumptions c51_report.

Example c51_example : uses dx_crt dx_map dx_syms dx_main dx_log (dx "log_level") /\ ~ elf_symbol dx_syms (dx "vec") /\ archive_size dx_map dx_log = 18 /\
  exists r, get_archives_dependencies ord1 (Some dx_crt) dx_map (Some dx_syms) (dx_args false) = Ok r /\
  option_map (fun d => (da_abbrev d, da_size d, da_archives d)) (dget dx_main r) =
    Some (dx "libmain.a", 40, [(dx_log, DEnt (dx "liblog.a") 18 [dx "log_write"; dx "log_level"])]).
Proof.
  split; [|split; [|split; [reflexivity|]]].
  - split; [|split; [discriminate|split; [|split]]].
    + eexists _, _. split; [reflexivity|]. split; [reflexivity|]. now left.
    + exists (dx "Flash Code"), (dx ".flash.text"). discriminate.
    + exists (dx "DRAM"), (dx ".dram0.data"). discriminate.
    + eexists. split; [right; right; left; reflexivity|]. split; [reflexivity|]. split; [now right|discriminate].
  - intros (y & I & E & _ & A). cbn in I. repeat destruct I as [I|I]; try contradiction; subst y; try discriminate. now apply A.
  - eexists. split; [vm_compute; reflexivity|]. reflexivity.
Qed.

(** ** C69 *)

(** full statement: unifying the map (--unify) loses no dependency: what was listed is
    listed between the unified names.
    Refuted: the unified map has abbreviated names, the cross reference table has paths, so
    no archive with a directory in its name is found. *)
Theorem c69_unify_refuted : exists ord crt m syms a r r',
  set_iteration ord /\ proper_crt crt /\ wf_map m /\
  get_archives_dependencies ord (Some crt) m (Some syms) a = Ok r /\ r <> [] /\
  get_archives_dependencies ord (Some crt) (unify m) (Some syms) a = Ok r' /\ r' = [].
Proof.
  exists ord1, dx_crt, dx_map, dx_syms, (dx_args false). eexists _, _.
  split; [exact ord1_ok|]. split; [exact dx_proper|]. split; [exact dx_wf|].
  split; [vm_compute; reflexivity|]. split; [discriminate|]. split; [vm_compute; reflexivity|reflexivity].
Qed.
Print Assumptions c69_unify_refuted.

(** ** C52 *)

(** full statement: the report is the same for all orders of iteration over sets.
    Proved up to the order of the entries, and refuted for the order. *)
Theorem c52_order_partial : forall ord ord' crt m syms a r r', set_iteration ord -> set_iteration ord' -> proper_crt crt ->
  get_archives_dependencies ord (Some crt) m (Some syms) a = Ok r ->
  get_archives_dependencies ord' (Some crt) m (Some syms) a = Ok r' -> same_report r r'.
Proof. exact reports_same. Qed.
Print Assumptions c52_order_partial.

Theorem c52_order_refuted : exists ord ord' crt m syms a r r', set_iteration ord /\ set_iteration ord' /\ proper_crt crt /\ wf_map m /\
  get_archives_dependencies ord (Some crt) m (Some syms) a = Ok r /\
  get_archives_dependencies ord' (Some crt) m (Some syms) a = Ok r' /\ map fst r <> map fst r'.
Proof.
  exists ord1, ord2, dx_crt, dx_map, dx_syms, (dx_args false). eexists _, _.
  split; [exact ord1_ok|]. split; [exact ord2_ok|]. split; [exact dx_proper|]. split; [exact dx_wf|].
  split; [vm_compute; reflexivity|]. split; [vm_compute; reflexivity|]. discriminate.
Qed.
Print Assumptions c52_order_refuted.

Example c52_example : exists r r', get_archives_dependencies ord1 (Some dx_crt) dx_map (Some dx_syms) (dx_args false) = Ok r /\
  get_archives_dependencies ord2 (Some dx_crt) dx_map (Some dx_syms) (dx_args false) = Ok r' /\ same_report r r'.
Proof.
  eexists _, _. split; [vm_compute; reflexivity|]. split; [vm_compute; reflexivity|].
  apply (c52_order_partial ord1 ord2 dx_crt dx_map dx_syms (dx_args false)); [exact ord1_ok|exact ord2_ok|exact dx_proper|vm_compute; reflexivity|vm_compute; reflexivity].
Qed.

(** ** C58 *)

(** node names are declared once; the edges are the (filtered) report's, each once, with
    its symbols, and both ends are declared; a node is drawn as a box exactly if it is in
    the report, with label and size as in the report *)
Theorem c58_graph : forall ord crt m syms a r lines, set_iteration ord -> proper_crt crt ->
  get_archives_dependencies ord (Some crt) m (Some syms) a = Ok r ->
  dot_show ord (Some crt) m (Some syms) a = Ok lines ->
  let shown := summary_filtered da_abbrev r a in
  NoDup (flat_map node_name lines) /\ NoDup (flat_map edge_of lines) /\
  (forall x y ss, In (DotEdge x y ss) lines <->
     exists d e, dget (if a_dep_reverse a then y else x) shown = Some d /\ dget (if a_dep_reverse a then x else y) (da_archives d) = Some e /\
       ss = if a_dep_symbols a then Some (de_symbols e) else None) /\
  (forall x y, In (x, y) (flat_map edge_of lines) -> In x (flat_map node_name lines) /\ In y (flat_map node_name lines)) /\
  (forall n l z o, In (DotNode n l z o) lines ->
     (o = true <-> dget n shown <> None) /\
     ((exists d, dget n shown = Some d /\ l = (if a_abbrev a then da_abbrev d else n) /\ z = da_size d) \/
      (exists x d e, dget x shown = Some d /\ dget n (da_archives d) = Some e /\ l = (if a_abbrev a then de_abbrev e else n) /\ z = de_size e))) /\
  (forall n, dget n shown <> None -> In n (flat_map node_name lines)).
Proof. exact dot_graph_ok. Qed.
Print Assumptions c58_graph.

Example c58_example : exists lines, dot_show ord1 (Some dx_crt) dx_map (Some dx_syms) (dx_args true) = Ok lines /\
  flat_map node_name lines = [dx_log; dx_main; dx_foo] /\
  flat_map edge_of lines = [(dx_main, dx_log); (dx_foo, dx_log); (dx_log, dx_main)] /\
  In (DotNode dx_foo (dx "libfoo.a") 4 false) lines /\ In (DotEdge dx_main dx_log (Some [dx "log_write"; dx "log_level"])) lines.
Proof. eexists. split; [vm_compute; reflexivity|]. split; [reflexivity|]. split; [reflexivity|]. cbn. auto 10. Qed.
