From Coq Require Import Ascii String List ZArith Lia Bool.
From Verif Require Import Base MemMap SpecTree Filter Pipeline SpecBuild ProofStrip ProofOps PyStr MapFile Deps Table Formats Main SpecMain ProofMain ProofMain2.
Import ListNotations.
Open Scope list_scope.
Open Scope Z_scope.

Local Arguments dmap : simpl never.
Local Arguments dmapk : simpl never.

(** ** Symbols do not influence the rest *)

Lemma dmap_cons {V W} (f : V -> W) k v (d : dict str V) : dmap f ((k, v) :: d) = (k, f v) :: dmap f d.
Proof. reflexivity. Qed.

Lemma dmap_filter {V} (f : V -> V) (p : str * V -> bool) (d : dict str V) : (forall k v, p (k, f v) = p (k, v)) ->
  filter p (dmap f d) = dmap f (filter p d).
Proof.
  intros H. induction d as [|[k v] d IH]; [reflexivity|]. rewrite dmap_cons. cbn [filter]. rewrite H, IH.
  destruct (p (k, v)); reflexivity.
Qed.
Lemma dmap_dmap {V W U} (f : V -> W) (g : W -> U) (d : dict str V) : dmap g (dmap f d) = dmap (fun v => g (f v)) d.
Proof. unfold dmap. rewrite map_map. reflexivity. Qed.
Lemma dmap_ext {V W} (f g : V -> W) (d : dict str V) : (forall v, f v = g v) -> dmap f d = dmap g d.
Proof. intros H. apply map_ext. intros [k v]. cbn. rewrite H. reflexivity. Qed.
Lemma fold_dmap {V W A} (f : V -> W) (g : A -> str * W -> A) (h : A -> str * V -> A) (d : dict str V) : (forall s k v, g s (k, f v) = h s (k, v)) ->
  forall s, fold_left g (dmap f d) s = fold_left h d s.
Proof. intros H. induction d as [|[k v] d IH]; intros s; [reflexivity|]. rewrite dmap_cons. cbn [fold_left]. rewrite H. apply IH. Qed.
Lemma empty_dmap {V W} (f : V -> W) (d : dict str V) : (match dmap f d with [] => false | _ => true end) = (match d with [] => false | _ => true end).
Proof. destruct d; reflexivity. Qed.

Lemma strip_remove_unused m : remove_unused (strip_map m) = strip_map (remove_unused m).
Proof.
  unfold remove_unused, strip_map, with_types. cbn. f_equal.
  rewrite dmap_filter by reflexivity. rewrite !dmap_dmap. apply dmap_ext. intros t.
  unfold remove_unused_type, strip_type. cbn.
  rewrite dmap_filter by (intros k v; unfold strip_sect; cbn; apply empty_dmap). f_equal.
  apply fold_dmap. intros. reflexivity.
Qed.

Lemma dmapk_dmap {V W U} (f : V -> W) (g : str -> W -> U) (d : dict str V) : dmapk g (dmap f d) = dmapk (fun k v => g k (f v)) d.
Proof. unfold dmapk, dmap. rewrite map_map. reflexivity. Qed.
Lemma dmap_dmapk {V W U} (f : str -> V -> W) (g : W -> U) (d : dict str V) : dmap g (dmapk f d) = dmapk (fun k v => g (f k v)) d.
Proof. unfold dmapk, dmap. rewrite map_map. reflexivity. Qed.
Lemma dmapk_ext {V W} (f g : str -> V -> W) (d : dict str V) : (forall k v, f k v = g k v) -> dmapk f d = dmapk g d.
Proof. intros H. apply map_ext. intros [k v]. cbn. rewrite H. reflexivity. Qed.

Lemma strip_ignore m : ignore_flash_size (strip_map m) = strip_map (ignore_flash_size m).
Proof.
  unfold ignore_flash_size, strip_map, with_types. cbn. f_equal. rewrite dmapk_dmap, dmap_dmapk. apply dmapk_ext.
  intros k t. destruct (is_flash k); reflexivity.
Qed.

Lemma strip_merge {C} (f : C -> C) (mc : C -> C -> C) : (forall x y, mc (f x) (f y) = f (mc x y)) -> forall b a,
  merge_level mc (dmap f a) (dmap f b) = dmap f (merge_level mc a b).
Proof.
  intros H. unfold merge_level. induction b as [|[k v] b IH]; intros a; [reflexivity|]. rewrite !dmap_cons. cbn [fold_left fst snd].
  rewrite dget_dmap. destruct (dget k a) as [x|]; cbn [option_map]; rewrite ?H, <- dmap_dset; apply IH.
Qed.

Lemma strip_merge_obj d r : merge_obj (strip_obj d) (strip_obj r) = strip_obj (merge_obj d r).
Proof. reflexivity. Qed.
Lemma strip_merge_arch d r : merge_arch (strip_arch d) (strip_arch r) = strip_arch (merge_arch d r).
Proof. unfold merge_arch, merge_node, strip_arch. cbn [n_abbrev n_size n_diff n_sub t_size t_size_diff t_used t_used_diff t_sections m_types m_target m_target_diff m_image_size m_image_size_diff m_project_path m_project_path_diff fst snd]. rewrite strip_merge by exact strip_merge_obj. reflexivity. Qed.
Lemma strip_merge_sect d r : merge_sect (strip_sect d) (strip_sect r) = strip_sect (merge_sect d r).
Proof. unfold merge_sect, merge_node, strip_sect. cbn [n_abbrev n_size n_diff n_sub t_size t_size_diff t_used t_used_diff t_sections m_types m_target m_target_diff m_image_size m_image_size_diff m_project_path m_project_path_diff fst snd]. rewrite strip_merge by exact strip_merge_arch. reflexivity. Qed.
Lemma strip_merge_type d r : merge_type (strip_type d) (strip_type r) = strip_type (merge_type d r).
Proof. unfold merge_type, strip_type. cbn [n_abbrev n_size n_diff n_sub t_size t_size_diff t_used t_used_diff t_sections m_types m_target m_target_diff m_image_size m_image_size_diff m_project_path m_project_path_diff fst snd]. rewrite strip_merge by exact strip_merge_sect. reflexivity. Qed.

Lemma map_dmap {V W A} (f : V -> W) (g : str * W -> A) (d : dict str V) : map g (dmap f d) = map (fun kv => g (fst kv, f (snd kv))) d.
Proof. unfold dmap. rewrite map_map. reflexivity. Qed.

Lemma strip_fix_node {C} (f : C -> C) (g : option C -> option C -> C -> C) (cur ref : option (node C)) (d : node C) :
  (forall a b x, g (option_map f a) (option_map f b) (f x) = f (g a b x)) ->
  let st (n : node C) := Node (n_abbrev n) (n_size n) (n_diff n) (dmap f (n_sub n)) in
  fix_node g (option_map st cur) (option_map st ref) (st d) = st (fix_node g cur ref d).
Proof.
  intros H st.
  assert (Q : forall k (o : option (node C)), sub_get k (option_map st o) = option_map f (sub_get k o)).
  { intros k [n|]; [|reflexivity]. cbn. apply dget_dmap. }
  assert (E : map (fun kv => (fst kv, g (sub_get (fst kv) (option_map st cur)) (sub_get (fst kv) (option_map st ref)) (snd kv))) (n_sub (st d)) =
    dmap f (map (fun kv => (fst kv, g (sub_get (fst kv) cur) (sub_get (fst kv) ref) (snd kv))) (n_sub d))).
  { cbn [st n_sub]. rewrite map_dmap. unfold dmap. rewrite map_map. apply map_ext. intros [k v]. cbn [fst snd]. rewrite !Q, H. reflexivity. }
  unfold fix_node. rewrite E. destruct cur, ref; reflexivity.
Qed.

Lemma strip_fix_obj a b x : fix_obj (option_map strip_obj a) (option_map strip_obj b) (strip_obj x) = strip_obj (fix_obj a b x).
Proof. unfold fix_obj, fix_node. destruct a, b; reflexivity. Qed.
Lemma strip_fix_arch a b x : fix_arch (option_map strip_arch a) (option_map strip_arch b) (strip_arch x) = strip_arch (fix_arch a b x).
Proof. exact (strip_fix_node strip_obj fix_obj a b x strip_fix_obj). Qed.
Lemma strip_fix_sect a b x : fix_sect (option_map strip_sect a) (option_map strip_sect b) (strip_sect x) = strip_sect (fix_sect a b x).
Proof. exact (strip_fix_node strip_arch fix_arch a b x strip_fix_arch). Qed.
Lemma strip_fix_type a b x : fix_type (option_map strip_type a) (option_map strip_type b) (strip_type x) = strip_type (fix_type a b x).
Proof.
  assert (Q : forall k (o : option mtype), type_get k (option_map strip_type o) = option_map strip_sect (type_get k o)).
  { intros k [n|]; [|reflexivity]. cbn. apply dget_dmap. }
  assert (E : map (fun kv => (fst kv, fix_sect (type_get (fst kv) (option_map strip_type a)) (type_get (fst kv) (option_map strip_type b)) (snd kv))) (t_sections (strip_type x)) =
    dmap strip_sect (map (fun kv => (fst kv, fix_sect (type_get (fst kv) a) (type_get (fst kv) b) (snd kv))) (t_sections x))).
  { cbn [strip_type t_sections]. rewrite map_dmap. unfold dmap. rewrite map_map. apply map_ext. intros [k v]. cbn [fst snd].
    rewrite !Q, strip_fix_sect. reflexivity. }
  unfold fix_type. rewrite E. destruct a, b; reflexivity.
Qed.

Lemma strip_diff a b : diff (strip_map a) (strip_map b) = strip_map (diff a b).
Proof.
  unfold diff, strip_map. cbn [n_abbrev n_size n_diff n_sub t_size t_size_diff t_used t_used_diff t_sections m_types m_target m_target_diff m_image_size m_image_size_diff m_project_path m_project_path_diff fst snd]. f_equal. rewrite strip_merge by exact strip_merge_type. rewrite map_dmap. unfold dmap at 3. rewrite map_map.
  apply map_ext. intros [k v]. cbn [fst snd]. rewrite !dget_dmap, strip_fix_type. reflexivity.
Qed.

Lemma strip_unify_items {C} (f : C -> C) (ab : C -> str) (new : C -> C) (add : C -> C -> C) :
  (forall x, ab (f x) = ab x) -> (forall x, new (f x) = f (new x)) -> (forall u x, add (f u) (f x) = f (add u x)) ->
  forall orig uni, unify_items ab new add (dmap f orig) (dmap f uni) = dmap f (unify_items ab new add orig uni).
Proof.
  intros H1 H2 H3. unfold unify_items. induction orig as [|[k v] l IH]; intros uni; [reflexivity|]. rewrite !dmap_cons. cbn [fold_left fst snd].
  rewrite H1, dget_dmap. destruct (dget (ab v) uni); cbn [option_map]; rewrite ?H2, ?H3, <- dmap_dset; apply IH.
Qed.
Lemma strip_unify_objs o u : unify_objs (dmap strip_obj o) (dmap strip_obj u) = dmap strip_obj (unify_objs o u).
Proof. apply strip_unify_items; reflexivity. Qed.
Lemma strip_unify_archs o u : unify_archs (dmap strip_arch o) (dmap strip_arch u) = dmap strip_arch (unify_archs o u).
Proof.
  apply strip_unify_items; [reflexivity| |].
  - intros x. unfold unify_new_node, strip_arch. cbn [n_abbrev n_size n_diff n_sub t_size t_size_diff t_used t_used_diff t_sections m_types m_target m_target_diff m_image_size m_image_size_diff m_project_path m_project_path_diff fst snd]. rewrite <- (strip_unify_objs _ []). reflexivity.
  - intros w x. unfold unify_add_node, strip_arch. cbn [n_abbrev n_size n_diff n_sub t_size t_size_diff t_used t_used_diff t_sections m_types m_target m_target_diff m_image_size m_image_size_diff m_project_path m_project_path_diff fst snd]. rewrite strip_unify_objs. reflexivity.
Qed.
Lemma strip_unify_sects o u : unify_sects (dmap strip_sect o) (dmap strip_sect u) = dmap strip_sect (unify_sects o u).
Proof.
  apply strip_unify_items; [reflexivity| |].
  - intros x. unfold unify_new_node, strip_sect. cbn [n_abbrev n_size n_diff n_sub t_size t_size_diff t_used t_used_diff t_sections m_types m_target m_target_diff m_image_size m_image_size_diff m_project_path m_project_path_diff fst snd]. rewrite <- (strip_unify_archs _ []). reflexivity.
  - intros w x. unfold unify_add_node, strip_sect. cbn [n_abbrev n_size n_diff n_sub t_size t_size_diff t_used t_used_diff t_sections m_types m_target m_target_diff m_image_size m_image_size_diff m_project_path m_project_path_diff fst snd]. rewrite strip_unify_archs. reflexivity.
Qed.
Lemma strip_unify m : unify (strip_map m) = strip_map (unify m).
Proof.
  unfold unify, strip_map, with_types. cbn [n_abbrev n_size n_diff n_sub t_size t_size_diff t_used t_used_diff t_sections m_types m_target m_target_diff m_image_size m_image_size_diff m_project_path m_project_path_diff fst snd]. f_equal. rewrite !dmap_dmap. apply dmap_ext. intros t. unfold unify_type, strip_type. cbn [n_abbrev n_size n_diff n_sub t_size t_size_diff t_used t_used_diff t_sections m_types m_target m_target_diff m_image_size m_image_size_diff m_project_path m_project_path_diff fst snd].
  rewrite <- (strip_unify_sects _ []). reflexivity.
Qed.

(** ** Reports *)

Definition strip_w (w : wtuple) : wtuple :=
  WTuple (fst (w_type w), strip_type (snd (w_type w)))
    (option_map (fun s => (fst s, strip_sect (snd s))) (w_sect w))
    (option_map (fun s => (fst s, strip_arch (snd s))) (w_arch w))
    (option_map (fun s => (fst s, strip_obj (snd s))) (w_obj w)) (w_sym w).

Lemma walk_strip_arch m : walk (strip_map m) DArchives = map strip_w (walk m DArchives).
Proof.
  unfold walk. rewrite map_flat_map. cbn [strip_map m_types]. unfold dmap at 1. rewrite flat_map_map. apply flat_map_ext. intros [t T].
  cbn [fst snd strip_type t_sections]. rewrite map_flat_map. unfold dmap at 1. rewrite flat_map_map. apply flat_map_ext. intros [s X].
  cbn [fst snd strip_sect n_sub]. rewrite map_flat_map. unfold dmap at 1. rewrite flat_map_map. apply flat_map_ext. intros [x A]. reflexivity.
Qed.
Lemma walk_strip_obj m : walk (strip_map m) DObjects = map strip_w (walk m DObjects).
Proof.
  unfold walk. rewrite map_flat_map. cbn [strip_map m_types]. unfold dmap at 1. rewrite flat_map_map. apply flat_map_ext. intros [t T].
  cbn [fst snd strip_type t_sections]. rewrite map_flat_map. unfold dmap at 1. rewrite flat_map_map. apply flat_map_ext. intros [s X].
  cbn [fst snd strip_sect n_sub]. rewrite map_flat_map. unfold dmap at 1. rewrite flat_map_map. apply flat_map_ext. intros [x A].
  cbn [fst snd strip_arch n_sub]. rewrite map_flat_map. unfold dmap at 1. rewrite flat_map_map. apply flat_map_ext. intros [o O]. reflexivity.
Qed.

Lemma fold_left_map {A B S} (f : A -> B) (g : S -> B -> S) l : forall s, fold_left g (map f l) s = fold_left (fun s a => g s (f a)) l s.
Proof. induction l as [|a l IH]; intros s; [reflexivity|]. cbn. apply IH. Qed.
Lemma fold_left_ext {A S} (f g : S -> A -> S) l : (forall s a, f s a = g s a) -> forall s, fold_left f l s = fold_left g l s.
Proof. intros H. induction l as [|a l IH]; intros s; [reflexivity|]. cbn. rewrite H. apply IH. Qed.

Lemma mts_strip m : get_summary_memory_types (strip_map m) = get_summary_memory_types m.
Proof.
  unfold get_summary_memory_types. cbn [strip_map m_types]. apply fold_dmap. intros acc k t. cbn. f_equal. f_equal.
  apply fold_dmap. intros. reflexivity.
Qed.
Lemma archives_strip m a : get_archives_summary (strip_map m) a = get_archives_summary m a.
Proof.
  unfold get_archives_summary, archives_summary_raw. rewrite mts_strip, walk_strip_arch, fold_left_map. f_equal.
  apply fold_left_ext. intros acc [t [s|] [x|] o y]; reflexivity.
Qed.
Lemma objects_strip m a : get_object_files_summary (strip_map m) a = get_object_files_summary m a.
Proof.
  unfold get_object_files_summary, object_files_summary_raw. rewrite mts_strip, walk_strip_obj, fold_left_map. f_equal.
  apply fold_left_ext. intros acc [t [s|] [x|] [o|] y]; reflexivity.
Qed.

Lemma trim_strip m a : trim (strip_map m) a = strip_map (trim m a).
Proof.
  unfold trim, strip_map, with_types. cbn [n_abbrev n_size n_diff n_sub t_size t_size_diff t_used t_used_diff t_sections m_types m_target m_target_diff m_image_size m_image_size_diff m_project_path m_project_path_diff fst snd]. f_equal. rewrite dmap_filter by reflexivity. rewrite !dmap_dmap. apply dmap_ext. intros t.
  unfold trim_type, strip_type. cbn [n_abbrev n_size n_diff n_sub t_size t_size_diff t_used t_used_diff t_sections m_types m_target m_target_diff m_image_size m_image_size_diff m_project_path m_project_path_diff fst snd]. f_equal. rewrite dmap_filter by reflexivity. rewrite !dmap_dmap. apply dmap_ext. intros s.
  unfold trim_sect, strip_sect. cbn [n_abbrev n_size n_diff n_sub t_size t_size_diff t_used t_used_diff t_sections m_types m_target m_target_diff m_image_size m_image_size_diff m_project_path m_project_path_diff fst snd]. f_equal. rewrite dmap_filter by (intros; destruct (trim_depth_of a); reflexivity).
  rewrite !dmap_dmap. apply dmap_ext. intros x.
  unfold trim_arch, strip_arch. cbn. f_equal. destruct (trim_depth_of a) eqn:D; try reflexivity.
  all: rewrite dmap_filter by reflexivity; rewrite !dmap_dmap; apply dmap_ext; intros o; unfold trim_obj, strip_obj; cbn; rewrite D; reflexivity.
Qed.
(** nothing is below the level shown *)
Lemma trim_stripped m a : given (a_archive_details a) = false -> a_archives a || a_files a = true -> strip_map (trim m a) = trim m a.
Proof.
  intros G O. unfold trim, strip_map, with_types. cbn [n_abbrev n_size n_diff n_sub t_size t_size_diff t_used t_used_diff t_sections m_types m_target m_target_diff m_image_size m_image_size_diff m_project_path m_project_path_diff fst snd]. f_equal. rewrite !dmap_dmap. apply dmap_ext. intros t.
  unfold trim_type, strip_type. cbn [n_abbrev n_size n_diff n_sub t_size t_size_diff t_used t_used_diff t_sections m_types m_target m_target_diff m_image_size m_image_size_diff m_project_path m_project_path_diff fst snd]. f_equal. rewrite !dmap_dmap. apply dmap_ext. intros s.
  unfold trim_sect, strip_sect. cbn [n_abbrev n_size n_diff n_sub t_size t_size_diff t_used t_used_diff t_sections m_types m_target m_target_diff m_image_size m_image_size_diff m_project_path m_project_path_diff fst snd]. f_equal. rewrite !dmap_dmap. apply dmap_ext. intros x.
  unfold trim_arch, strip_arch. cbn. f_equal. unfold trim_obj, trim_depth_of. rewrite G. destruct (a_archives a); [reflexivity|].
  cbn in O. rewrite O. rewrite dmap_dmap. apply dmap_ext. intros o. reflexivity.
Qed.

Lemma insert_dmap {V W} (f : V -> W) (kv : str * V -> Z) (kw : str * W -> Z) r : (forall k v, kw (k, f v) = kv (k, v)) ->
  forall (l : dict str V) k v, insert_sorted kw r (k, f v) (dmap f l) = dmap f (insert_sorted kv r (k, v) l).
Proof.
  intros H. induction l as [|[k' v'] l IH]; intros k v; [reflexivity|]. rewrite dmap_cons. cbn [insert_sorted]. unfold before. rewrite !H, IH.
  destruct r; [destruct (kv (k', v') <=? kv (k, v))|destruct (kv (k, v) <=? kv (k', v'))]; reflexivity.
Qed.
Lemma sort_dmap {V W} (f : V -> W) (kv : V -> Z) (kw : W -> Z) r (d : dict str V) : (forall v, kw (f v) = kv v) ->
  sort_dict_by_key kw r (dmap f d) = dmap f (sort_dict_by_key kv r d).
Proof.
  intros H. unfold sort_dict_by_key. induction d as [|[k v] d IH]; [reflexivity|]. rewrite dmap_cons. cbn [py_sorted]. rewrite IH.
  apply insert_dmap. intros. apply H.
Qed.

Lemma sect_usage_strip t s : sect_usage (strip_type t) (strip_sect s) = sect_usage t s.
Proof. reflexivity. Qed.

Lemma summary_strip pf m a : get_summary_table pf (strip_map m) a = get_summary_table pf m a.
Proof.
  unfold get_summary_table. rewrite trim_strip. destruct (sort_column usage_headers (a_sort a)) as [z|e]; [|reflexivity].
  destruct (py_nth _ (key_index z)) as [k|]; [|reflexivity]. f_equal. f_equal. cbn [strip_map m_types].
  rewrite (sort_dmap strip_type (fun t => usage_key a k (type_usage t))) by reflexivity.
  unfold dmap at 1. rewrite flat_map_map. apply flat_map_ext. intros [t T]. cbn [fst snd].
  change (type_row pf a t (strip_type T)) with (type_row pf a t T). f_equal.
  cbn [strip_type t_sections]. fold (strip_type T).
  rewrite (sort_dmap strip_sect (fun s => usage_key a k (sect_usage T s))) by reflexivity.
  rewrite map_dmap. apply map_ext. intros [s X]. reflexivity.
Qed.

Lemma json_strip m a : json_summary (strip_map m) a = json_summary m a.
Proof.
  unfold json_summary. cbn [strip_map m_image_size]. f_equal. unfold sort, with_types. cbn [m_types strip_map].
  rewrite (sort_dmap strip_type (type_key a)) by reflexivity. rewrite dmap_dmap, !map_dmap. apply map_ext. intros [t T].
  unfold json_type. cbn [fst snd strip_type sort_type t_size t_used t_sections]. f_equal.
  rewrite (sort_dmap strip_sect (node_key a)) by reflexivity. rewrite dmap_dmap.
  transitivity (fold_left (fun d s => dset (Table.shown a (fst s) (n_abbrev (snd s))) (n_size (snd s)) d) (sort_dict_by_key (node_key a) (a_sort_reverse a) (t_sections T)) []).
  - apply fold_dmap. reflexivity.
  - symmetry. apply fold_dmap. reflexivity.
Qed.

Lemma deps_strip ord crt m syms a : get_archives_dependencies ord crt (strip_map m) syms a = get_archives_dependencies ord crt m syms a.
Proof. unfold get_archives_dependencies. rewrite archives_strip. reflexivity. Qed.

Lemma tree_strip m a : given (a_archive_details a) = false -> a_archives a || a_files a = true -> tree_lines (strip_map m) a = tree_lines m a.
Proof. intros G O. unfold tree_lines. rewrite trim_strip, trim_stripped by assumption. reflexivity. Qed.

Lemma table_of_strip x m a : given (a_archive_details a) = false -> table_of x (strip_map m) a = table_of x m a.
Proof.
  intros G. unfold table_of. rewrite G. unfold get_archives_table, get_object_files_table, get_archives_dependencies_table.
  rewrite archives_strip, objects_strip, summary_strip, deps_strip. reflexivity.
Qed.

(** a report that shows no symbols is the same *)
Lemma show_strip x m a : shows_symbols a = false -> show x (strip_map m) a = show x m a.
Proof.
  unfold shows_symbols. intros G. apply orb_false_elim in G. destruct G as [G S]. unfold show. destruct (a_format a); try discriminate S.
  - unfold table_show. rewrite table_of_strip by exact G. reflexivity.
  - unfold table_show. rewrite table_of_strip by exact G. reflexivity.
  - unfold tree_show. rewrite deps_strip. destruct (a_archive_dependencies a); [reflexivity|].
    rewrite tree_strip; [reflexivity|exact G|]. destruct (a_archives a), (a_files a); try reflexivity. discriminate S.
  - unfold csv_show. rewrite table_of_strip by exact G. reflexivity.
  - unfold json_show. rewrite archives_strip, objects_strip, json_strip, deps_strip, G. reflexivity.
  - unfold dot_show_prog, dot_show. rewrite deps_strip. reflexivity.
Qed.

(** the memory map handed to the format *)
Lemma prepare_strip a m : prepare a (strip_map m) = strip_map (prepare a m).
Proof. unfold prepare. destruct (a_show_unused a), (a_use_flash_size a); rewrite ?strip_remove_unused, ?strip_ignore; reflexivity. Qed.

Lemma compare_strip projects a m s m1 s1 : compare true projects a m no_faults s = (Done m1, s1) ->
  compare false projects a (strip_map m) no_faults s = (Done (strip_map m1), s1).
Proof.
  unfold compare. destruct (a_diff a) as [[|c d]|]; try (intros E; inversion E; subst; reflexivity).
  destruct (get (p_world (projects (c :: d))) true (a_use_dwarf a) None None) as [[r mf]|e] eqn:G; [|intros E; discriminate E].
  rewrite (get_strip _ _ _ _ _ _ G). unfold andthen, compute, andthen, tick, no_faults, ret. cbn [fst snd].
  set (r' := if a_show_unused a then r else remove_unused r).
  assert (R : (if a_show_unused a then strip_map r else remove_unused (strip_map r)) = strip_map r').
  { unfold r'. destruct (a_show_unused a); [reflexivity|apply strip_remove_unused]. }
  rewrite R. set (m' := if a_use_flash_size a then m else ignore_flash_size m).
  assert (M : (if a_use_flash_size a then strip_map m else ignore_flash_size (strip_map m)) = strip_map m').
  { unfold m'. destruct (a_use_flash_size a); [reflexivity|apply strip_ignore]. }
  rewrite M, strip_diff. cbn [strip_map m_target m_target_diff].
  destruct (m_target (diff m' r') =?= m_target_diff (diff m' r')); intros E; inversion E; subst; reflexivity.
Qed.

Lemma analyse_strip ord pf projects i a s x m s1 : analyse true ord pf projects i a no_faults s = (Done (x, m), s1) ->
  analyse false ord pf projects i a no_faults s = (Done (x, strip_map m), s1).
Proof.
  unfold analyse. destruct (w_mapfile (p_world (projects i))) as [mf|e]; [|intros E; discriminate E].
  unfold andthen at 1 6. cbn [compute]. unfold andthen, compute, andthen, tick, no_faults.
  destruct (w_elf (p_world (projects i))) as [e|]; [|intros E; discriminate E].
  destruct (get (p_world (projects i)) true (a_use_dwarf a) (Some mf) e) as [[m0 mf']|] eqn:G; [|intros E; discriminate E].
  rewrite (get_strip _ _ _ _ _ _ G). rewrite prepare_strip. fold no_faults.
  destruct (compare true projects a (prepare a m0) no_faults _) as [[m1|e1|] s2] eqn:C; intros E; try discriminate E.
  rewrite (compare_strip _ _ _ _ _ _ C). inversion E; subst. unfold ret. destruct (a_unify a); [rewrite strip_unify|]; reflexivity.
Qed.

Section Run.
  Variable render : console -> list piece -> str.
  Variable encode : str -> str.
  Variable ord : set_order.
  Variable pf : pct_format.
  Variable projects : str -> project.

  Lemma shows_normal a : shows_symbols (set_abbrev (negb (a_no_abbrev (without_conflicts a))) (without_conflicts a)) = shows_symbols a.
  Proof. reflexivity. Qed.
  Lemma shows_load a : shows_symbols a = false -> load_symbols a = false.
  Proof.
    unfold shows_symbols, load_symbols. intros H. apply orb_false_elim in H. destruct H as [-> H]. destruct (a_format a); try reflexivity. discriminate H.
  Qed.

  (** loading symbols for a report that does not show them changes nothing *)
  Lemma symbols_irrelevant ls c s s1 : shows_symbols (c_args c) = false ->
    run_with render encode ls ord pf projects c no_faults s = (Done tt, s1) ->
    run_cmd render encode ord pf projects c no_faults s = (Done tt, s1).
  Proof.
    intros H. unfold run_cmd. rewrite !run_after. unfold handle. unfold andthen at 1 2.
    destruct (set_console (console_of c) no_faults s) as [x t] eqn:Es. destruct x as [[]|e|]; [| |intros E; discriminate E].
    2: { cbn in Es. discriminate Es. }
    unfold after_console. unfold andthen at 1 2. destruct (normalise_result (c_args c) t) as (t1 & N1 & _ & _). rewrite N1.
    set (a0 := set_abbrev _ _). assert (H0 : shows_symbols a0 = false) by (unfold a0; rewrite shows_normal; exact H). clearbody a0.
    unfold later, tail. unfold andthen at 1 3. cbn zeta. set (a := set_use_dwarf (dwarf_option a0) a0).
    assert (Ha : shows_symbols a = false) by exact H0.
    rewrite (shows_load a Ha). destruct (ls a) eqn:Ls; [|auto].
    unfold andthen at 1 2.
    destruct (analyse true ord pf projects (c_input c) a no_faults t1) as [[[x m]|e|] t2] eqn:A.
    - rewrite (analyse_strip _ _ _ _ _ _ _ _ _ A). rewrite show_strip by exact Ha. auto.
    - destruct (on_exception e) as [k|] eqn:K; [|intros E; discriminate E]. intros E. destruct (handler_raises _ _ _ _ _ _ K E).
    - intros E; discriminate E.
  Qed.

  (** --lto counts only for detailed reports *)
  Lemma lto_ignored c o s : a_use_dwarf (c_args c) = Some true ->
    given (a_archive_details (c_args c)) = false -> a_archives (c_args c) = false -> a_files (c_args c) = false -> a_format (c_args c) <> FRaw ->
    run_cmd render encode ord pf projects c o s =
    run_cmd render encode ord pf projects (with_args c (set_use_dwarf (Some false) (c_args c))) o s.
  Proof.
    intros H1 H2 H3 H4 H5. unfold run_cmd. rewrite !run_after. unfold handle.
    assert (R : is_raw (a_format (c_args c)) = false) by (destruct (a_format (c_args c)); try reflexivity; destruct (H5 eq_refl)).
    set (c2 := with_args c (set_use_dwarf (Some false) (c_args c))).
    assert (E : (run _ <- set_console (console_of c); after_console render encode ord pf projects load_symbols c) o s =
                (run _ <- set_console (console_of c2); after_console render encode ord pf projects load_symbols c2) o s).
    2: { rewrite E. reflexivity. }
    change (console_of c2) with (console_of c). apply andthen_ext. clear o s. intros [] o s. unfold after_console.
    assert (N : forall o s, normalise (set_use_dwarf (Some false) (c_args c)) o s = pmap (set_use_dwarf (Some false)) (normalise (c_args c) o s)).
    { clear o s. intros o s. unfold normalise. cbn [set_use_dwarf a_no_abbrev a_unify]. destruct (a_no_abbrev (c_args c) && a_unify (c_args c)).
      - unfold andthen, ret. destruct (tell WarnNoAbbrev o s) as [[[]|e|] s1]; [|reflexivity|reflexivity]. cbn.
        destruct (a_archive_dependencies (c_args c) && given (a_diff (c_args c))); [|reflexivity]. cbn.
        destruct (tell WarnDiff o s1) as [[[]|e|] s2]; reflexivity.
      - unfold andthen, ret. cbn.
        destruct (a_archive_dependencies (c_args c) && given (a_diff (c_args c))); [|reflexivity]. cbn.
        destruct (tell WarnDiff o s) as [[[]|e|] s2]; reflexivity. }
    change (c_args c2) with (set_use_dwarf (Some false) (c_args c)).
    rewrite (andthen_pmap (normalise (c_args c)) _ (set_use_dwarf (Some false)) _ N o s).
    unfold andthen. destruct (normalise (c_args c) o s) as [[a|e|] s1] eqn:E; try reflexivity.
    assert (P : a_use_dwarf a = Some true /\ given (a_archive_details a) = false /\ a_archives a = false /\ a_files a = false /\ is_raw (a_format a) = false).
    { revert E. unfold normalise, andthen, ret. destruct (a_no_abbrev (c_args c) && a_unify (c_args c)).
      - destruct (tell WarnNoAbbrev o s) as [[[]|e|] s0]; try (intros E; discriminate E). cbn.
        destruct (a_archive_dependencies (c_args c) && given (a_diff (c_args c))).
        + destruct (tell WarnDiff o s0) as [[[]|e|] s2]; intros E; inversion E; subst. cbn. auto.
        + intros E; inversion E; subst. cbn. auto.
      - destruct (a_archive_dependencies (c_args c) && given (a_diff (c_args c))).
        + destruct (tell WarnDiff o s) as [[[]|e|] s2]; intros E; inversion E; subst. cbn. auto 6.
        + intros E; inversion E; subst. cbn. auto 6. }
    destruct P as (P1 & P2 & P3 & P4 & P5).
    unfold later, tail. cbn zeta.
    assert (Q : set_use_dwarf (dwarf_option (set_use_dwarf (Some false) a)) (set_use_dwarf (Some false) a) = set_use_dwarf (dwarf_option a) a).
    { unfold dwarf_option. rewrite P1, P2, P3, P4, P5. reflexivity. }
    rewrite Q. reflexivity.
  Qed.
End Run.
