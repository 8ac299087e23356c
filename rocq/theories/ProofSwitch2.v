(** * The summary of memory types without the debugging information *)
From Coq Require Import Ascii String List ZArith Lia Bool.
From Verif Require Import Base MemMap SpecTree Filter Pipeline SpecPipe SpecBuild ProofTypes ProofStrip ProofOps PyStr MapFile Deps Table Formats Main SpecMain ProofMain ProofMain2 ProofMain3
  ElfRead Dwarf Project SpecProject ProofProject1 ProofProject2 Command SpecEnd SpecLto2 SpecSwitch ProofFail2 ProofSwitch.
Import ListNotations.
Open Scope list_scope.
Open Scope Z_scope.

(** ** memory maps without archives *)
Definition blank_sect (x : sect) : sect := Node (n_abbrev x) (n_size x) (n_diff x) [].
Definition blank_type (t : mtype) : mtype := MType (t_size t) (t_size_diff t) (t_used t) (t_used_diff t) (dmap blank_sect (t_sections t)).
Definition blank (m : memmap) : memmap := with_types m (dmap blank_type (m_types m)).
Ltac flat := cbn [n_abbrev n_size n_diff n_sub t_size t_size_diff t_used t_used_diff t_sections m_types m_target m_target_diff m_image_size m_image_size_diff m_project_path m_project_path_diff fst snd].

Lemma blank_ignore m : ignore_flash_size (blank m) = blank (ignore_flash_size m).
Proof.
  unfold ignore_flash_size, blank, with_types. flat. f_equal. rewrite dmapk_dmap, dmap_dmapk. apply dmapk_ext. intros k t. destruct (is_flash k); reflexivity.
Qed.
Lemma blank_merge_sect d r : merge_sect (blank_sect d) (blank_sect r) = blank_sect (merge_sect d r).
Proof. reflexivity. Qed.
Lemma blank_merge_type d r : merge_type (blank_type d) (blank_type r) = blank_type (merge_type d r).
Proof. unfold merge_type, blank_type. flat. rewrite strip_merge by exact blank_merge_sect. reflexivity. Qed.
Lemma blank_fix_sect a b x : fix_sect (option_map blank_sect a) (option_map blank_sect b) (blank_sect x) = blank_sect (fix_sect a b x).
Proof. destruct a, b; reflexivity. Qed.
Lemma blank_fix_type a b x : fix_type (option_map blank_type a) (option_map blank_type b) (blank_type x) = blank_type (fix_type a b x).
Proof.
  assert (Q : forall k (o : option mtype), type_get k (option_map blank_type o) = option_map blank_sect (type_get k o)).
  { intros k [n|]; [|reflexivity]. cbn. apply dget_dmap. }
  assert (E : map (fun kv => (fst kv, fix_sect (type_get (fst kv) (option_map blank_type a)) (type_get (fst kv) (option_map blank_type b)) (snd kv))) (t_sections (blank_type x)) =
    dmap blank_sect (map (fun kv => (fst kv, fix_sect (type_get (fst kv) a) (type_get (fst kv) b) (snd kv))) (t_sections x))).
  { cbn [blank_type t_sections]. rewrite map_dmap. unfold dmap. rewrite map_map. apply map_ext. intros [k v]. cbn [fst snd].
    rewrite !Q, blank_fix_sect. reflexivity. }
  unfold fix_type. rewrite E. destruct a, b; reflexivity.
Qed.
Lemma blank_diff a b : diff (blank a) (blank b) = blank (diff a b).
Proof.
  unfold diff, blank, with_types. flat. f_equal. rewrite strip_merge by exact blank_merge_type. rewrite map_dmap. unfold dmap at 3. rewrite map_map.
  apply map_ext. intros [k v]. cbn [fst snd]. rewrite !dget_dmap, blank_fix_type. reflexivity.
Qed.
Lemma blank_unify_sects o u : unify_sects (dmap blank_sect o) (dmap blank_sect u) = dmap blank_sect (unify_sects o u).
Proof. apply strip_unify_items; reflexivity. Qed.
Lemma blank_unify m : unify (blank m) = blank (unify m).
Proof.
  unfold unify, blank, with_types. flat. f_equal. rewrite !dmap_dmap. apply dmap_ext. intros t. unfold unify_type, blank_type. flat.
  rewrite <- (blank_unify_sects _ []). reflexivity.
Qed.
Lemma blank_trim m a : trim (blank m) a = blank (trim m a).
Proof.
  unfold trim, blank, with_types. flat. f_equal. rewrite dmap_filter by reflexivity. rewrite !dmap_dmap. apply dmap_ext. intros t.
  unfold trim_type, blank_type. flat. f_equal. rewrite dmap_filter by reflexivity. rewrite !dmap_dmap. apply dmap_ext. intros s. reflexivity.
Qed.
Lemma blank_summary pf m a : get_summary_table pf (blank m) a = get_summary_table pf m a.
Proof.
  unfold get_summary_table. rewrite blank_trim. destruct (sort_column usage_headers (a_sort a)) as [z|e]; [|reflexivity].
  destruct (py_nth _ (key_index z)) as [k|]; [|reflexivity]. f_equal. f_equal. unfold blank, with_types. cbn [m_types].
  rewrite (sort_dmap blank_type (fun t => usage_key a k (type_usage t))) by reflexivity.
  unfold dmap at 1. rewrite flat_map_map. apply flat_map_ext. intros [t T]. cbn [fst snd].
  change (type_row pf a t (blank_type T)) with (type_row pf a t T). f_equal.
  cbn [blank_type t_sections]. fold (blank_type T).
  rewrite (sort_dmap blank_sect (fun s => usage_key a k (sect_usage T s))) by reflexivity.
  rewrite map_dmap. apply map_ext. intros [s X]. reflexivity.
Qed.
Lemma blank_json m a : json_summary (blank m) a = json_summary m a.
Proof.
  unfold json_summary, blank, with_types. cbn [m_image_size]. f_equal. unfold sort, with_types. cbn [m_types].
  rewrite (sort_dmap blank_type (type_key a)) by reflexivity. rewrite dmap_dmap, !map_dmap. apply map_ext. intros [t T].
  unfold json_type. cbn [fst snd blank_type sort_type t_size t_used t_sections]. f_equal.
  rewrite (sort_dmap blank_sect (node_key a)) by reflexivity. rewrite dmap_dmap.
  transitivity (fold_left (fun d s => dset (Table.shown a (fst s) (n_abbrev (snd s))) (n_size (snd s)) d) (sort_dict_by_key (node_key a) (a_sort_reverse a) (t_sections T)) []).
  - apply fold_dmap. reflexivity.
  - symmetry. apply fold_dmap. reflexivity.
Qed.
Lemma blank_show x m a : summary_asked a -> show x (blank m) a = show x m a.
Proof.
  intros (G & A & F & D & E). assert (T : table_of x (blank m) a = table_of x m a) by (unfold table_of; rewrite G, A, F, D, blank_summary; reflexivity).
  unfold show. destruct E as [E|[E|[E|E]]]; rewrite E.
  - unfold table_show. now rewrite T.
  - unfold table_show. now rewrite T.
  - unfold csv_show. now rewrite T.
  - unfold json_show. now rewrite G, A, F, D, blank_json.
Qed.

(** ** sections without input sections *)
Definition hull (s : osection) : osection := set_isecs s [].
Lemma hull_filter hdrs l l' : map hull l = map hull l' -> map hull (filter_map_sections l hdrs) = map hull (filter_map_sections l' hdrs).
Proof.
  unfold filter_map_sections. rewrite !map_map. revert l'. induction l as [|s l IH]; intros [|s' l'] E; try discriminate E; [reflexivity|]. cbn [map] in E.
  assert (E1 : hull s = hull s') by congruence. assert (E2 : map hull l = map hull l') by congruence. specialize (IH l' E2). cbn [filter].
  assert (K : keep_section hdrs s = keep_section hdrs s') by (change (keep_section hdrs (hull s) = keep_section hdrs (hull s')); now rewrite E1).
  rewrite <- K. destruct (keep_section hdrs s); [|exact IH]. cbn [map]. f_equal; [exact E1|exact IH].
Qed.
Lemma hull_clear l : map hull (clear_symbols l) = map hull l.
Proof. unfold clear_symbols. rewrite map_map. apply map_ext. reflexivity. Qed.
Lemma hull_image hdrs l l' : map hull l = map hull l' -> get_image_size hdrs l = get_image_size hdrs l'.
Proof.
  intros E. unfold get_image_size.
  assert (F : forall z, fold_left (fun size s => if ends_with_any [".bss"; "noinit"] (o_name s) then size else size + o_size s) l z =
    fold_left (fun size s => if ends_with_any [".bss"; "noinit"] (o_name s) then size else size + o_size s) l' z).
  { revert l' E. induction l as [|s l IH]; intros [|s' l'] E z; try discriminate E; [reflexivity|]. cbn [map] in E.
    assert (E1 : hull s = hull s') by congruence. cbn [fold_left]. change (o_name s) with (o_name (hull s)). change (o_size s) with (o_size (hull s)).
    rewrite E1. apply IH. congruence. }
  destruct hdrs as [[|]|]; [apply F|reflexivity|apply F].
Qed.
Lemma hull_split regions : forall fuel s, rmap (map hull) (split_section fuel regions (hull s)) = rmap (map hull) (split_section fuel regions s).
Proof.
  induction fuel as [|fuel IH]; intros s; [reflexivity|]. cbn [split_section].
  change (o_addr (hull s)) with (o_addr s). change (o_size (hull s)) with (o_size s).
  destruct (region_at regions (o_addr s)) as [r|]; [|reflexivity].
  destruct (o_addr s + o_size s <=? sr_origin r + sr_length r); [reflexivity|].
  cbn [cut_section fst snd]. match goal with |- rmap _ (bind (split_section _ _ ?x) _) = rmap _ (bind (split_section _ _ ?y) _) => assert (E : hull x = x) by reflexivity; rewrite <- E; change (hull x) with (hull y); specialize (IH y) end.
  destruct (split_section fuel regions (hull _)) as [p|]; destruct (split_section fuel regions _) as [q|]; cbn [rmap bind] in *; try discriminate IH; [|exact IH].
  assert (IH' : map hull p = map hull q) by congruence. cbn [map]. now rewrite IH'.
Qed.
Lemma hull_split_map fuel regions l l' : map hull l = map hull l' -> rmap (map hull) (split_map_sections fuel l regions) = rmap (map hull) (split_map_sections fuel l' regions).
Proof.
  intros E. unfold split_map_sections.
  assert (M : forall k k', map hull k = map hull k' -> rmap (map (map hull)) (mapM (split_section fuel regions) k) = rmap (map (map hull)) (mapM (split_section fuel regions) k')).
  { clear. induction k as [|s k IH]; intros [|s' k'] E; try discriminate E; [reflexivity|]. cbn [map] in E. assert (E1 : hull s = hull s') by congruence. assert (E2 : map hull k = map hull k') by congruence.
    specialize (IH k' E2). cbn [mapM]. pose proof (hull_split regions fuel s) as H1. pose proof (hull_split regions fuel s') as H2. rewrite <- E1, H1 in H2. clear H1.
    destruct (split_section fuel regions s), (split_section fuel regions s'); cbn [rmap bind] in *; try discriminate H2; [|congruence].
    destruct (mapM _ k), (mapM _ k'); cbn [rmap bind] in *; try discriminate IH; [|congruence]. cbn [map]. congruence. }
  specialize (M (rev l) (rev l')). rewrite !map_rev, E in M. specialize (M eq_refl).
  destruct (mapM _ (rev l)), (mapM _ (rev l')); cbn [rmap bind] in *; try discriminate M; [|congruence]. rewrite !concat_map. congruence.
Qed.
Definition blank_asec (s : asection) : asection := ASection (as_name s) (as_addr s) (as_size s) (as_abbrev s) [].
Lemma hull_archives l l' : map hull l = map hull l' -> map blank_asec (add_archives_to_sections l) = map blank_asec (add_archives_to_sections l').
Proof.
  intros E. unfold add_archives_to_sections. rewrite !map_map. transitivity (map (fun s => blank_asec (add_archives s)) (map hull l)); [rewrite map_map; apply map_ext; reflexivity|].
  rewrite E, map_map. apply map_ext. reflexivity.
Qed.
Lemma add_section_blank ext sorted m s : add_section ext sorted (dmap blank_type m) (blank_asec s) = dmap blank_type (add_section ext sorted m s).
Proof.
  unfold add_section. change (route ext sorted (blank_asec s)) with (route ext sorted s).
  destruct (route ext sorted s) as [[alias ov]|]; [|reflexivity]. symmetry.
  apply dmap_dupd. intros T. unfold blank_type. cbn [t_size t_size_diff t_used t_used_diff t_sections blank_asec as_size as_name as_abbrev as_archives].
  rewrite dmap_dset. reflexivity.
Qed.
Lemma map_blank types regions l : dmap blank_type (get_mem_type_map types regions l) =
  fold_left (add_section (ext_ram_alias types) (py_sorted sr_origin false regions)) (map blank_asec l) (dmap blank_type (add_regions types regions)).
Proof.
  unfold get_mem_type_map. generalize (add_regions types regions). induction l as [|s l IH]; intros m; [reflexivity|]. cbn [map fold_left]. rewrite add_section_blank. apply IH.
Qed.
Lemma build_blank types e e' regions l l' img m : get_elf_sections_headers e = get_elf_sections_headers e' -> map hull l = map hull l' ->
  build false types e regions l = Ok (img, m) -> exists m', build false types e' regions l' = Ok (img, m') /\ dmap blank_type m = dmap blank_type m'.
Proof.
  unfold build. intros He E B. rewrite <- He.
  destruct (split_memory_regions (region_fuel types) (filter_memory_regions regions) types) as [parts|]; cbn [bind] in *; [|discriminate B].
  pose proof (hull_filter (get_elf_sections_headers e) l l' E) as K.
  rewrite <- (hull_image _ _ _ K). set (k := filter_map_sections l _) in *. set (k' := filter_map_sections l' _) in *.
  pose proof (hull_split_map (section_fuel parts) parts (clear_symbols k) (clear_symbols k')) as C. rewrite !hull_clear in C. specialize (C K).
  destruct (split_map_sections (section_fuel parts) (clear_symbols k) parts) as [cut|]; cbn [bind rmap] in *; [|discriminate B].
  destruct (split_map_sections (section_fuel parts) (clear_symbols k') parts) as [cut'|]; cbn [bind rmap] in *; [|discriminate C].
  injection B as <- <-. eexists. split; [reflexivity|]. rewrite !map_blank. f_equal. apply hull_archives. congruence.
Qed.
Lemma expand_hull l comps e : map hull (expand_input_sections l comps e) = map hull l.
Proof. unfold expand_input_sections. rewrite map_map. apply map_ext. reflexivity. Qed.

(** ** worlds of which the second one has less to read *)
Definition eases (w w' : world) : Prop := w_mapfile w = w_mapfile w' /\ forall e, w_elf w = Ok e -> exists e',
  w_elf w' = Ok e' /\ option_map elf_shdrs e = option_map elf_shdrs e' /\ w_map_fn w = w_map_fn w' /\ w_memory_types w = w_memory_types w' /\
  option_map pd_target (w_proj_desc w) = option_map pd_target (w_proj_desc w').
Lemma get_blank w w' u ma ea ea' m mf : eases w w' -> get w false u ma ea = Ok (m, mf) -> exists m' mf', get w' false (Some false) ma ea' = Ok (m', mf') /\ blank m = blank m'.
Proof.
  intros (Em & Ee) G. unfold get in *. rewrite <- Em. destruct (load_mapfile ma (w_mapfile w)) as [f|]; cbn [bind] in *; [|discriminate G].
  destruct (w_elf w) as [e|] eqn:We; cbn [bind] in *; [|discriminate G]. destruct (Ee e eq_refl) as (e' & -> & Hh & <- & <- & Ht). cbn [bind dwarf_flag].
  assert (T : pick_target (w_proj_desc w') f = pick_target (w_proj_desc w) f).
  { unfold pick_target. destruct (w_proj_desc w), (w_proj_desc w'); cbn in Ht; try discriminate Ht; [|reflexivity]. injection Ht as <-. reflexivity. }
  rewrite T. destruct (pick_target (w_proj_desc w) f) as [t|]; cbn [bind] in *; [|discriminate G].
  destruct (w_memory_types w t) as [types|]; cbn [bind] in *; [|discriminate G].
  assert (Hd : get_elf_sections_headers e = get_elf_sections_headers e').
  { destruct e, e'; cbn in Hh; try discriminate Hh; [|reflexivity]. cbn. now injection Hh as ->. }
  match type of G with bind (build _ _ _ _ ?s) _ = _ => assert (S1 : map hull s = map hull (mf_sections f)); [|set (secs := s) in *; clearbody secs] end.
  { destruct (dwarf_flag u w); [|reflexivity]. destruct (w_proj_desc w); [|reflexivity]. destruct e; [apply expand_hull|reflexivity]. }
  destruct (build false types e (mf_regions f) secs) as [[img d]|] eqn:B; cbn [bind] in G; [|discriminate G].
  destruct (build_blank _ _ _ _ _ _ _ _ Hd S1 B) as (d' & -> & Eb). cbn [bind fst snd] in *. injection G as <- _. do 2 eexists. split; [reflexivity|].
  unfold blank, with_types. flat. now rewrite Eb.
Qed.

Section Disk.
Variables (d : disk) (chips : str -> res (list chip_type)).
Lemma project_eases deps u fn : let p := load_project d chips false u deps fn in let p' := load_project d chips false (Some false) deps fn in
  eases (p_world p) (p_world p') /\ p_crt p = p_crt p' /\ p_syms p = p_syms p'.
Proof.
  assert (M : forall u w, load_world d chips fn false u = Ok w -> w_mapfile w = load_map d (abspath (d_cwd d) fn)).
  { clear. intros u w. unfold load_world. destruct (get_proj_desc d _); cbn [bind]; [|discriminate]. destruct (match u with Some b => Ok b | None => _ end); cbn [bind]; [|discriminate].
    destruct (desc_target _); cbn [bind]; [|discriminate]. intros E. now injection E as <-. }
  cbv zeta. split; [|split; reflexivity]. unfold load_project. cbn [p_world].
  assert (X : forall w w', load_world d chips fn false u = Ok w -> load_world d chips fn false (Some false) = Ok w' -> eases w w').
  { intros w w' L L'. split; [now rewrite (M _ _ L), (M _ _ L')|]. unfold load_world in L, L'. destruct (get_proj_desc d _) as [pd|]; cbn [bind] in *; [|discriminate L].
    destruct (match u with Some b => Ok b | None => _ end) as [flag|]; cbn [bind] in L; [|discriminate L].
    destruct (desc_target pd) as [t|]; cbn [bind] in *; [|discriminate L]. injection L as <-. injection L' as <-. cbn [w_elf w_map_fn w_memory_types w_proj_desc].
    intros e He. destruct (get_elf d (abspath (d_cwd d) fn) pd) as [[x|]|] eqn:Ge; cbn [bind] in *; [| |discriminate He].
    - unfold view_elf in He. destruct (if flag then view_cusyms x else Ok []) as [cus|]; cbn [bind] in He; [|discriminate He].
      unfold view_elf. cbn [bind]. destruct (mapM (view_shdr x) (xe_shdrs x)) as [hdrs|]; cbn [bind] in *; [|discriminate He].
      assert (E2 : option_map elf_shdrs e = Some hdrs).
      { destruct (match pd with Some j => _ | None => Ok [] end); cbn [bind] in He; [|discriminate He]. injection He as <-. reflexivity. }
      destruct pd; cbn [bind]; eexists; (split; [reflexivity|]); rewrite E2; repeat split; reflexivity.
    - injection He as <-. eexists. split; [reflexivity|]. repeat split; destruct pd; reflexivity. }
  assert (Y : forall w, load_world d chips fn false u = Ok w -> exists w', load_world d chips fn false (Some false) = Ok w').
  { intros w L. unfold load_world in *. destruct (get_proj_desc d _) as [pd|]; cbn [bind] in *; [|discriminate L].
    destruct (match u with Some b => Ok b | None => _ end) as [flag|]; cbn [bind] in L; [|discriminate L].
    destruct (desc_target pd) as [t|]; cbn [bind] in *; [|discriminate L]. eauto. }
  destruct (load_world d chips fn false u) as [w|e] eqn:L.
  - destruct (Y w eq_refl) as (w' & L'). rewrite L'. specialize (X w w' eq_refl L'). destruct (dep_symbols d _); [exact X|]. destruct deps; [|exact X].
    split; [exact (proj1 X)|]. cbn [w_elf]. intros; discriminate.
  - assert (Z : forall w' e', w_mapfile w' = load_map d (abspath (d_cwd d) fn) -> eases (World (abspath (d_cwd d) fn) None false (load_map d (abspath (d_cwd d) fn)) (Err e') chips) w').
    { intros w' e' E. split; [now rewrite E|]. cbn [w_elf]. intros; discriminate. }
    assert (W : forall l', l' = load_world d chips fn false (Some false) ->
      w_mapfile (match l' with Ok w => w | Err e0 => World (abspath (d_cwd d) fn) None false (load_map d (abspath (d_cwd d) fn)) (Err e0) chips end) = load_map d (abspath (d_cwd d) fn)).
    { intros [w'|] E; [symmetry in E; apply (M _ _ E)|reflexivity]. }
    specialize (W _ eq_refl). destruct (dep_symbols d _); [apply Z, W|]. destruct deps; [|apply Z, W]. apply Z. exact W.
Qed.

Variables (render : console -> list piece -> str) (encode : str -> str) (ord : set_order) (pf : pct_format).
Lemma summary_same c o s s1 : summary_asked (c_args c) -> a_show_unused (c_args c) = true ->
  run_files d chips render encode ord pf (with_lto None c) o s = (Done tt, s1) -> run_files d chips render encode ord pf (with_lto (Some false) c) o s = (Done tt, s1).
Proof.
  intros (S1 & S2 & S3 & S4 & S5) U R. unfold run_files in *.
  change (with_lto (Some false) c) with (with_lto (Some false) (with_lto None c)). refine (run_follows false _ _ _ _ _ _ _ _ _ _ _ _ _ R (or_intror eq_refl)).
  clear R o s s1. intros q K. cbv zeta. destruct K as (K1 & K2 & K3 & K4 & K5 & K6 & K7 & K8). cbn [with_lto c_args a_archive_details a_archives a_files a_format a_use_dwarf a_show_unused a_archive_dependencies a_diff] in K1, K2, K3, K4, K5, K6, K7, K8.
  assert (D1 : dwarf_option q = None) by (unfold dwarf_option; now rewrite K5). rewrite D1.
  assert (D2 : dwarf_option (set_use_dwarf (Some false) q) = Some false) by reflexivity. rewrite D2.
  set (a := set_use_dwarf None q). set (a' := set_use_dwarf (Some false) q). change (with_lto (Some false) (with_lto None c)) with (with_lto (Some false) c). change (c_input (with_lto None c)) with (c_input c).
  assert (Sq : summary_asked q) by (unfold summary_asked; rewrite K1, K2, K3, K4, K7; auto).
  assert (LS : load_symbols a = false) by (unfold load_symbols; change (a_archive_details a) with (a_archive_details q); change (a_format a) with (a_format q); rewrite K1, K4, S1; destruct S5 as [E|[E|[E|E]]]; now rewrite E).
  assert (LC : forall u, load_symbols (c_args (with_lto u c)) = false) by (intros u; unfold load_symbols; cbn [with_lto c_args a_archive_details a_format]; rewrite S1; destruct S5 as [E|[E|[E|E]]]; now rewrite E).
  assert (P : forall fn, eases (p_world (projects_of d chips (c_args (with_lto None c)) fn)) (p_world (projects_of d chips (c_args (with_lto (Some false) c)) fn)) /\
    p_crt (projects_of d chips (c_args (with_lto None c)) fn) = p_crt (projects_of d chips (c_args (with_lto (Some false) c)) fn) /\
    p_syms (projects_of d chips (c_args (with_lto None c)) fn) = p_syms (projects_of d chips (c_args (with_lto (Some false) c)) fn)).
  { intros fn. unfold projects_of. rewrite !LC. apply project_eases. }
  rewrite LS. clear LS LC. revert P. generalize (projects_of d chips (c_args (with_lto None c))) (projects_of d chips (c_args (with_lto (Some false) c))). intros pr pr' P.
  apply (f_then false (fun x y : extras * memmap => fst x = fst y /\ blank (snd x) = blank (snd y))).
  - unfold analyse. destruct (P (c_input c)) as (Ei & Ec & Es). rewrite <- Ec, <- Es.
    apply (f_then false eq); [rewrite (proj1 Ei); apply f_same; reflexivity|]. intros mf mf' <-.
    apply (f_then false (fun e e' => option_map elf_shdrs e = option_map elf_shdrs e')).
    { apply f_compute. unfold matches. destruct (w_elf (p_world (pr (c_input c)))) as [e|] eqn:We; [|discriminate]. destruct (proj2 Ei e We) as (e' & -> & H & _). eauto. }
    intros e e' He. apply (f_then false (fun x y : memmap * mapfile => blank (fst x) = blank (fst y))).
    { apply f_compute. unfold matches. destruct (get (p_world (pr (c_input c))) false (a_use_dwarf a) (Some mf) e) as [[m g]|] eqn:G; [|discriminate].
      destruct (get_blank _ _ _ _ _ e' _ _ Ei G) as (m' & g' & G' & B). exists (m', g'). split; [exact G'|exact B]. }
    intros [m g] [m' g'] B. cbn [fst] in B. apply (f_then false (fun x y => blank x = blank y)).
    { assert (Bp : blank (prepare a m) = blank (prepare a' m')).
      { unfold prepare. change (a_show_unused a') with (a_show_unused q). change (a_show_unused a) with (a_show_unused q). rewrite K6, U. change (a_use_flash_size a') with (a_use_flash_size a).
        destruct (a_use_flash_size a); [exact B|]. rewrite <- !blank_ignore. now rewrite B. }
      unfold compare. change (a_diff a') with (a_diff q). change (a_diff a) with (a_diff q).
      destruct (a_diff q) as [[|h t]|]; [apply f_ret; exact Bp| |apply f_ret; exact Bp].
      destruct (P (h :: t)) as (Er & _ & _). apply (f_then false (fun x y : memmap * mapfile => blank (fst x) = blank (fst y))).
      { apply f_compute. unfold matches. destruct (get (p_world (pr (h :: t))) false (a_use_dwarf a) None None) as [[r g1]|] eqn:G; [|discriminate].
        destruct (get_blank _ _ _ _ _ None _ _ Er G) as (r' & g1' & G' & Br). exists (r', g1'). split; [exact G'|exact Br]. }
      intros [r g1] [r' g1'] Br. cbn [fst] in Br. change (a_show_unused a') with (a_show_unused q). change (a_show_unused a) with (a_show_unused q). rewrite K6, U. change (a_use_flash_size a') with (a_use_flash_size a).
      assert (Bd : blank (diff (if a_use_flash_size a then prepare a m else ignore_flash_size (prepare a m)) r) = blank (diff (if a_use_flash_size a then prepare a' m' else ignore_flash_size (prepare a' m')) r')).
      { rewrite <- !blank_diff, Br. destruct (a_use_flash_size a); [now rewrite Bp|]. now rewrite <- !blank_ignore, Bp. }
      cbv zeta. revert Bd. generalize (diff (if a_use_flash_size a then prepare a m else ignore_flash_size (prepare a m)) r) (diff (if a_use_flash_size a then prepare a' m' else ignore_flash_size (prepare a' m')) r').
      intros x y Bd. assert (T1 : m_target x = m_target y) by (change (m_target (blank x) = m_target (blank y)); now rewrite Bd).
      assert (T2 : m_target_diff x = m_target_diff y) by (change (m_target_diff (blank x) = m_target_diff (blank y)); now rewrite Bd). rewrite <- T1, <- T2.
      apply (f_then false (fun _ _ => True)); [apply f_same; auto|]. intros _ _ _. apply f_ret. exact Bd. }
    intros m1 m1' B1. apply f_ret. cbn [fst snd]. split.
    + destruct e, e'; cbn in He; try discriminate He; reflexivity.
    + change (a_unify a') with (a_unify a). destruct (a_unify a); [|exact B1]. rewrite <- !blank_unify. now rewrite B1.
  - intros [x m] [x' m'] (E & B). cbn [fst snd] in E, B. subst x'. apply f_same; [|reflexivity]. intros o s. unfold a, a'. rewrite !show_dwarf.
    rewrite <- (blank_show x m q Sq), <- (blank_show x m' q Sq). now rewrite B.
Qed.
End Disk.
