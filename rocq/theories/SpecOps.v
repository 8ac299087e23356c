(** * Specifications for walk, remove_unused, ignore_flash_size, trim and sort. *)
From Verif Require Import Base MemMap SpecTree.
From Coq Require Import Ascii String List ZArith Sorted Permutation Bool.
Import ListNotations.
Open Scope list_scope.
Open Scope Z_scope.

(** ** walk *)

(** number of names below the memory type at a depth *)
Definition depth_len (d : depth) : nat :=
  match d with DTypes => 0 | DSections => 1 | DArchives => 2 | DObjects => 3 | DAll => 4 end%nat.

(** names of the visited item *)
Definition w_path (w : wtuple) : list str :=
  match w_sect w with None => [] | Some s => fst s ::
  match w_arch w with None => [] | Some a => fst a ::
  match w_obj w with None => [] | Some o => fst o ::
  match w_sym w with None => [] | Some y => [fst y] end end end end.

(** the innermost entry handed out *)
Definition w_entry (w : wtuple) : option entry :=
  match w_sym w with Some y => Some (entry_of_sym (snd y)) | None =>
  match w_obj w with Some o => Some (entry_of_node (snd o)) | None =>
  match w_arch w with Some a => Some (entry_of_node (snd a)) | None =>
  match w_sect w with Some s => Some (entry_of_node (snd s)) | None => None end end end end.

(** all items [n] names below memory type [T], in tree order *)
Definition items_at (n : nat) (T : mtype) : list (list str * option entry) :=
  match n with
  | O => [([], None)]
  | _ => map (fun pe => (fst pe, Some (snd pe)))
             (filter (fun pe => length (fst pe) =?= n) (ents_type T))
  end.

(** each component of a tuple is a child of the one before *)
Definition w_chain (m : memmap) (w : wtuple) : Prop :=
  In (w_type w) (m_types m) /\
  (forall s, w_sect w = Some s -> In s (t_sections (snd (w_type w)))) /\
  (forall a, w_arch w = Some a -> exists s, w_sect w = Some s /\ In a (n_sub (snd s))) /\
  (forall o, w_obj w = Some o -> exists a, w_arch w = Some a /\ In o (n_sub (snd a))) /\
  (forall y, w_sym w = Some y -> exists o, w_obj w = Some o /\ In y (n_sub (snd o))).

(** ** trim *)

(** how many levels below the memory type are shown *)
Definition shown_levels (a : args) : nat :=
  if given (a_archive_details a) then 4
  else if a_archives a then 2
  else if a_files a then 3 else 4%nat.

(** does an entry count as changed for the report? *)
Definition counts (a : args) (d : Z) : Prop :=
  given (a_diff a) = true /\ a_show_unchanged a = false -> d <> 0.

(** the archive restriction of --archive-details *)
Definition archive_wanted (a : args) (e : entry) : Prop :=
  given (a_archive_details a) = true -> a_archive_details a = Some (e_abbrev e).

(** ** sort *)

(** [d'] is [d] in the order of [key], equal elements in their old order, and
    then changed below by [R] *)
Definition sorted_from {V} (key : V -> Z) (reverse : bool) (R : V -> V -> Prop)
    (d d' : dict str V) : Prop :=
  exists d1,
    Permutation d d1 /\
    StronglySorted (fun x y => if reverse then key (snd y) <= key (snd x) else key (snd x) <= key (snd y)) d1 /\
    (forall k, filter (fun kv => key (snd kv) =? k) d1 = filter (fun kv => key (snd kv) =? k) d) /\
    Forall2 (fun kv kv' => fst kv = fst kv' /\ R (snd kv) (snd kv')) d1 d'.

Definition same_node {C} (key : C -> Z) (reverse : bool) (R : C -> C -> Prop) (n n' : node C) : Prop :=
  n_abbrev n = n_abbrev n' /\ n_size n = n_size n' /\ n_diff n = n_diff n' /\
  sorted_from key reverse R (n_sub n) (n_sub n').

Definition the_size (sort_diff : bool) (size sdiff : Z) : Z := if sort_diff then sdiff else size.
Definition ykey a (y : sym) := the_size (a_sort_diff a) (y_size y) (y_diff y).
Definition nkey a {C} (n : node C) := the_size (a_sort_diff a) (n_size n) (n_diff n).
Definition tkey a (t : mtype) := the_size (a_sort_diff a) (t_used t) (t_used_diff t).

Definition sorted_obj a : obj -> obj -> Prop := same_node (ykey a) (a_sort_reverse a) eq.
Definition sorted_arch a : arch -> arch -> Prop := same_node (nkey a) (a_sort_reverse a) (sorted_obj a).
Definition sorted_sect a : sect -> sect -> Prop := same_node (nkey a) (a_sort_reverse a) (sorted_arch a).
Definition sorted_type a (t t' : mtype) : Prop :=
  t_size t = t_size t' /\ t_size_diff t = t_size_diff t' /\ t_used t = t_used t' /\ t_used_diff t = t_used_diff t' /\
  sorted_from (nkey a) (a_sort_reverse a) (sorted_sect a) (t_sections t) (t_sections t').
Definition sorted_map a (m m' : memmap) : Prop :=
  m' = with_types m (m_types m') /\
  sorted_from (tkey a) (a_sort_reverse a) (sorted_type a) (m_types m) (m_types m').

(** the same for the rows of a summary *)
Definition sorted_stype a (t t' : stype) : Prop :=
  st_size t = st_size t' /\ st_diff t = st_diff t' /\
  sorted_from (fun s => the_size (a_sort_diff a) (ss_size s) (ss_diff s)) (a_sort_reverse a) eq
              (st_sections t) (st_sections t').
Definition sorted_sentry a (e e' : sentry) : Prop :=
  se_abbrev e = se_abbrev e' /\ se_size e = se_size e' /\ se_diff e = se_diff e' /\
  sorted_from (fun t => the_size (a_sort_diff a) (st_size t) (st_diff t)) (a_sort_reverse a) (sorted_stype a)
              (se_types e) (se_types e').

(** ** all entries of a map in tree order; subsequences *)
Definition all_ents (m : memmap) : list (str * (list str * entry)) :=
  flat_map (fun tT => map (fun pe => (fst tT, pe)) (ents_type (snd tT))) (m_types m).

Inductive subseq {A} : list A -> list A -> Prop :=
| subseq_nil : forall l, subseq [] l
| subseq_take : forall x l l', subseq l l' -> subseq (x :: l) (x :: l')
| subseq_skip : forall x l l', subseq l l' -> subseq l (x :: l').

(** ** summaries *)
Definition esize (o : option entry) : Z := match o with Some e => e_size e | None => 0 end.
Definition ediff (o : option entry) : Z := match o with Some e => e_diff e | None => 0 end.

(** A row of a summary is right: it has the memory types and sections of the map,
    totals are sums, and the value under memory type [t] and section [s] is that of
    the entry [val t s] of the map (0 if there is none); sections carry the abbreviated
    names they have in the map. *)
Definition row_ok (m : memmap) (val : str -> str -> option entry) (e : sentry) : Prop :=
  keys (se_types e) = keys (m_types m) /\
  se_size e = zsumf (fun kv => st_size (snd kv)) (se_types e) /\
  se_diff e = zsumf (fun kv => st_diff (snd kv)) (se_types e) /\
  forall t T, dget t (se_types e) = Some T ->
    Some (keys (st_sections T)) = option_map (fun U => keys (t_sections U)) (dget t (m_types m)) /\
    st_size T = zsumf (fun kv => ss_size (snd kv)) (st_sections T) /\
    st_diff T = zsumf (fun kv => ss_diff (snd kv)) (st_sections T) /\
    forall s q, dget s (st_sections T) = Some q ->
      ss_size q = esize (val t s) /\ ss_diff q = ediff (val t s) /\
      Some (ss_abbrev q) = option_map e_abbrev (look m t [s]).

(** ':'-joined names identify the paths of the map *)
Definition inj_objects (m : memmap) : Prop :=
  forall t s x o t' s' x' o',
    look m t [s; x; o] <> None -> look m t' [s'; x'; o'] <> None ->
    colon [x; o] = colon [x'; o'] -> x = x' /\ o = o'.
Definition inj_symbols (m : memmap) : Prop :=
  forall t s x o y t' s' x' o' y',
    look m t [s; x; o; y] <> None -> look m t' [s'; x'; o'; y'] <> None ->
    colon [x; o; y] = colon [x'; o'; y'] -> x = x' /\ o = o' /\ y = y'.

(** symbol entry below an archive abbreviated [d] *)
Definition sym_val (m : memmap) (d t s x o y : str) : option entry :=
  match look m t [s; x] with
  | Some a => if e_abbrev a =?= d then look m t [s; x; o; y] else None
  | None => None
  end.

(** entries of memory type [t] that the object files report puts into row [n], with
    the names shown ([--unify]: abbreviated) *)
Definition obj_row (m : memmap) (u : bool) (t n : str) : list entry :=
  match dget t (m_types m) with
  | None => []
  | Some T => map snd (filter (fun pe =>
      match fst pe with
      | [s; x; o] => (if u then e_abbrev (snd pe) else x ++ ":" ++ o) =?= n
      | _ => false
      end) (ents_type T))
  end.
(** the same for the symbols of the archives abbreviated [d] *)
Definition sym_row (m : memmap) (u : bool) (d t n : str) : list entry :=
  match dget t (m_types m) with
  | None => []
  | Some T => map snd (filter (fun pe =>
      match fst pe with
      | [s; x; o; y] =>
        match look m t [s; x] with
        | Some a => (e_abbrev a =?= d) && ((if u then e_abbrev (snd pe) else x ++ ":" ++ o ++ ":" ++ y) =?= n)
        | None => false
        end
      | _ => false
      end) (ents_type T))
  end.
(** totals of a row: sums over the memory types, each the sum of the row's entries *)
Definition totals_ok (m : memmap) (ents : str -> list entry) (e : sentry) : Prop :=
  keys (se_types e) = keys (m_types m) /\
  se_size e = zsumf (fun kv => st_size (snd kv)) (se_types e) /\
  se_diff e = zsumf (fun kv => st_diff (snd kv)) (se_types e) /\
  forall t T, dget t (se_types e) = Some T ->
    st_size T = zsumf e_size (ents t) /\ st_diff T = zsumf e_diff (ents t).
