(** * Specification vocabulary for memory maps.

    Independent of the algorithms in [MemMap]: lookup by path, list of all
    entries, totals. *)
From Verif Require Import Base MemMap.
From Coq Require Import List ZArith.
Import ListNotations.
Open Scope list_scope.
Open Scope Z_scope.

(** what every section/archive/object/symbol entry shows *)
Record entry := Entry { e_abbrev : str; e_size : Z; e_diff : Z }.

Definition entry_of_sym (y : sym) : entry := Entry (y_abbrev y) (y_size y) (y_diff y).
Definition entry_of_node {C} (n : node C) : entry := Entry (n_abbrev n) (n_size n) (n_diff n).

(** ** Lookup of an entry by its path of keys *)

Definition look_sym (p : list str) (y : sym) : option entry :=
  match p with [] => Some (entry_of_sym y) | _ :: _ => None end.

Definition look_dict {C} (lookC : list str -> C -> option entry) (p : list str) (d : dict str C)
  : option entry :=
  match p with
  | [] => None
  | k :: p' => match dget k d with Some c => lookC p' c | None => None end
  end.

Definition look_node {C} (lookC : list str -> C -> option entry) (p : list str) (n : node C)
  : option entry :=
  match p with [] => Some (entry_of_node n) | _ :: _ => look_dict lookC p (n_sub n) end.

Definition look_obj : list str -> obj -> option entry := look_node look_sym.
Definition look_arch : list str -> arch -> option entry := look_node look_obj.
Definition look_sect : list str -> sect -> option entry := look_node look_arch.

(** [look m t p]: the entry at path [p] = section / archive / object file / symbol
    (one to four names) below memory type [t] *)
Definition look (m : memmap) (t : str) (p : list str) : option entry :=
  match dget t (m_types m) with
  | Some T => look_dict look_sect p (t_sections T)
  | None => None
  end.

(** size at a path, 0 if there is no such entry *)
Definition size_at (m : memmap) (t : str) (p : list str) : Z :=
  match look m t p with Some e => e_size e | None => 0 end.

Definition type_size_at (m : memmap) (t : str) : Z :=
  match dget t (m_types m) with Some T => t_size T | None => 0 end.
Definition type_used_at (m : memmap) (t : str) : Z :=
  match dget t (m_types m) with Some T => t_used T | None => 0 end.

(** ** Well-formedness: keys are unique on every level (true of any Python dict) *)

Definition wf_sub {C} (wfC : C -> Prop) (d : dict str C) : Prop :=
  wf_dict d /\ Forall (fun kv => wfC (snd kv)) d.
Definition wf_node {C} (wfC : C -> Prop) (n : node C) : Prop := wf_sub wfC (n_sub n).
Definition wf_sym (y : sym) : Prop := True.
Definition wf_obj : obj -> Prop := wf_node wf_sym.
Definition wf_arch : arch -> Prop := wf_node wf_obj.
Definition wf_sect : sect -> Prop := wf_node wf_arch.
Definition wf_type (t : mtype) : Prop := wf_sub wf_sect (t_sections t).
Definition wf_map (m : memmap) : Prop := wf_sub wf_type (m_types m).

(** ** All entries below an item, with the path of keys / of abbreviated names *)

(** [(keys, entry)] of every item below, the item itself first *)
Definition ents_sym (y : sym) : list (list str * entry) := [([], entry_of_sym y)].
Definition ents_dict {C} (ents : C -> list (list str * entry)) (d : dict str C)
  : list (list str * entry) :=
  flat_map (fun kc => map (fun pe => (fst kc :: fst pe, snd pe)) (ents (snd kc))) d.
Definition ents_node {C} (ents : C -> list (list str * entry)) (n : node C)
  : list (list str * entry) :=
  ([], entry_of_node n) :: ents_dict ents (n_sub n).
Definition ents_obj : obj -> list (list str * entry) := ents_node ents_sym.
Definition ents_arch : arch -> list (list str * entry) := ents_node ents_obj.
Definition ents_sect : sect -> list (list str * entry) := ents_node ents_arch.
Definition ents_type (t : mtype) : list (list str * entry) := ents_dict ents_sect (t_sections t).

(** the same with the path of abbreviated names (own name included) *)
Definition aents_sym (y : sym) : list (list str * entry) := [([y_abbrev y], entry_of_sym y)].
Definition aents_node {C} (aents : C -> list (list str * entry)) (n : node C)
  : list (list str * entry) :=
  ([n_abbrev n], entry_of_node n) ::
  map (fun pe => (n_abbrev n :: fst pe, snd pe)) (flat_map (fun kc => aents (snd kc)) (n_sub n)).
Definition aents_obj : obj -> list (list str * entry) := aents_node aents_sym.
Definition aents_arch : arch -> list (list str * entry) := aents_node aents_obj.
Definition aents_sect : sect -> list (list str * entry) := aents_node aents_arch.
Definition aents_type (t : mtype) : list (list str * entry) :=
  flat_map (fun kc => aents_sect (snd kc)) (t_sections t).

(** entries of memory type [t] whose abbreviated path is [p] *)
Definition with_apath (m : memmap) (t : str) (p : list str) : list entry :=
  match dget t (m_types m) with
  | Some T => map snd (filter (fun pe => fst pe =?= p) (aents_type T))
  | None => []
  end.
