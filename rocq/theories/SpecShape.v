(** * Specification of the memory map returned by [get]: names shown, no differences, sizes of
    memory types *)
From Coq Require Import Ascii String List ZArith.
From Verif Require Import Base MemMap SpecTree Pipeline SpecPipe.
Import ListNotations.
Open Scope list_scope.
Open Scope Z_scope.

(** [b] is the part of [s] after the last [c], all of [s] if there is no [c] *)
Definition after_last (c : ascii) (s b : str) : Prop := ~ In c b /\ (s = b \/ exists pre, s = pre ++ c :: b).

(** the name shown for the entry at a path of section / archive / object file / symbol *)
Definition label (p : list str) (l : str) : Prop :=
  match p with
  | [n] => exists b, after_last "."%char n b /\ l = "."%char :: b
  | [_; a] => after_last "/"%char a l
  | [_; _; o] => after_last "/"%char o l
  | [_; _; _; y] => l = y
  | _ => False
  end.

(** a memory map that has not been compared, merged or changed *)
Definition pristine (m : memmap) : Prop :=
  wf_map m /\ m_target_diff m = [] /\ m_image_size_diff m = 0 /\ m_project_path_diff m = [] /\
  forall t T, In (t, T) (m_types m) ->
    t_size_diff T = 0 /\ t_used_diff T = 0 /\
    (forall p e, In (p, e) (ents_type T) -> e_diff e = 0 /\ label p (e_abbrev e)) /\
    (forall n s a x, In (n, s) (t_sections T) -> In (a, x) (n_sub s) ->
       n_size x = zsumf (fun kv => n_size (snd kv)) (n_sub x)).

(** the regions of the linker script that count: not the catch-all region *)
Definition listed_region (r : region) : bool := negb (r_name r =?= list_ascii_of_string "*default*").
