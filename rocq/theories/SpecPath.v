(** * Specification vocabulary: what a path means *)
From Coq Require Import Ascii String List ZArith Bool.
From Verif Require Import Base MemMap Pipeline PyStr MapFile SpecMap ElfRead SpecElf Project SpecProject.
Import ListNotations.
Open Scope list_scope.
Open Scope Z_scope.

(** what stands between the slashes *)
Inductive slashed : str -> list str -> Prop :=
| slashed_last : forall p, ~ In "/"%char p -> slashed p [p]
| slashed_more : forall p s l, ~ In "/"%char p -> slashed s l -> slashed (p ++ "/"%char :: s) (p :: l).
(** the names in a path: empty ones and dots mean nothing *)
Inductive telling : list str -> list str -> Prop :=
| telling_nil : telling [] []
| telling_empty : forall l q, telling l q -> telling ([] :: l) q
| telling_dot : forall l q, telling l q -> telling (("." : str) :: l) q
| telling_name : forall (p : str) l q, p <> [] -> p <> "." -> telling l q -> telling (p :: l) (p :: q).
Definition names (s : str) (l : list str) : Prop := exists ps, slashed s ps /\ telling ps l.
(** how it starts: a path with exactly two slashes is another one than with one, and more mean
    the same as one *)
Definition starts (s r : str) : Prop :=
  exists n body, s = repeat "/"%char n ++ body /\ ~ rooted body /\ r = match n with 0%nat => ([] : str) | 2%nat => "//" | _ => "/" end.

(** where the names lead from the root directory: [..] leads back *)
Inductive leads : list str -> list str -> Prop :=
| leads_nil : leads [] []
| leads_down : forall l q (p : str), leads l q -> p <> ".." -> leads (l ++ [p]) (q ++ [p])
| leads_back : forall l q (p : str), leads l (q ++ [p]) -> leads (l ++ [(".." : str)]) q
| leads_top : forall l, leads l [] -> leads (l ++ [(".." : str)]) [].
(** the place that a path means in a working directory *)
Inductive place (cwd s : str) : str -> list str -> Prop :=
| place_absolute : forall r l q, rooted s -> starts s r -> names s l -> leads l q -> place cwd s r q
| place_relative : forall r l1 l2 q, ~ rooted s -> rooted cwd -> starts cwd r -> names cwd l1 -> names s l2 -> leads (l1 ++ l2) q -> place cwd s r q.

(** a path without anything that means nothing *)
Definition spelled (r : str) (l : list str) : str := match r ++ relative_path l with [] => "." | p => p end.

(** a component of a description: its directory and its library, relative to the build
    directory [b]; it is an error if the library is not in there *)
Definition entry_file (j : json) (fn : str) : Prop := exists o, j = JObj o /\ dget (list_ascii_of_string "file") o = Some (JStr fn).
Definition entry_dir (j : json) (dir : str) : Prop := exists o, j = JObj o /\ dget (list_ascii_of_string "dir") o = Some (JStr dir).
Inductive component_any (b : str) (j : json) : list component -> Prop :=
| component_none : entry_file j [] -> component_any b j []
| component_some : forall fn dir r lb rest rd ld, entry_file j fn -> fn <> [] -> entry_dir j dir -> starts b r -> names b lb -> starts fn r -> names fn (lb ++ rest) ->
    starts dir rd -> names dir ld -> component_any b j [Component (spelled rd ld) (spelled [] rest)].
Definition component_outside (b : str) (j : json) : Prop :=
  exists fn dir r lb r' lf, entry_file j fn /\ fn <> [] /\ entry_dir j dir /\ starts b r /\ names b lb /\ starts fn r' /\ names fn lf /\
    (r' = r -> forall rest, lf <> lb ++ rest).
