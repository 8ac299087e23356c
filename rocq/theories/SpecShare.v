(** * Specification vocabulary: the percentages in the summary of a project *)
From Coq Require Import Ascii String List ZArith QArith Bool.
From Verif Require Import Base MemMap SpecTree SpecOps Filter SpecFilter Pipeline SpecPipe SpecBuild SpecBytes SpecShape PyStr MapFile SpecMap Table SpecTable SpecPercent SpecReport SpecMerge SpecLayout.
Import ListNotations.
Open Scope list_scope.
Open Scope Z_scope.

(** the output sections together are below 32 gigabytes, and so are the memory regions *)
Definition small (k : account) : Prop :=
  zsumf pr_size (ac_l k) < 2 ^ 35 /\ zsumf r_length (filter listed_region (ac_rs k)) < 2 ^ 35.
Definition all_small (k : account) (r : option account) : Prop :=
  small k /\ match r with None => True | Some k' => small k' end.

(** the share of the bytes [v] of the memory type, and the change of this share; nothing for
    a memory type of unknown size *)
Definition share_cell (a : args) (g : pgroup) (v : Z * Z) (c : str) : Prop :=
  if fst (pg_total g) =? 0 then c = []
  else percent_cell (given (a_diff a)) (percentage (fst v) (fst (pg_total g))) (percentage (fst v - snd v) (fst (pg_total g) - snd (pg_total g))) c.
Definition shares (a : args) (g : pgroup) (rows : list (list str)) : Prop :=
  exists r l, rows = r :: l /\ share_cell a g (pg_used g) (nth 2 r []) /\ Forall2 (fun s row => share_cell a g (snd s) (nth 2 row [])) (pg_sections g) l.

(** the figures and the rows of a memory type, with --unify and without *)
Definition figures_right (k : account) (r : option account) (a : args) (g : pgroup) : Prop :=
  if a_unify a then mgroup_right k r a g else pgroup_right k r a g.
Definition figures_rows (a : args) (g : pgroup) (rows : list (list str)) : Prop :=
  if a_unify a then mgroup_rows a g rows else pgroup_rows a g rows.
