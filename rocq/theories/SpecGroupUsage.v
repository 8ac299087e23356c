(** * Specification vocabulary: --unify adds up the sections of the summary *)
From Coq Require Import Ascii String List ZArith Bool.
From Verif Require Import Base MemMap Filter Pipeline SpecShape Deps Table SpecTable Formats Main SpecMain SpecReport SpecAdds SpecCompareUsage.
Import ListNotations.
Open Scope list_scope.
Open Scope Z_scope.

(** The memory types and their used bytes are the same.  The row of an abbreviated name has the sums
    of the rows of the sections with it: the difference always (no row: 0), the bytes if all rows
    are asked for, and then there is a row exactly if there is one of such a section *)
Definition grouped_usage (a : args) (plain unified : list pgroup) : Prop :=
  (forall T, In T (map pg_type plain) <-> In T (map pg_type unified)) /\
  forall g h, In g plain -> In h unified -> pg_type g = pg_type h -> pg_used g = pg_used h /\
    forall B part, (forall N, part N = true <-> label [N] B) ->
      let rows := filter (fun s => part (fst s)) (pg_sections g) in
      (forall v, In (B, v) (pg_sections h) -> snd v = zsumf (fun s => snd (snd s)) rows) /\
      (~ In B (map fst (pg_sections h)) -> zsumf (fun s => snd (snd s)) rows = 0) /\
      (shows_all a -> (forall v, In (B, v) (pg_sections h) -> fst v = zsumf (fun s => fst (snd s)) rows) /\ (In B (map fst (pg_sections h)) <-> rows <> [])).
