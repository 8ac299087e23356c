(** * Concrete command lines for the Examples about the command *)
From Coq Require Import Ascii String List ZArith Bool.
From Verif Require Import Base MemMap SpecTree Filter Pipeline PyStr MapFile Deps Table Formats Main SpecMain Fixtures FixPipe.
Import ListNotations.
Open Scope list_scope.
Open Scope Z_scope.

Definition mx (s : string) : str := list_ascii_of_string s.
(** every path belongs to the project of FixPipe *)
Definition mx_projects (_ : str) : project := Project world_s3 None [].
Definition mx_order : set_order := fun _ l => l.
Definition mx_pct : pct_format := fun _ _ _ => mx "%".
(** the text shows the number of printed values *)
Definition mx_render (_ : console) (l : list piece) : str := mx "report " ++ show_Z (Z.of_nat (List.length l)).
Definition mx_encode (s : str) : str := s.
Definition mx_args (f : format) (details : option str) (d : option str) (unify no_abbrev dep unchanged : bool) (out : option str) : args :=
  Args f false dep false false details false d no_abbrev true unify false unchanged false None out (mx "1") None false true.
Definition mx_cmd (a : args) : cmd := Cmd a (mx "app.map") false false None.
Definition mx_run (c : cmd) := run_cmd mx_render mx_encode mx_order mx_pct mx_projects c.
Definition mx_start : state := start [(mx "out.txt", mx "previous"); (mx "other", mx "data")].
(** a fault at one step *)
Definition mx_fault (n : nat) (f : fault) (k : nat) : oracle := fun i => if Nat.eqb i n then Some (f, k) else None.
