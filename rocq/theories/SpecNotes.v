(** * SpecNotes: the messages of a command, and the steps of a killed one *)
From Coq Require Import Ascii String List ZArith Bool.
From Verif Require Import Base MemMap Filter Pipeline PyStr MapFile Deps Table Formats Main SpecMain.
Import ListNotations.
Open Scope list_scope.
Open Scope Z_scope.

(** the reference the project is compared with; the reports of dependencies have none *)
Definition reference (a : args) : option str :=
  match a_diff a with
  | None | Some [] => None
  | Some fn => if a_archive_dependencies a then None else Some fn
  end.
(** no report of archives, of the symbols of one, of dependencies or of object files *)
Definition summary_asked (a : args) : Prop :=
  a_archives a = false /\ (a_archive_details a = None \/ a_archive_details a = Some []) /\ a_archive_dependencies a = false /\ a_files a = false.
Definition with_tables (a : args) : Prop := a_format a = FTable \/ a_format a = FText.

(** [ms] if [P], else nothing *)
Definition when (P : Prop) (ms l : list note) : Prop := (P /\ l = ms) \/ (~ P /\ l = []).

(** the messages [l] of a report of [cur], compared with [ref] if there is one *)
Definition messages (a : args) (cur : memmap) (ref : option memmap) (l : list note) : Prop :=
  exists l1 l2 l3 l4 l5, l = l1 ++ l2 ++ l3 ++ l4 ++ l5 /\
    when (a_no_abbrev a = true /\ a_unify a = true) [WarnNoAbbrev] l1 /\
    when (a_archive_dependencies a = true /\ exists fn, a_diff a = Some fn /\ fn <> []) [WarnDiff] l2 /\
    match ref with
    | Some r => when (m_target cur <> m_target r) [WarnTarget (m_target cur) (m_target r)] l3 /\
                when (with_tables a) [DiffInfo (m_project_path cur) (m_project_path r)] l4 /\
                when (with_tables a /\ summary_asked a) [ImageInfo (m_image_size cur) (m_image_size cur - m_image_size r); SizeNote] l5
    | None => l3 = [] /\ l4 = [] /\ when (with_tables a /\ summary_asked a) [ImageInfo (m_image_size cur) 0; SizeNote] l5
    end.

(** the process was killed at its last step *)
Definition killed_last (o : oracle) (s' : state) : Prop := exists n k, o n = Some (FKill, k) /\ s_tick s' = S n.
