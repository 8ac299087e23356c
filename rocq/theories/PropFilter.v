(** * Property C49: filtering of reports *)
From Coq Require Import Ascii String List ZArith.
From Verif Require Import Base MemMap Filter SpecFilter ProofFilter Fixtures.
Import ListNotations.
Open Scope list_scope.

(** exactly the entries with a matching name, in order *)
Theorem c49_filter_exact : forall entries a patterns, a_filter a = Some patterns ->
  exists keep, get_summary_filtered entries a = filter keep entries /\
  forall n e, keep (n, e) = true <->
    exists p, In p patterns /\ matches_somewhere (translate p) (if a_abbrev a then se_abbrev e else n).
Proof. exact filtered_ok. Qed.
Print Assumptions c49_filter_exact.

(** no --filter: everything *)
Theorem c49_no_filter : forall entries a, a_filter a = None -> get_summary_filtered entries a = entries.
Proof. intros entries a E. unfold get_summary_filtered, summary_filtered. rewrite E. reflexivity. Qed.
Print Assumptions c49_no_filter.

(** the matcher decides the language of the pattern *)
Theorem c49_glob_language : forall g s, gmatch g s = true <-> lang g s.
Proof. exact gmatch_ok. Qed.
Print Assumptions c49_glob_language.

(** a pattern without wildcard characters means substring search *)
Theorem c49_plain_is_substring : forall name p, plain p ->
  fnmatch name ("*"%char :: p ++ ["*"%char]) = true <-> substring p name.
Proof. exact fnmatch_plain. Qed.
Print Assumptions c49_plain_is_substring.

(** patterns written with wildcards and classes: the entries whose name contains the pattern *)
Theorem c49_written : forall entries a pats, a_filter a = Some (map show_pattern pats) -> Forall (Forall fine_piece) pats ->
  exists keep, get_summary_filtered entries a = filter keep entries /\
  forall n e, keep (n, e) = true <-> exists p, In p pats /\ contains_pattern p (if a_abbrev a then se_abbrev e else n).
Proof. exact (written_filter_ok se_abbrev). Qed.
Print Assumptions c49_written.

Example c49_written_example :
  let p := [Char "b"%char; Class false [One "x"%char; Range "k"%char "m"%char]; AnyText; Class true [Range "0"%char "9"%char]]%list in
  show_pattern p = list_ascii_of_string "b[xk-m]*[!0-9]" /\ Forall fine_piece p /\
  keys (get_summary_filtered (get_archives_summary ex_cur ex_args) (args_filter ["b[xk-m]*[!0-9]"] ex_args)) <> [] /\
  contains_pattern p (list_ascii_of_string "esp/liblog.a").
Proof.
  split; [reflexivity|]. split; [repeat constructor; discriminate|]. split; [vm_compute; discriminate|].
  exists (list_ascii_of_string "esp/li"), [["b"%char]; ["l"%char]; list_ascii_of_string "og."; ["a"%char]], [].
  split; [reflexivity|]. repeat constructor.
  - exists "l"%char. split; [reflexivity|]. apply Exists_cons_tl, Exists_cons_hd. cbn. repeat constructor.
  - exists "a"%char. split; [reflexivity|]. intro H. inversion H as [? ? X|? ? X]; subst; [|inversion X].
    cbn in X. destruct X as [_ X]. repeat apply le_S_n in X. inversion X.
Qed.

Example c49_example :
  a_filter (args_filter ["log"; "m?i[a-m]"] ex_args) <> None /\
  keys (get_summary_filtered (get_archives_summary ex_cur ex_args) (args_filter ["log"] ex_args)) = path ["esp-idf/log/liblog.a"] /\
  keys (get_summary_filtered (get_archives_summary ex_cur ex_args) (args_filter ["b[k-m]og"] ex_args)) = path ["esp-idf/log/liblog.a"] /\
  keys (get_summary_filtered (get_archives_summary ex_cur ex_args) (args_filter ["b[!k-m]*a"] ex_args)) = [] /\
  keys (get_summary_filtered (get_archives_summary ex_cur ex_args) (args_filter ["b[!k-l]*a"; "zzz"] ex_args)) = path ["esp-idf/main/libmain.a"].
Proof. split; [discriminate|]. vm_compute. repeat split; reflexivity. Qed.
