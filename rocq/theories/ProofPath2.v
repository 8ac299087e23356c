(** * What a path means, continued: the command *)
From Coq Require Import Ascii String List ZArith Bool Lia.
From Verif Require Import Base MemMap Filter SpecFilter Pipeline SpecPipe PyStr MapFile SpecMap ElfRead SpecElf Project SpecProject Deps Table Formats Main SpecMain Command ProofProject1 ProofProject2 SpecPath ProofPath.
Import ListNotations.
Open Scope list_scope.
Open Scope Z_scope.

Lemma same_run d chips render encode ord pf a s s' quiet color terminal r q o st :
  place (d_cwd d) s r q -> place (d_cwd d) s' r q ->
  run_files d chips render encode ord pf (Cmd a s quiet color terminal) o st = run_files d chips render encode ord pf (Cmd a s' quiet color terminal) o st.
Proof.
  intros P P'. assert (E : projects_of d chips a s = projects_of d chips a s').
  { unfold projects_of, load_project, load_world. now rewrite (place_is _ _ _ _ P), (place_is _ _ _ _ P'). }
  unfold run_files, run_cmd, run_with, report, analyse, finish, console_of. cbn [c_args c_input c_quiet c_no_color c_force_terminal]. now rewrite E.
Qed.

(** every path means a place *)
Definition go (acc : list str) (p : str) : list str := if p =?= dotdot then tl acc else p :: acc.
Lemma leads_fold l : leads l (rev (fold_left go l [])).
Proof.
  induction l as [|p l IH] using rev_ind; [constructor|]. rewrite fold_left_app. cbn [fold_left]. unfold go at 1. destruct (keqP p dotdot) as [->|N].
  - destruct (fold_left go l []) as [|x acc]; cbn [tl rev] in *; [now apply leads_top|]. eapply leads_back. exact IH.
  - cbn [rev]. now apply leads_down.
Qed.
Lemma starts_some s : exists r, starts s r.
Proof.
  assert (G : exists n body, s = repeat "/"%char n ++ body /\ ~ rooted body).
  { induction s as [|c s (n & body & -> & N)]; [exists 0%nat, []; split; [reflexivity|intros (t & E); discriminate E]|].
    destruct (keqP c slash) as [->|Nc]; [exists (S n), body; now split|]. exists 0%nat, (c :: repeat "/"%char n ++ body). split; [reflexivity|]. intros (t & E). injection E as -> _. now apply Nc. }
  destruct G as (n & body & E & N). eexists. exists n, body. split; [exact E|]. split; [exact N|reflexivity].
Qed.
Lemma place_some cwd s : rooted cwd -> exists r q, place cwd s r q.
Proof.
  intros Rc. assert (Nm : forall t, names t (filter sig (pieces t))) by (intros t; exists (pieces t); split; [apply slashed_all|apply telling_all]).
  destruct s as [|c s].
  - destruct (starts_some cwd) as (r & S). exists r. eexists. eapply place_relative; [intros (t & E); discriminate E|exact Rc|exact S|apply Nm|apply Nm|apply leads_fold].
  - destruct (keqP c slash) as [->|Nc].
    + destruct (starts_some (slash :: s)) as (r & S). exists r. eexists. eapply place_absolute; [now eexists|exact S|apply Nm|apply leads_fold].
    + destruct (starts_some cwd) as (r & S). exists r. eexists. eapply place_relative; [intros (t & E); injection E as -> _; now apply Nc|exact Rc|exact S|apply Nm|apply Nm|apply leads_fold].
Qed.
