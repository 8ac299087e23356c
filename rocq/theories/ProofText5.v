(** * Proofs about what the JSON texts say *)
From Coq Require Import Ascii String List ZArith Lia Bool Permutation.
From Verif Require Import Base MemMap Filter PyStr Pipeline MapFile Deps Table SpecTable SpecMap ProofTable Formats Markup Project Main JsonText Text SpecText ProofText1 ProofText2 ProofText4.
Import ListNotations.
Open Scope list_scope.

Lemma members_map {A} (R : json -> A -> Prop) (f : A -> json) (d : dict str A) : (forall x, In x d -> R (f (snd x)) (snd x)) ->
  members R (JObj (map (fun kv => (fst kv, f (snd kv))) d)) d.
Proof.
  intros H. exists (map (fun kv => (fst kv, f (snd kv))) d). split; [reflexivity|]. induction d as [|x d IH]; constructor; [split; [reflexivity|]; apply H; now left|].
  apply IH. intros y I. apply H. now right.
Qed.
Lemma list_map {A} (R : json -> A -> Prop) (f : A -> json) (l : list A) : (forall x, R (f x) x) -> list_of R (JList (map f l)) l.
Proof. intros H. exists (map f l). split; [reflexivity|]. induction l; constructor; auto. Qed.
Ltac same := eexists; split; [reflexivity|]; cbn [map fst snd]; reflexivity.

Lemma node_says {C} ch (R : json -> C -> Prop) f n : (forall x, R (f x) x) -> says_node ch R (json_of_node ch f n) n.
Proof. intros H. eexists. split; [apply members_map; intros x _; apply H|]. same. Qed.
Lemma sym_says y : says_sym (json_of_sym y) y.
Proof. unfold says_sym, json_of_sym. destruct (y_null y); same. Qed.
Lemma mtype_says t : says_mtype (json_of_mtype t) t.
Proof. eexists. split; [apply members_map; intros x _; repeat (apply node_says; intros ?); apply sym_says|]. same. Qed.
Lemma memmap_says m : says_memmap (json_of_memmap m) m.
Proof. eexists. split; [apply members_map; intros x _; apply mtype_says|]. same. Qed.
Lemma entry_says e : says_entry (json_of_entry e) e.
Proof.
  eexists. split; [apply members_map|same]. intros x _. eexists. split; [apply members_map|same]. intros y _. unfold says_ssect, json_of_sect.
  eexists. split; [reflexivity|]. cbn [map fst snd]. 
  eapply Permutation_trans; [apply perm_skip, perm_swap|]. apply perm_swap.
Qed.
Lemma darch_says d : says_darch (json_of_darch d) d.
Proof. eexists. split; [apply members_map|same]. intros x _. eexists. split; [apply list_map|same]. reflexivity. Qed.
Lemma summary_says s : says_summary (json_of_summary s) s.
Proof.
  eexists. split; [apply list_map|same]. intros t. eexists. split; [|same].
  apply (members_map says_part (fun z => JObj [(key "size", JNum z)])). intros x _. same.
Qed.
Lemma piece_says p j : json_of_piece p = Some j -> says j p.
Proof.
  destruct p; cbn [json_of_piece]; intros E; try discriminate; injection E as <-; cbn [says].
  - apply summary_says.
  - apply members_map. intros x _. apply entry_says.
  - apply members_map. intros x _. apply darch_says.
  - apply memmap_says.
Qed.

(** names *)
Lemma free_obj d : Forall (fun kv => no_bracket (fst kv) /\ names_free (snd kv)) d -> names_free (JObj d).
Proof. cbn [names_free]. induction 1 as [|x d [A B] F IH]; [exact I|]. repeat split; assumption. Qed.
Lemma free_list l : Forall names_free l -> names_free (JList l).
Proof. cbn [names_free]. induction 1 as [|x d A F IH]; [exact I|]. split; assumption. Qed.
Lemma free_members {A} (f : A -> json) (N : A -> list str) (d : dict str A) : (forall x, Forall no_bracket (N x) -> names_free (f x)) ->
  Forall no_bracket (flat_map (fun kv => fst kv :: N (snd kv)) d) -> names_free (JObj (map (fun kv => (fst kv, f (snd kv))) d)).
Proof.
  intros H F. apply free_obj. induction d as [|x d IH]; [constructor|]. cbn [flat_map map] in *. inversion F as [|? ? F1 F2]; subst. apply Forall_app in F2. destruct F2 as [F2 F3].
  constructor; [split; [exact F1|apply H, F2]|apply IH, F3].
Qed.
Ltac lits := intros ?X; vm_compute in X; repeat (destruct X as [X|X]; [discriminate X|]); contradiction.
Ltac fld := apply free_obj; repeat (first [apply Forall_cons; [split; [lits|cbn [snd]; try exact I]|]|apply Forall_nil]).
Lemma free_node {C} ch (f : C -> json) N (n : node C) : no_bracket (key ch) -> (forall x, Forall no_bracket (N x) -> names_free (f x)) -> Forall no_bracket (node_names N n) -> names_free (json_of_node ch f n).
Proof.
  intros K H F. inversion F as [|? ? F1 F2]; subst. apply free_obj. repeat apply Forall_cons; try apply Forall_nil; cbn [fst snd]; split; try lits; try exact I; try assumption.
  now apply (free_members f N).
Qed.
Lemma free_section s : Forall no_bracket (section_names s) -> names_free (json_of_section s).
Proof.
  apply free_node; [lits|]. intros ar. apply free_node; [lits|]. intros o. apply free_node; [lits|]. intros y F. unfold json_of_sym. inversion F; subst.
  apply free_obj. destruct (y_null y); cbn [app]; repeat apply Forall_cons; try apply Forall_nil; cbn [fst snd]; split; try lits; try exact I; assumption.
Qed.
Lemma free_entry e : Forall no_bracket (entry_names e) -> names_free (json_of_entry e).
Proof.
  intros F. inversion F as [|? ? F1 F2]; subst. fld; [exact F1|]. apply (free_members json_of_stype (fun t => flat_map (fun s => [fst s; ss_abbrev (snd s)]) (st_sections t))); [|exact F2].
  intros t Ft. fld. apply (free_members json_of_sect (fun s => [ss_abbrev s])); [|exact Ft]. intros s Fs. inversion Fs; subst. fld. assumption.
Qed.
Lemma free_darch d : Forall no_bracket (darch_names d) -> names_free (json_of_darch d).
Proof.
  intros F. inversion F as [|? ? F1 F2]; subst. fld; [exact F1|]. apply (free_members json_of_dent (fun e => de_abbrev e :: de_symbols e)); [|exact F2].
  intros e Fe. inversion Fe as [|? ? E1 E2]; subst. fld; [exact E1|]. apply free_list. clear -E2. induction E2; constructor; assumption.
Qed.
Lemma free_jtype t : Forall no_bracket (j_name t :: map fst (j_parts t)) -> names_free (json_of_type t).
Proof.
  intros F. inversion F as [|? ? F1 F2]; subst. fld; [exact F1|]. apply free_obj. clear -F2. induction (j_parts t) as [|x l IH]; [constructor|]. cbn [map] in *. inversion F2; subst.
  constructor; [split; [assumption|fld]|]. now apply IH.
Qed.
Lemma piece_free p j : json_of_piece p = Some j -> Forall no_bracket (piece_names p) -> names_free j.
Proof.
  destruct p; cbn [json_of_piece piece_names]; intros E F; try discriminate; injection E as <-.
  - fld; [lits|]. apply free_list. induction (js_layout s) as [|t l IH]; [constructor|]. cbn [flat_map map] in *. apply Forall_app in F. destruct F as [F1 F2].
    constructor; [now apply free_jtype|now apply IH].
  - now apply (free_members json_of_entry entry_names); [apply free_entry|].
  - now apply (free_members json_of_darch darch_names); [apply free_darch|].
  - cbn [app] in F. repeat match goal with H : Forall _ (_ :: _) |- _ => apply Forall_cons_iff in H; destruct H as [? H] end. fld; try assumption; [lits|].
    apply (free_members json_of_mtype (fun t => flat_map (fun s => fst s :: section_names (snd s)) (t_sections t))); [|assumption].
    intros t Ft. fld. now apply (free_members json_of_section section_names); [apply free_section|].
Qed.

Lemma json_text_ok nm p t : json_text p = Some t ->
  exists j, read_json t = Some j /\ says j p /\ (Forall no_bracket (piece_names p) -> shown_as nm t t).
Proof.
  unfold json_text. destruct (json_of_piece p) as [j|] eqn:E; [|discriminate]. intros [= <-]. exists j. split; [apply dumps_json|]. split; [now apply piece_says|].
  intros F. apply dumps_shown. now apply (piece_free p).
Qed.
