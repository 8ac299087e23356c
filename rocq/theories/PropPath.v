(** * Property C128: what paths mean, with dots, double slashes and ways back *)
From Coq Require Import Ascii String List ZArith Bool Lia.
From Verif Require Import Base MemMap Filter SpecFilter Pipeline SpecPipe PyStr MapFile SpecMap FixMap ElfRead SpecElf FixElf Project SpecProject FixProject Chips Deps Table Formats Main SpecMain FixMain Command SpecPath PropProject PropEnd PropCommand ProofPath ProofPath2.
Import ListNotations.
Open Scope list_scope.
Open Scope Z_scope.

(** C128: two paths that mean the same place are the same input: the command does the same *)
Theorem c128_same_place : forall d chips render encode ord pf a s s' quiet color terminal r q o st,
  place (d_cwd d) s r q -> place (d_cwd d) s' r q ->
  run_files d chips render encode ord pf (Cmd a s quiet color terminal) o st = run_files d chips render encode ord pf (Cmd a s' quiet color terminal) o st.
Proof. exact same_run. Qed.
Print Assumptions c128_same_place.

(** there is always such a place, as the path of the working directory starts with a slash *)
Theorem c128_some_place : forall cwd s, rooted cwd -> exists r q, place cwd s r q.
Proof. exact place_some. Qed.
Print Assumptions c128_some_place.

(** the path of the memory map is the place without anything that means nothing *)
Theorem c128_path : forall d chips s r q ls ud m, place (d_cwd d) s r q -> get_files d chips s ls ud = Ok m -> m_project_path m = r ++ relative_path q.
Proof. exact place_shown. Qed.
Print Assumptions c128_path.

(** the components of a description: names of directories and libraries can be written in any
    way, and a library that is not in the build directory is an error *)
Theorem c128_components : forall o info b ls, dget (list_ascii_of_string "build_component_info") o = Some (JObj info) -> dget (list_ascii_of_string "build_dir") o = Some (JStr b) ->
  Forall2 (fun kv l => component_any b (snd kv) l) info ls -> load_components (JObj o) = Ok (concat ls).
Proof. exact components_loaded. Qed.
Print Assumptions c128_components.
Theorem c128_outside : forall o info1 kv info2 b ls, dget (list_ascii_of_string "build_component_info") o = Some (JObj (info1 ++ kv :: info2)) -> dget (list_ascii_of_string "build_dir") o = Some (JStr b) ->
  Forall2 (fun kv l => component_any b (snd kv) l) info1 ls -> component_outside b (snd kv) -> load_components (JObj o) = Err ValueError.
Proof. exact components_refused. Qed.
Print Assumptions c128_outside.

(** ** examples *)
Local Notation tx := (fun s => list_ascii_of_string s%string).
Ltac t_names := match goal with |- names ?s ?l => replace l with (filter sig (pieces s)) by (vm_compute; reflexivity); exists (pieces s); split; [apply slashed_all|apply telling_all] end.
Ltac t_starts n body := exists n, (list_ascii_of_string body); split; [reflexivity|]; split; [intros (? & X); discriminate X|reflexivity].

(** in the directory /tmp *)
Definition px_long : str := tx "./..//x/../home/me/app/build/./app.map".
Definition px_back : str := tx "///home/../../home/me/app/build//app.map".
Definition px_parts : list str := map tx ["home"; "me"; "app"; "build"; "app.map"]%string.

Ltac t_leads := match goal with |- leads ?l ?q => replace q with (rev (fold_left go l [])) by (vm_compute; reflexivity); apply leads_fold end.
Lemma px_long_place : place (d_cwd disk1) px_long (tx "/") px_parts.
Proof.
  apply (place_relative _ _ _ (map tx ["tmp"])%string (map tx [".."; "x"; ".."; "home"; "me"; "app"; "build"; "app.map"])%string).
  - intros (t & E). discriminate E.
  - now eexists.
  - t_starts 1%nat "tmp"%string.
  - t_names.
  - t_names.
  - t_leads.
Qed.
Lemma px_back_place : place (d_cwd disk1) px_back (tx "/") px_parts.
Proof.
  apply (place_absolute _ _ _ (map tx ["home"; ".."; ".."; "home"; "me"; "app"; "build"; "app.map"])%string).
  - now eexists.
  - t_starts 3%nat "home/../../home/me/app/build//app.map"%string.
  - t_names.
  - t_leads.
Qed.
Example c128_place_example : exists m, rooted (d_cwd disk1) /\ place (d_cwd disk1) px_long (tx "/") px_parts /\ place (d_cwd disk1) px_back (tx "/") px_parts /\
  get_files disk1 (get_memory_types chip_info) px_long false (Some false) = Ok m /\ m_project_path m = tx "/home/me/app/build/app.map".
Proof.
  eexists. split; [now eexists|]. split; [exact px_long_place|]. split; [exact px_back_place|]. split; [vm_compute; reflexivity|]. reflexivity.
Qed.
(** two slashes at the start are another place than one *)
Example c128_two_slashes : place (tx "/") (tx "//a/./b") (tx "//") (map tx ["a"; "b"]%string).
Proof.
  apply (place_absolute _ _ _ (map tx ["a"; "b"])%string); [now eexists|t_starts 2%nat "a/./b"%string|t_names|t_leads].
Qed.

Definition path_object (file : string) : dict str json :=
  [ (tx "build_dir", JStr (tx "/p//build/")); (tx "build_component_info", JObj [
      (tx "cfg", JObj [(tx "file", JStr []); (tx "dir", JStr (tx "/p/cfg"))]);
      (tx "led", JObj [(tx "file", JStr (tx file)); (tx "dir", JStr (tx "/p/./led/"))]) ]) ].
Lemma path_build : starts (tx "/p//build/") (tx "/") /\ names (tx "/p//build/") (map tx ["p"; "build"]%string).
Proof. split; [t_starts 1%nat "p//build/"%string|t_names]. Qed.
Example c128_components_example : load_components (JObj (path_object "/p/build/./esp-idf//led/libled.a")) = Ok [Component (tx "/p/led") (tx "esp-idf/led/libled.a")].
Proof.
  destruct path_build as (S & N).
  refine (c128_components (path_object "/p/build/./esp-idf//led/libled.a") _ (tx "/p//build/") [[]; [Component (tx "/p/led") (tx "esp-idf/led/libled.a")]] eq_refl eq_refl _).
  constructor; [|constructor; [|constructor]].
  - apply component_none. eexists. split; reflexivity.
  - refine (component_some _ _ (tx "/p/build/./esp-idf//led/libled.a") (tx "/p/./led/") (tx "/") (map tx ["p"; "build"]%string) (map tx ["esp-idf"; "led"; "libled.a"]%string) (tx "/") (map tx ["p"; "led"]%string) _ _ _ S N _ _ _ _).
    + eexists. split; reflexivity.
    + discriminate.
    + eexists. split; reflexivity.
    + t_starts 1%nat "p/build/./esp-idf//led/libled.a"%string.
    + t_names.
    + t_starts 1%nat "p/./led/"%string.
    + t_names.
Qed.
Example c128_outside_example : load_components (JObj (path_object "/p/lib/libled.a")) = Err ValueError.
Proof.
  destruct path_build as (S & N).
  refine (c128_outside (path_object "/p/lib/libled.a") [_] _ [] (tx "/p//build/") [[]] eq_refl eq_refl _ _).
  - constructor; [|constructor]. apply component_none. eexists. split; reflexivity.
  - exists (tx "/p/lib/libled.a"), (tx "/p/./led/"), (tx "/"), (map tx ["p"; "build"]%string), (tx "/"), (map tx ["p"; "lib"; "libled.a"]%string).
    split; [eexists; split; reflexivity|]. split; [discriminate|]. split; [eexists; split; reflexivity|]. split; [exact S|]. split; [exact N|].
    split; [t_starts 1%nat "p/lib/libled.a"%string|]. split; [t_names|]. intros _ rest. discriminate.
Qed.
