(** * From the words of the command line to the report *)
From Coq Require Import Ascii String List ZArith Lia Bool Sorted.
From Verif Require Import Base MemMap SpecTree SpecOps Filter SpecFilter Pipeline SpecPipe SpecBuild SpecBytes SpecShape PyStr MapFile SpecMap ElfRead SpecElf Project SpecProject SpecEnd Chips SpecChips
  Deps Table SpecTable Formats Markup JsonText CommandLine Main SpecMain Command SpecCommand SpecFail SpecReport SpecText SpecLines SpecFile SpecLetters SpecLine SpecWords
  ProofFail4 ProofFile ProofCommand3 ProofCommand6 ProofLetters ProofLine1 ProofLine2 ProofLine3.
Import ListNotations.
Open Scope list_scope.

Local Notation tx := list_ascii_of_string.

Lemma switched_fun s l a b : switched s l a -> switched s l b -> a = b.
Proof. unfold switched. intros [A1 A2] [B1 B2]. destruct a, b; try reflexivity; [symmetry; apply B2, A1; reflexivity|apply A2, B1; reflexivity]. Qed.
Lemma lto_end l o : last_lto l o -> forall p, last_lto l p -> o = p.
Proof.
  assert (K : forall a b s t x y, In s [Lto; NoLto] -> In t [Lto; NoLto] -> a ++ Switch s :: b = x ++ Switch t :: y -> ~ In (Switch Lto) b -> ~ In (Switch NoLto) b -> ~ In (Switch Lto) y -> ~ In (Switch NoLto) y -> s = t).
  { induction a as [|i a IH]; intros b s t x y Hs Ht E B1 B2 Y1 Y2; destruct x as [|j x]; cbn [app] in E; injection E as E1 E2.
    - assumption.
    - exfalso. subst b. destruct Ht as [<-|[<-|[]]]; [apply B1|apply B2]; apply in_or_app; right; left; reflexivity.
    - exfalso. subst y. destruct Hs as [<-|[<-|[]]]; [apply Y1|apply Y2]; apply in_or_app; right; left; reflexivity.
    - eapply IH; eassumption. }
  assert (M : forall (a b : list item) s, In (Switch s) (a ++ Switch s :: b)) by (intros; apply in_or_app; right; left; reflexivity).
  intros H p P. destruct H as [l N1 N2|a b N1 N2|a b N1 N2]; inversion P as [l' P1 P2 E|x y P1 P2 E|x y P1 P2 E]; subst; try reflexivity; exfalso.
  - now apply N1.
  - now apply N2.
  - now apply P1.
  - assert (X : NoLto = Lto) by (eapply K; [..|exact E|exact P1|exact P2|exact N1|exact N2]; cbn [In]; auto). discriminate.
  - now apply P2.
  - assert (X : Lto = NoLto) by (eapply K; [..|exact E|exact P1|exact P2|exact N1|exact N2]; cbn [In]; auto). discriminate.
Qed.
Lemma format_fun o f g : names_format o f -> names_format o g -> f = g.
Proof.
  destruct o as [x|]; cbn [names_format]; [|now intros -> ->]. rewrite !lowered_eq. intros F G. rewrite <- G in F. destruct f, g; solve [reflexivity|discriminate].
Qed.

(** two meanings of one command line *)
Lemma means_fun l env c c' : means l env c -> means l env c' -> exists b, c' = Cmd (set_abbrev b (c_args c)) (c_input c) (c_quiet c) (c_no_color c) (c_force_terminal c).
Proof.
  intros [M1 M2 M3 M4 M5 M6 M7 M8 M9 M10 M11 M12 M13 M14 M15 M16 M17 M18 M19 M20 M21 M22 M23] [N1 N2 N3 N4 N5 N6 N7 N8 N9 N10 N11 N12 N13 N14 N15 N16 N17 N18 N19 N20 N21 N22 N23].
  exists (a_abbrev (c_args c')). destruct c as [a i q n t], c' as [a' i' q' n' t'].
  destruct a as [f1 f2 f3 f4 f5 f6 f7 f8 f9 f10 f11 f12 f13 f14 f15 f16 f17 f18 f19 f20], a' as [g1 g2 g3 g4 g5 g6 g7 g8 g9 g10 g11 g12 g13 g14 g15 g16 g17 g18 g19 g20].
  cbn [c_args c_input c_quiet c_no_color c_force_terminal a_format a_archives a_archive_dependencies a_dep_symbols a_dep_reverse a_archive_details a_files a_diff a_no_abbrev a_abbrev a_unify a_show_unused
    a_show_unchanged a_use_flash_size a_use_dwarf a_output_file a_sort a_filter a_sort_diff a_sort_reverse] in *. unfold set_abbrev.
  cbn [a_format a_archives a_archive_dependencies a_dep_symbols a_dep_reverse a_archive_details a_files a_diff a_no_abbrev a_abbrev a_unify a_show_unused
    a_show_unchanged a_use_flash_size a_use_dwarf a_output_file a_sort a_filter a_sort_diff a_sort_reverse].
  pose proof (switched_fun _ _ _ _ M20 N20) as E20.
  assert (T : t = t').
  { destruct M23 as [M M'], N23 as [N N']. destruct t as [[|]|], t' as [[|]|]; try reflexivity; try (now destruct M); try (now destruct N); exfalso.
    + assert (X : (None : option bool) = Some true) by (apply N', M'; reflexivity). discriminate.
    + assert (X : (None : option bool) = Some true) by (apply M', N'; reflexivity). discriminate. }
  assert (E18 : f18 = g18).
  { clear - M18 N18. destruct f18 as [p|], g18 as [p'|]; try (destruct M18 as [M18 M18']); try (destruct N18 as [N18 N18']); congruence. }
  rewrite M1 in N1. injection N1 as N1. rewrite <- M17 in N17. injection N17 as N17. rewrite <- M7 in N7. rewrite <- M9 in N9. rewrite <- M16 in N16.
  pose proof (format_fun _ _ _ M2 N2). pose proof (lto_end _ _ M15 _ N15).
  pose proof (switched_fun _ _ _ _ M3 N3). pose proof (switched_fun _ _ _ _ M4 N4). pose proof (switched_fun _ _ _ _ M5 N5). pose proof (switched_fun _ _ _ _ M6 N6).
  pose proof (switched_fun _ _ _ _ M8 N8). pose proof (switched_fun _ _ _ _ M10 N10). pose proof (switched_fun _ _ _ _ M11 N11). pose proof (switched_fun _ _ _ _ M12 N12).
  pose proof (switched_fun _ _ _ _ M13 N13). pose proof (switched_fun _ _ _ _ M14 N14). pose proof (switched_fun _ _ _ _ M19 N19). pose proof (switched_fun _ _ _ _ M21 N21). pose proof (switched_fun _ _ _ _ M22 N22).
  assert (f20 = g20) by (destruct f20, g20; solve [reflexivity|discriminate]).
  clear M1 M2 M3 M4 M5 M6 M7 M8 M9 M10 M11 M12 M13 M14 M15 M16 M17 M18 M19 M20 M21 M22 M23 N2 N3 N4 N5 N6 N8 N10 N11 N12 N13 N14 N15 N18 N19 N20 N21 N22 N23. subst. reflexivity.
Qed.

Section Words.
Variables (d : disk) (chips : str -> res (list chip_type)) (render : console -> list piece -> str) (encode : str -> str) (ord : set_order) (pf : pct_format) (env : bool).

Lemma normalise_abbrev a b o s : normalise (set_abbrev b a) o s = normalise a o s.
Proof.
  destruct a as [f1 f2 f3 f4 f5 f6 f7 f8 f9 f10 f11 f12 f13 f14 f15 f16 f17 f18 f19 f20]. unfold normalise, set_abbrev. cbn -[andthen tell]. unfold andthen.
  destruct (f9 && f11); cbn -[tell].
  - destruct (tell WarnNoAbbrev o s) as [[?|?|] s1]; try reflexivity. cbn -[tell]. destruct (f3 && given f8); cbn -[tell]; [|reflexivity]. destruct (tell WarnDiff o s1) as [[?|?|] s2]; reflexivity.
  - destruct (f3 && given f8); cbn -[tell]; [|reflexivity]. destruct (tell WarnDiff o s) as [[?|?|] s2]; reflexivity.
Qed.
Lemma run_abbrev c b o s : run_files d chips render encode ord pf (Cmd (set_abbrev b (c_args c)) (c_input c) (c_quiet c) (c_no_color c) (c_force_terminal c)) o s =
  run_files d chips render encode ord pf c o s.
Proof.
  destruct c as [a i q n t]. unfold run_files, run_cmd, run_with, handle. cbn [c_args c_input c_quiet c_no_color c_force_terminal].
  assert (P : projects_of d chips (set_abbrev b a) = projects_of d chips a) by reflexivity. rewrite P.
  assert (R : forall o s, report load_symbols ord pf (projects_of d chips a) (Cmd (set_abbrev b a) i q n t) o s = report load_symbols ord pf (projects_of d chips a) (Cmd a i q n t) o s).
  { intros o1 s1. unfold report. unfold andthen at 1. unfold andthen at 3. change (console_of (Cmd (set_abbrev b a) i q n t)) with (console_of (Cmd a i q n t)).
    destruct (set_console _ o1 s1) as [[?|?|] s2]; try reflexivity. unfold andthen at 1. unfold andthen at 2. cbn [c_args]. rewrite normalise_abbrev. reflexivity. }
  assert (F : finish render encode (Cmd (set_abbrev b a) i q n t) = finish render encode (Cmd a i q n t)) by reflexivity. rewrite F. unfold andthen. now rewrite R.
Qed.
Lemma words_run ws l c : says ws l -> ~ In (Switch Doc) l -> ~ In (Switch Help) l -> means l env c ->
  forall o s, main_words d chips render encode ord pf env ws o s = run_files d chips render encode ord pf c o s.
Proof.
  intros S D H M o s. pose proof (parse_says env ws l S) as U. unfold main_words. destruct (parse_command_line env ws) as [c'| | |]; cbn [understood] in U.
  - destruct U as (_ & _ & M'). destruct (means_fun _ _ _ _ M M') as (b & ->). apply run_abbrev.
  - destruct U as (a & b & -> & _). destruct H. apply in_or_app. right. now left.
  - destruct U as (a & b & -> & _). destruct D. apply in_or_app. right. now left.
  - destruct U as (_ & _ & U). now destruct (U c).
Qed.
End Words.

Lemma words_summary d dir name text rs l crt im t types env ws items c fn fs normalize render encode ord pf :
  console_shows normalize render -> keeps_ascii encode ->
  says ws items -> ~ In (Switch Doc) items -> ~ In (Switch Help) items -> means items env c ->
  c_input c = in_dir dir name -> output c fn -> c_quiet c = false -> alone (c_args c) -> of_types (c_args c) -> a_format (c_args c) = FJson2 -> no_lto d dir (c_args c) ->
  built d dir name text rs l crt im types -> linked d dir name text rs l crt im t -> on_chip rs t ->
  (a_show_unused (c_args c) = true \/ filled im types l) -> distinct_shown (c_args c) im l -> plain_names (Account rs l im types) ->
  exists s js groups, main_words d (get_memory_types chip_info) render encode ord pf env ws no_faults (start fs) = (Done tt, s) /\
    file_says fn s (PJson js) /\ Forall2 (region_parts types) (filter listed_region rs) groups /\
    NoDup (map j_name (js_layout js)) /\ (forall T, In T (map j_name (js_layout js)) <-> listed_type im types l (c_args c) T) /\
    Forall (type_report im types l (concat groups) (c_args c)) (js_layout js) /\ image_bytes im l (js_total_size js).
Proof.
  intros Cs Ka Sa D H M In1 Ou Cq Al Ty Fm Lt B L Oc Fi Di Pl.
  destruct (reported d render encode ord pf c (start fs) dir name text rs l crt im t L In1) as (s & R); try assumption.
  - destruct Ty as (_ & T2 & T3 & _). unfold plain_report. rewrite Fm, T2, T3. repeat split; discriminate.
  - unfold without_dwarf. destruct (a_use_dwarf (c_args c)) as [[|]|] eqn:U; [destruct Ty as (T1 & _ & _ & T4); now split|left; reflexivity|now apply Lt].
  - left. apply Al.
  - left. exact Fm.
  - destruct (summary_file d dir name text rs l crt im types c no_faults fn fs s normalize render encode ord pf Cs Ka Ou Cq B In1 Al Ty Fm Lt Fi Di Pl R) as (js & groups & K).
    exists s, js, groups. split; [|exact K]. erewrite words_run; [exact R|eassumption..].
Qed.

Lemma words_table d dir name text rs l crt im t types env ws items c fs render encode ord pf :
  says ws items -> ~ In (Switch Doc) items -> ~ In (Switch Help) items -> means items env c ->
  c_input c = in_dir dir name -> alone (c_args c) -> of_types (c_args c) -> a_format (c_args c) = FTable -> no_lto d dir (c_args c) ->
  (exists i, names_column usage_headers (a_sort (c_args c)) i) ->
  built d dir name text rs l crt im types -> linked d dir name text rs l crt im t -> on_chip rs t ->
  (a_show_unused (c_args c) = true \/ filled im types l) ->
  exists s tb regions i groups rows, main_words d (get_memory_types chip_info) render encode ord pf env ws no_faults (start fs) = (Done tt, s) /\
    s_printed s = [PTable tb] /\ tb_headers tb = usage_headers /\
    Forall2 (region_parts types) (filter listed_region rs) regions /\
    tb_rows tb = concat rows /\ Forall2 (group_rows (c_args c)) groups rows /\
    NoDup (map tg_type groups) /\ (forall T, In T (map tg_type groups) <-> listed_type im types l (c_args c) T) /\
    Forall (group_right im types l (concat regions) (c_args c)) groups /\
    names_column usage_headers (a_sort (c_args c)) i /\
    (a_sort_diff (c_args c) = false -> i <> 2%nat ->
      StronglySorted (fun x y => in_order (a_sort_reverse (c_args c)) (tg_value i x) (tg_value i y)) groups) /\
    (a_sort_diff (c_args c) = false -> i = 1%nat ->
      Forall (fun g => StronglySorted (fun x y => in_order (a_sort_reverse (c_args c)) (snd x) (snd y)) (tg_sections g)) groups).
Proof.
  intros Sa D H M In1 Al Ty Fm Lt Co B L Oc Fi.
  destruct (reported d render encode ord pf c (start fs) dir name text rs l crt im t L In1) as (s & R); try assumption.
  - destruct Ty as (_ & T2 & T3 & _). unfold plain_report. rewrite Fm, T2, T3. repeat split; discriminate.
  - unfold without_dwarf. destruct (a_use_dwarf (c_args c)) as [[|]|] eqn:U; [destruct Ty as (T1 & _ & _ & T4); now split|left; reflexivity|now apply Lt].
  - left. apply Al.
  - right. right. left. now split.
  - destruct (table_report d dir name text rs l crt im types B c no_faults fs s render encode ord pf In1 Al Ty Fm Lt Fi R) as (tb & regions & i & groups & rows & K).
    exists s, tb, regions, i, groups, rows. split; [|exact K]. erewrite words_run; [exact R|eassumption..].
Qed.
Lemma words_entries d dir name text rs l crt im t env ws items c k r files fn fs normalize render encode ord pf :
  console_shows normalize render -> keeps_ascii encode ->
  says ws items -> ~ In (Switch Doc) items -> ~ In (Switch Help) items -> means items env c ->
  output c fn -> c_quiet c = false -> SpecReport.reported d c k r -> SpecReport.asked files (c_args c) -> given (a_archive_details (c_args c)) = false -> a_format (c_args c) = FJson2 ->
  tells_files files k r -> plain_project k r ->
  linked d dir name text rs l crt im t -> c_input c = in_dir dir name -> without_dwarf d dir (c_args c) -> on_chip rs t -> comparable d (c_args c) ->
  exists s rows, main_words d (get_memory_types chip_info) render encode ord pf env ws no_faults (start fs) = (Done tt, s) /\
    file_says fn s (PEntries rows) /\ entries_right files k r (c_args c) rows /\ entries_sorted (c_args c) rows.
Proof.
  intros Cs Ka Sa D H M Ou Cq Re As Ad Fm Te Pl L In1 Wo Oc Co.
  destruct (reported d render encode ord pf c (start fs) dir name text rs l crt im t L In1) as (s & R); try assumption.
  - unfold plain_report. rewrite Fm, Ad. repeat split; try discriminate. apply Re.
  - left. exact Fm.
  - destruct (entries_file d c k r no_faults files fn fs s normalize render encode ord pf Cs Ka Ou Cq Re As) as (rows & K); try assumption; [congruence|].
    exists s, rows. split; [|exact K]. erewrite words_run; [exact R|eassumption..].
Qed.

(** ** usual command lines *)
Lemma path_no_option dir name : directory dir -> no_option (in_dir dir name).
Proof. intros (parts & _ & ->). left. intros x. destruct parts as [|p parts]; discriminate. Qed.
Lemma lowered_json : lowered (tx "json2") (tx "json2").
Proof. apply lowered_eq. reflexivity. Qed.
Definition table_items (path : str) : list item := [File path].
Lemma says_table dir name : directory dir -> says [in_dir dir name] (table_items (in_dir dir name)).
Proof. intros D. constructor; [now apply path_no_option|constructor]. Qed.
Lemma means_table env path : means (table_items path) env (summary_cmd env FTable None path).
Proof.
  replace (summary_cmd env FTable None path) with (get_cmd (opts_of (table_items path)) env FTable path) by (destruct env; reflexivity). apply cmd_means; [reflexivity|]. reflexivity.
Qed.
Definition json_items (fn path : str) : list item := [Set_ Format (tx "json2"); Set_ OutputFile fn; File path].
Lemma says_json fn dir name : directory dir -> says (json_words fn (in_dir dir name)) (json_items fn (in_dir dir name)).
Proof.
  intros D. apply (says_setting Format "--format"); [cbn; auto|]. apply (says_letters_value (tx "o") []); [repeat constructor|]. now apply says_table.
Qed.
Lemma means_json env fn path : means (json_items fn path) env (summary_cmd env FJson2 (Some fn) path).
Proof.
  replace (summary_cmd env FJson2 (Some fn) path) with (get_cmd (opts_of (json_items fn path)) env FJson2 path) by (destruct env; reflexivity). apply cmd_means; [reflexivity|exact lowered_json].
Qed.
Definition entries_items (files : bool) (fn path : str) : list item := Switch (if files then Files else Archives) :: json_items fn path.
Lemma says_entries files fn dir name : directory dir -> says (entries_words files fn (in_dir dir name)) (entries_items files fn (in_dir dir name)).
Proof.
  intros D. unfold entries_words, entries_items. destruct files; [apply (says_switch Files "--files")|apply (says_switch Archives "--archives")]; try (cbn; auto; fail); now apply says_json.
Qed.
Lemma means_entries env files fn path : means (entries_items files fn path) env (entries_cmd env files (Some fn) path).
Proof.
  replace (entries_cmd env files (Some fn) path) with (get_cmd (opts_of (entries_items files fn path)) env FJson2 path) by (destruct env, files; reflexivity).
  apply cmd_means; [destruct files; reflexivity|destruct files; exact lowered_json].
Qed.

(** ** the projects *)
Section Project.
Variables (d : disk) (dir name text : str) (rs : list region) (l : list printed) (crt : option (list SpecMap.entry)) (im : option (list (str * xshdr))) (t : str) (types : list chip_type).
Hypothesis B : built d dir name text rs l crt im types.
Hypothesis L : linked d dir name text rs l crt im t.
Hypothesis Oc : on_chip rs t.
Hypothesis Nd : no_dwarf d dir None.
Hypothesis Fi : filled im types l.

Lemma default_table env fs render encode ord pf : let a := summary_args FTable None in
  exists s tb regions groups rows, main_words d (get_memory_types chip_info) render encode ord pf env [in_dir dir name] no_faults (start fs) = (Done tt, s) /\
    s_printed s = [PTable tb] /\ tb_headers tb = usage_headers /\
    Forall2 (region_parts types) (filter listed_region rs) regions /\
    tb_rows tb = concat rows /\ Forall2 (group_rows a) groups rows /\
    NoDup (map tg_type groups) /\ (forall T, In T (map tg_type groups) <-> (exists c, In c types /\ ct_name c = T) /\ exists n, type_bytes im types l T n /\ n <> 0%Z) /\
    Forall (group_right im types l (concat regions) a) groups /\
    StronglySorted (fun x y => (tg_value 1 y <= tg_value 1 x)%Z) groups /\
    Forall (fun g => StronglySorted (fun x y => (snd y <= snd x)%Z) (tg_sections g)) groups.
Proof.
  intros a. pose proof (bt_dir _ _ _ _ _ _ _ _ _ B) as D.
  assert (N1 : names_column usage_headers (tx "1") 1) by (left; exists 1%Z; split; [reflexivity|]; split; [left; split; lia|cbn; lia]).
  destruct (words_table d dir name text rs l crt im t types env [in_dir dir name] (table_items (in_dir dir name)) (summary_cmd env FTable None (in_dir dir name)) fs render encode ord pf)
    as (s & tb & regions & i & groups & rows & R & P & Hd & Rp & Tr & Gr & Nu & Li & Ri & Nc & S1 & S2); try assumption.
  - now apply says_table.
  - intros [E|[]]; discriminate.
  - intros [E|[]]; discriminate.
  - apply means_table.
  - reflexivity.
  - now split.
  - repeat split.
  - reflexivity.
  - intros _. exact Nd.
  - now exists 1%nat.
  - now right.
  - exists s, tb, regions, groups, rows.
    assert (i = 1%nat).
    { destruct Nc as [(z & E & [(Z1 & Z2)|(Z1 & _)] & _)|Nc].
      - cbn in E. injection E as <-. lia.
      - cbn in E. injection E as <-. lia.
      - cbn in Nc. destruct Nc as (E & _). discriminate. }
    subst i. repeat match goal with |- _ /\ _ => split end; try assumption.
    + intros T. rewrite Li. unfold listed_type. cbn [a_show_unused c_args summary_cmd summary_args]. intuition discriminate.
    + apply S1; [reflexivity|discriminate].
    + apply S2; reflexivity.
Qed.
Lemma json_file env fn fs normalize render encode ord pf : let a := summary_args FJson2 (Some fn) in
  console_shows normalize render -> keeps_ascii encode -> fn <> [] -> distinct_shown a im l -> plain_names (Account rs l im types) ->
  exists s js groups, main_words d (get_memory_types chip_info) render encode ord pf env (json_words fn (in_dir dir name)) no_faults (start fs) = (Done tt, s) /\
    file_says fn s (PJson js) /\ Forall2 (region_parts types) (filter listed_region rs) groups /\
    NoDup (map j_name (js_layout js)) /\ (forall T, In T (map j_name (js_layout js)) <-> (exists c, In c types /\ ct_name c = T) /\ exists n, type_bytes im types l T n /\ n <> 0%Z) /\
    Forall (type_report im types l (concat groups) a) (js_layout js) /\ image_bytes im l (js_total_size js).
Proof.
  intros a Cs Ka Fn Di Pl. pose proof (bt_dir _ _ _ _ _ _ _ _ _ B) as D.
  destruct (words_summary d dir name text rs l crt im t types env (json_words fn (in_dir dir name)) (json_items fn (in_dir dir name)) (summary_cmd env FJson2 (Some fn) (in_dir dir name)) fn fs normalize render encode ord pf Cs Ka)
    as (s & js & groups & R & P & Rp & Nu & Li & Ri & Im); try assumption.
  - now apply says_json.
  - intros [E|[E|[E|[]]]]; discriminate.
  - intros [E|[E|[E|[]]]]; discriminate.
  - apply means_json.
  - reflexivity.
  - now split.
  - reflexivity.
  - now split.
  - repeat split.
  - reflexivity.
  - intros _. exact Nd.
  - now right.
  - exists s, js, groups. repeat match goal with |- _ /\ _ => split end; try assumption.
    intros T. rewrite Li. unfold listed_type. cbn [a_show_unused c_args summary_cmd summary_args]. intuition discriminate.
Qed.
Lemma entries_json_file env files fn fs normalize render encode ord pf : let a := entries_args files (Some fn) in let k := Account rs l im types in
  console_shows normalize render -> keeps_ascii encode -> fn <> [] -> tells_files files k None -> plain_names k ->
  exists s rows, main_words d (get_memory_types chip_info) render encode ord pf env (entries_words files fn (in_dir dir name)) no_faults (start fs) = (Done tt, s) /\
    file_says fn s (PEntries rows) /\ entries_right files k None a rows /\ entries_sorted a rows.
Proof.
  intros a k Cs Ka Fn Te Pl. pose proof (bt_dir _ _ _ _ _ _ _ _ _ B) as D.
  destruct (words_entries d dir name text rs l crt im t env (entries_words files fn (in_dir dir name)) (entries_items files fn (in_dir dir name)) (entries_cmd env files (Some fn) (in_dir dir name)) k None files fn fs normalize render encode ord pf Cs Ka)
    as (s & rows & K); try assumption.
  - now apply says_entries.
  - destruct files; intros [E|[E|[E|[E|[]]]]]; discriminate.
  - destruct files; intros [E|[E|[E|[E|[]]]]]; discriminate.
  - apply means_entries.
  - now split.
  - reflexivity.
  - repeat split. exists dir, name, text, crt. split; [reflexivity|]. split; [exact B|]. split; [exact Nd|now right].
  - destruct files; repeat split.
  - reflexivity.
  - reflexivity.
  - split; [exact Pl|exact Logic.I].
  - reflexivity.
  - now left.
  - exists s, rows. exact K.
Qed.
End Project.
