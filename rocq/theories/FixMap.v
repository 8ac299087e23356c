(** * A concrete map file, shown to be in the printed format *)
From Coq Require Import Ascii String List ZArith Bool Lia.
From Verif Require Import Base MemMap Pipeline PyStr MapFile SpecMap ProofPyStr ProofMap1 ProofMap2.
Import ListNotations.
Open Scope list_scope.
Open Scope Z_scope.

(** ** deciding the format *)

Lemma blank_dec s : forallb is_space s = true -> blank s.
Proof. intro H. rewrite forallb_forall in H. apply Forall_forall. intros c I. now apply is_space_spec, H. Qed.
Lemma gap_dec s : forallb is_space s = true -> s <> [] -> gap s.
Proof. split; auto. now apply blank_dec. Qed.
Lemma word_dec s : forallb (fun c => negb (is_space c)) s = true -> s <> [] -> word s.
Proof.
  split; auto. rewrite forallb_forall in H. apply Forall_forall. intros c I W. specialize (H c I).
  rewrite (is_space_ws _ W) in H. discriminate.
Qed.

Lemma lstrip_split s : exists p, blank p /\ s = p ++ lstrip s.
Proof.
  induction s as [|c s (p & B & E)]; cbn [lstrip].
  - exists []. split; [constructor|reflexivity].
  - destruct (is_space c) eqn:W.
    + exists (c :: p). split; [constructor; [now apply is_space_spec|exact B]|]. cbn. now rewrite <- E.
    + exists []. split; [constructor|reflexivity].
Qed.

Lemma line_of_dec t s : strip s = t -> t <> [] -> line_of t s /\ trimmed t.
Proof.
  intros E N. destruct (lstrip_split s) as (p & P & SP). destruct (lstrip_split (rev (lstrip s))) as (q & Q & RQ).
  assert (L : lstrip s = t ++ rev q).
  { rewrite <- (rev_involutive (lstrip s)), RQ, rev_app_distr. now rewrite <- E. }
  assert (LO : line_of t s).
  { exists p, (rev q). split; [exact P|]. split; [now apply blank_rev|]. now rewrite <- L. }
  split; auto. split.
  - destruct (lstrip_begins_or s) as [Z|(c & r & Z & W)].
    + rewrite Z in L. symmetry in L. apply app_eq_nil in L as [L _]. contradiction.
    + rewrite Z in L. destruct t as [|d t]; [contradiction|]. injection L as <- _. exists c, t. auto.
  - unfold strip in E. destruct (lstrip_begins_or (rev (lstrip s))) as [Z|(c & r & Z & W)].
    + rewrite Z in E. symmetry in E. contradiction.
    + rewrite Z in E. cbn in E. exists (rev r), c. auto.
Qed.

Lemma words_blank_l l p s : blank p -> words l s -> words l (p ++ s).
Proof.
  intros P W. destruct W as [s B|p' w q A B C|p' w g l s A B C D].
  - constructor. now apply Forall_app.
  - rewrite app_assoc. apply words_last; auto. now apply Forall_app.
  - rewrite app_assoc. apply words_cons; auto. now apply Forall_app.
Qed.

Lemma words_split_max k : forall s, (List.length s <= k)%nat -> words (split_max k s) s.
Proof.
  induction k as [|k IH]; intros s L.
  - destruct s; [|cbn in L; lia]. constructor. constructor.
  - cbn [split_max]. destruct (lstrip_split s) as (p & P & E). destruct (lstrip_begins_or s) as [Z|(c & r & Z & W)].
    + rewrite Z in *. rewrite app_nil_r in E. subst. now constructor.
    + rewrite Z in *. destruct (span_word (c :: r)) as [w t] eqn:SW.
      destruct (span_word_spec _ _ _ SW) as (EW & NW & SP).
      assert (WW : word w).
      { split; auto. intro X. subst w. cbn in EW. subst t. destruct SP as [X|(x & y & X & Y)]; [discriminate|]. injection X as <- _. contradiction. }
      rewrite E, EW. destruct SP as [->|(x & y & -> & X)].
      * rewrite (split_max_blank k []) by constructor. apply words_last; auto. constructor.
      * assert (LT : (List.length (x :: y) <= k)%nat).
        { rewrite E, app_length, EW, app_length in L. destruct WW as [NN _]. destruct w; [contradiction|]. cbn [List.length] in *. lia. }
        change (words (w :: split_max k (x :: y)) (p ++ w ++ [x] ++ y)).
        apply words_cons; auto.
        -- split; [discriminate|]. constructor; auto.
        -- assert (SM : split_max k (x :: y) = split_max k y).
           { destruct k; cbn [split_max lstrip]; now rewrite (is_space_ws _ X). }
           rewrite SM. apply IH. cbn in LT. lia.
Qed.

Lemma words_dec l s : split s = l -> words l s.
Proof. intros <-. now apply words_split_max. Qed.

Definition hex_dig (c : ascii) : option Z :=
  match digit_val c with Some d => if (d <? 16) && negb ((65 <=? nat_of_ascii c)%nat && (nat_of_ascii c <=? 90)%nat) then Some d else None | None => None end.
Lemma hex_dig_ok c d : hex_dig c = Some d -> hex_digit c d.
Proof.
  destruct c as [[] [] [] [] [] [] [] []]; cbn; intro H; try discriminate; injection H as <-; split; cbn; (lia || reflexivity).
Qed.
Fixpoint hex_val (s : str) : option Z :=  (* least significant digit first *)
  match s with
  | [] => None
  | c :: s' =>
    match hex_dig c with
    | None => None
    | Some d => match s' with [] => Some d | _ => match hex_val s' with Some z => Some (z * 16 + d) | None => None end end
    end
  end.
Lemma hex_val_ok s : forall z, hex_val s = Some z -> hex_digits (rev s) z.
Proof.
  induction s as [|c s IH]; intro z; cbn [hex_val]; [discriminate|]. destruct (hex_dig c) as [d|] eqn:D; [|discriminate].
  apply hex_dig_ok in D. destruct s as [|c' s].
  - intro H. injection H as <-. now constructor.
  - destruct (hex_val (c' :: s)) as [z'|]; [|discriminate]. intro H. injection H as <-. cbn [rev].
    apply (hex_more (rev (c' :: s))); auto.
Qed.
Lemma number_dec z t s : t = list_ascii_of_string "0x" ++ s -> hex_val (rev s) = Some z -> number z t.
Proof. intros -> H. exists s. split; auto. apply hex_val_ok in H. now rewrite rev_involutive in H. Qed.

Lemma prefix_dec p s : sw p s = true -> prefix p s.
Proof. apply sw_spec. Qed.
Lemma not_prefix_dec p s : sw p s = false -> ~ prefix p s.
Proof. intros H P. rewrite (sw_true _ _ P) in H. discriminate. Qed.
Lemma not_sub_dec a s : contains a s = false -> ~ substring a s.
Proof. intros H P. apply contains_substring in P. congruence. Qed.
Lemma not_in_dec (c : ascii) (s : str) : existsb (fun d => d =?= c) s = false -> ~ In c s.
Proof. intros H I. assert (existsb (fun d => d =?= c) s = true) by (apply existsb_exists; exists c; split; [exact I|apply keq_refl]). congruence. Qed.

Ltac cbl := vm_compute; reflexivity.
Ltac t_blank := apply blank_dec; cbl.
Ltac t_gap := apply gap_dec; [cbl|discriminate].
Ltac t_word := apply word_dec; [cbl|discriminate].
Ltac t_num := match goal with |- number ?z ?t => let t' := eval vm_compute in t in
  match t' with _ :: _ :: ?s => apply (number_dec z t s); cbl end end.
Ltac t_prefix := apply prefix_dec; cbl.
Ltac t_not_prefix := apply not_prefix_dec; cbl.
Ltac t_line := apply line_of_dec; [cbl|discriminate].
Ltac t_words := apply words_dec; cbl.
Ltac t_not_in := apply not_in_dec; cbl.

(** ** the file *)

Definition fx (s : string) : str := list_ascii_of_string s.

Definition fx_table : list str := map fx [
  "";
  "Memory Configuration";
  "";
  "Name             Origin             Length             Attributes";
  "iram0_0_seg      0x40080400         0x0001fc00         xr";
  "*default*        0x00000000         0xffffffff";
  ""]%string.
Definition fx_script : list str := map fx [
  "";
  "LOAD esp-idf/main/libmain.a";
  "                0x0000                IDF_TARGET_ESP32S3 = 0x0";
  ".iram0.text     0x40080400       0x20";
  " *(.iram0.text)";
  " .text.a        0x40080400        0x8 esp-idf/main/libmain.a(app main.c.obj)";
  "                0x40080400                app_main";
  " *fill*         0x40080408        0x4 ";
  " .text.very.long.name";
  "                0x4008040c       0x10 /path with space/crt0.o";
  "                0x4008041c        0x4 LONG 0x1";
  "";
  ".very.long.section.name";
  "                0x3fc80000        0x4";
  " COMMON         0x3fc80000        0x4 lib.a(x.o)";
  ""]%string.
Definition fx_tail : list str := map fx [
  "Cross Reference Table";
  "";
  "Symbol                                            File";
  "app_main                                          esp-idf/main/libmain.a(app main.c.obj)";
  "                                                  lib.a(x.o)";
  "main                                              crt0.o"]%string.
Definition fx_head : str := fx "Linker script and memory map".
Definition fx_lines : list str := fx_table ++ fx_head :: fx_script ++ fx_tail.

Definition fx_regions : list region :=
  [Region (fx "iram0_0_seg") 1074267136 130048 (fx "xr"); Region (fx "*default*") 0 4294967295 []].
Definition fx_item1 : item := Item (fx ".text.a") 1074267136 8 (fx "esp-idf/main/libmain.a") (fx "app main.c.obj") [Fill 1074267144 4].
Definition fx_item2 : item := Item (fx ".text.very.long.name") 1074267148 16 (fx "(exe)") (fx "/path with space/crt0.o") [Data 4].
Definition fx_item3 : item := Item (fx "COMMON") 1070071808 4 (fx "lib.a") (fx "x.o") [].
Definition fx_sections : list printed :=
  [Printed (fx ".iram0.text") 1074267136 32 [fx_item1; fx_item2]; Printed (fx ".very.long.section.name") 1070071808 4 [fx_item3]].
Definition fx_entries : list entry :=
  [Entry (fx "app_main") (fx "esp-idf/main/libmain.a", fx "app main.c.obj") [(fx "lib.a", fx "x.o")];
   Entry (fx "main") (fx "(exe)", fx "crt0.o") []].

Lemma fx_table_ok : region_table fx_regions fx_table.
Proof.
  change fx_regions with (List.concat [[Region (fx "iram0_0_seg") 1074267136 130048 (fx "xr")]; [Region (fx "*default*") 0 4294967295 []]; []]).
  apply (region_table_intro [fx ""] (fx "Memory Configuration") [fx ""] (fx "Name             Origin             Length             Attributes")).
  - repeat constructor; t_not_prefix.
  - t_prefix.
  - repeat constructor; t_not_prefix.
  - t_prefix.
  - constructor; [|constructor; [|constructor; [|constructor]]].
    + apply rl_attrs with (so := fx "0x40080400") (sl := fx "0x0001fc00"); [t_num|t_num|t_words].
    + apply rl_noattrs with (so := fx "0x00000000") (sl := fx "0xffffffff"); [t_num|t_num|t_words].
    + apply rl_blank. t_blank.
Qed.

Lemma fx_item1_ok : item_lines fx_item1 (map fx [" .text.a        0x40080400        0x8 esp-idf/main/libmain.a(app main.c.obj)"; "                0x40080400                app_main"; " *fill*         0x40080408        0x4 "]%string).
Proof.
  apply (item_lines_intro fx_item1 [fx " .text.a        0x40080400        0x8 esp-idf/main/libmain.a(app main.c.obj)"] [[]; [Fill 1074267144 4]]).
  - apply head_one with (g := fx "        ") (r := fx "0x40080400        0x8 esp-idf/main/libmain.a(app main.c.obj)").
    + split; [t_word|left; t_prefix].
    + t_gap.
    + exists (fx "0x40080400"), (fx "        "), (fx "0x8"), (fx " "), (fx "esp-idf/main/libmain.a(app main.c.obj)").
      repeat split; try t_num; try t_gap; try discriminate; try t_blank.
      * exists "e"%char, (fx "sp-idf/main/libmain.a(app main.c.obj)"). split; [reflexivity|]. unfold ws. cbn. intuition discriminate.
      * exists (fx "esp-idf/main/libmain.a(app main.c.obj"), ")"%char. split; [reflexivity|]. unfold ws. cbn. intuition discriminate.
      * apply (loc_member (fx "esp-idf/main/libmain.a") (fx "app main.c.obj")). t_not_in.
    + t_line.
  - reflexivity.
  - constructor; [|constructor; [|constructor]].
    + apply pl_ignored. split; [t_not_prefix|]. exists (fx "0x40080400                app_main").
      assert (X : line_of (fx "0x40080400                app_main") (fx "                0x40080400                app_main") /\ trimmed (fx "0x40080400                app_main")) by t_line.
      destruct X as [X1 X2]. repeat split; auto; try t_not_prefix; try apply X2.
      intros k K. unfold data_kind in K. cbn [map In] in K. repeat destruct K as [<-|K]; try contradiction; apply not_sub_dec; cbl.
    + apply pl_fill with (sa := fx "0x40080408") (sn := fx "0x4") (g1 := fx "         ") (g2 := fx "        "); [t_num|t_num|t_gap|t_gap|t_line].
Qed.

Lemma fx_item2_ok : item_lines fx_item2 (map fx [" .text.very.long.name"; "                0x4008040c       0x10 /path with space/crt0.o"; "                0x4008041c        0x4 LONG 0x1"]%string).
Proof.
  apply (item_lines_intro fx_item2 (map fx [" .text.very.long.name"; "                0x4008040c       0x10 /path with space/crt0.o"]%string) [[Data 4]]).
  - apply head_two with (r := fx "0x4008040c       0x10 /path with space/crt0.o").
    + split; [t_word|left; t_prefix].
    + t_line.
    + exists (fx "0x4008040c"), (fx "       "), (fx "0x10"), (fx " "), (fx "/path with space/crt0.o").
      repeat split; try t_num; try t_gap; try discriminate; try t_blank.
      * exists "/"%char, (fx "path with space/crt0.o"). split; [reflexivity|]. unfold ws. cbn. intuition discriminate.
      * exists (fx "/path with space/crt0."), "o"%char. split; [reflexivity|]. unfold ws. cbn. intuition discriminate.
      * apply (loc_direct (fx "/path with space/crt0.o")). t_not_in.
    + t_line.
  - reflexivity.
  - constructor; [|constructor].
    apply pl_data with (a := 1074267164) (k := fx "LONG") (v := fx "0x1") (sa := fx "0x4008041c") (sn := fx "0x4") (g1 := fx "        ") (g2 := fx " ") (g3 := fx " ");
      try t_num; try t_gap; try t_word; try t_line. cbn. tauto.
Qed.

Lemma fx_item3_ok : item_lines fx_item3 [fx " COMMON         0x3fc80000        0x4 lib.a(x.o)"].
Proof.
  apply (item_lines_intro fx_item3 [fx " COMMON         0x3fc80000        0x4 lib.a(x.o)"] []); [|reflexivity|constructor].
  apply head_one with (g := fx "         ") (r := fx "0x3fc80000        0x4 lib.a(x.o)").
  + split; [t_word|right; t_prefix].
  + t_gap.
  + exists (fx "0x3fc80000"), (fx "        "), (fx "0x4"), (fx " "), (fx "lib.a(x.o)").
    repeat split; try t_num; try t_gap; try discriminate; try t_blank.
    * exists "l"%char, (fx "ib.a(x.o)"). split; [reflexivity|]. unfold ws. cbn. intuition discriminate.
    * exists (fx "lib.a(x.o"), ")"%char. split; [reflexivity|]. unfold ws. cbn. intuition discriminate.
    * apply (loc_member (fx "lib.a") (fx "x.o")). t_not_in.
  + t_line.
Qed.

Lemma fx_script_ok : script_lines fx_sections fx_script.
Proof.
  change fx_script with (map fx [""; "LOAD esp-idf/main/libmain.a"; "                0x0000                IDF_TARGET_ESP32S3 = 0x0"]%string ++
    ([fx ".iram0.text     0x40080400       0x20"] ++ [fx " *(.iram0.text)"] ++
     List.concat [map fx [" .text.a        0x40080400        0x8 esp-idf/main/libmain.a(app main.c.obj)"; "                0x40080400                app_main"; " *fill*         0x40080408        0x4 "]%string;
       map fx [" .text.very.long.name"; "                0x4008040c       0x10 /path with space/crt0.o"; "                0x4008041c        0x4 LONG 0x1"]%string] ++ [fx ""]) ++
    ([] ++ (map fx [".very.long.section.name"; "                0x3fc80000        0x4"]%string ++ [] ++ List.concat [[fx " COMMON         0x3fc80000        0x4 lib.a(x.o)"]] ++ [fx ""]) ++ [])).
  apply script_cons.
  - repeat constructor; t_not_prefix.
  - apply section_lines_intro.
    + apply (sh_one (Printed (fx ".iram0.text") 1074267136 32 [fx_item1; fx_item2]) (fx "     ") (fx "0x40080400") (fx "       ") (fx "0x20") []).
      * split; [t_word|t_prefix].
      * t_num.
      * t_num.
      * t_gap.
      * t_gap.
      * t_blank.
    + constructor; [|constructor]. split; [t_not_prefix|]. exists (fx "*(.iram0.text)").
      assert (X : line_of (fx "*(.iram0.text)") (fx " *(.iram0.text)") /\ trimmed (fx "*(.iram0.text)")) by t_line.
      destruct X as [X1 X2]. repeat split; auto; try t_not_prefix; apply X2.
    + constructor; [exact fx_item1_ok|]. constructor; [exact fx_item2_ok|constructor].
    + t_blank.
  - apply script_cons.
    + constructor.
    + apply section_lines_intro.
      * apply (sh_two (Printed (fx ".very.long.section.name") 1070071808 4 [fx_item3]) [] (fx "0x3fc80000") (fx "        ") (fx "0x4")).
        -- split; [t_word|t_prefix].
        -- t_num.
        -- t_num.
        -- t_blank.
        -- t_gap.
        -- t_line.
      * constructor.
      * constructor; [exact fx_item3_ok|constructor].
      * t_blank.
    + constructor. constructor.
Qed.

Lemma fx_tail_ok : crt_lines fx_entries fx_tail.
Proof.
  change fx_tail with (fx "Cross Reference Table" :: [fx ""] ++ fx "Symbol                                            File" :: [] ++
    List.concat [[fx "app_main" ++ fx "                                          " ++ fx "esp-idf/main/libmain.a(app main.c.obj)"; fx "                                                  lib.a(x.o)"];
      [fx "main" ++ fx "                                              " ++ fx "crt0.o"]] ++ []).
  apply crt_lines_intro.
  - t_prefix.
  - constructor; [t_not_prefix|constructor].
  - t_prefix.
  - constructor.
  - constructor; [|constructor; [|constructor]].
    + apply (entry_lines_intro (Entry (fx "app_main") (fx "esp-idf/main/libmain.a", fx "app main.c.obj") [(fx "lib.a", fx "x.o")])).
      * t_word.
      * t_gap.
      * exists "e"%char, (fx "sp-idf/main/libmain.a(app main.c.obj)"). split; [reflexivity|]. unfold ws. cbn. intuition discriminate.
      * apply (loc_member (fx "esp-idf/main/libmain.a") (fx "app main.c.obj")). t_not_in.
      * constructor; [|constructor]. exists " "%char, (fx "lib.a(x.o)"), (fx "                                                 "), [].
        repeat split; auto; try t_blank.
        -- exists "l"%char, (fx "ib.a(x.o)"). split; [reflexivity|]. unfold ws. cbn. intuition discriminate.
        -- exists (fx "lib.a(x.o"), ")"%char. split; [reflexivity|]. unfold ws. cbn. intuition discriminate.
        -- apply (loc_member (fx "lib.a") (fx "x.o")). t_not_in.
    + apply (entry_lines_intro (Entry (fx "main") (fx "(exe)", fx "crt0.o") [])).
      * t_word.
      * t_gap.
      * exists "c"%char, (fx "rt0.o"). split; [reflexivity|]. unfold ws. cbn. intuition discriminate.
      * apply (loc_direct (fx "crt0.o")). t_not_in.
      * constructor.
  - left. reflexivity.
Qed.

Lemma fx_map_ok : printed_map fx_regions fx_sections (Some fx_entries) fx_lines.
Proof.
  unfold fx_lines. apply pm_crt_present; [exact fx_table_ok|t_prefix|exact fx_script_ok|exact fx_tail_ok].
Qed.

Lemma fx_regular : Forall regular fx_sections.
Proof.
  constructor; [|constructor; [|constructor]].
  - split; [|split].
    + repeat constructor; intros a n H; cbn in H; repeat destruct H as [H|H]; try contradiction; try discriminate H.
      injection H as <- <-. cbn. lia.
    + constructor; [|constructor]. split; cbn; [lia|discriminate].
    + cbn. split; [lia|exact I].
  - split; [|split].
    + repeat constructor. intros a n [].
    + constructor.
    + exact I.
Qed.

(** ** an empty input section followed by padding *)

Lemma fx_rest i (sa g1 ss g2 lo : string) t :
  number (it_addr i) (fx sa) -> gap (fx g1) -> number (it_size i) (fx ss) -> gap (fx g2) -> strip (fx lo) = fx lo -> fx lo <> [] ->
  location (it_archive i) (it_object i) (fx lo) -> t = fx sa ++ fx g1 ++ fx ss ++ fx g2 ++ fx lo -> rest_text i t.
Proof.
  intros A B C D E N L ->. exists (fx sa), (fx g1), (fx ss), (fx g2), (fx lo). destruct (line_of_dec _ _ E N). repeat split; auto; apply B || apply D || apply H0.
Qed.

Definition gx_item1 : item := Item (fx ".data.a") 1070071808 16 (fx "lib.a") (fx "x.o") [].
Definition gx_item2 : item := Item (fx ".data.b") 1070071824 0 (fx "lib.a") (fx "y.o") [Fill 1070071828 4; Fill 1070071832 8].
Definition hx_item2 : item := Item (fx ".data.b") 1070071824 0 (fx "lib.a") (fx "y.o") [Data 1].
Definition gx_sections : list printed := [Printed (fx ".dram0.data") 1070071808 32 [gx_item1; gx_item2]].
Definition hx_sections : list printed := [Printed (fx ".dram0.data") 1070071808 32 [gx_item1; hx_item2]].
Definition gx_lines1 : list str := [fx " .data.a        0x3fc80000       0x10 lib.a(x.o)"].
Definition gx_lines2 : list str := map fx [
  " .data.b        0x3fc80010        0x0 lib.a(y.o)";
  " *fill*         0x3fc80014        0x4 ";
  " *fill*         0x3fc80018        0x8 "]%string.
Definition hx_lines2 : list str := map fx [
  " .data.b        0x3fc80010        0x0 lib.a(y.o)";
  "                0x3fc80010        0x1 BYTE 0x1"]%string.
Definition gx_script : list str := fx ".dram0.data     0x3fc80000       0x20" :: gx_lines1 ++ gx_lines2 ++ [fx ""].
Definition hx_script : list str := fx ".dram0.data     0x3fc80000       0x20" :: gx_lines1 ++ hx_lines2 ++ [fx ""].
Definition gx_lines : list str := fx_table ++ fx_head :: gx_script.
Definition hx_lines : list str := fx_table ++ fx_head :: hx_script.

Lemma gx_item1_ok : item_lines gx_item1 gx_lines1.
Proof.
  apply (item_lines_intro gx_item1 gx_lines1 []); [|reflexivity|constructor].
  apply head_one with (g := fx "        ") (r := fx "0x3fc80000       0x10 lib.a(x.o)"); [split; [t_word|left; t_prefix]|t_gap| |t_line].
  apply (fx_rest _ "0x3fc80000" "       " "0x10" " " "lib.a(x.o)"); [t_num|t_gap|t_num|t_gap|cbl|discriminate| |cbl].
  apply (loc_member (fx "lib.a") (fx "x.o")). t_not_in.
Qed.

Lemma gx_item2_head i : it_name i = fx ".data.b" -> it_addr i = 1070071824 -> it_size i = 0 -> it_archive i = fx "lib.a" -> it_object i = fx "y.o" ->
  item_head i [fx " .data.b        0x3fc80010        0x0 lib.a(y.o)"].
Proof.
  intros N A Z AR OB.
  apply head_one with (g := fx "        ") (r := fx "0x3fc80010        0x0 lib.a(y.o)"); rewrite ?N; [split; [t_word|left; t_prefix]|t_gap| |t_line].
  apply (fx_rest _ "0x3fc80010" "        " "0x0" " " "lib.a(y.o)"); rewrite ?A, ?Z, ?AR, ?OB; [t_num|t_gap|t_num|t_gap|cbl|discriminate| |cbl].
  apply (loc_member (fx "lib.a") (fx "y.o")). t_not_in.
Qed.

Lemma gx_item2_ok : item_lines gx_item2 gx_lines2.
Proof.
  apply (item_lines_intro gx_item2 [fx " .data.b        0x3fc80010        0x0 lib.a(y.o)"] [[Fill 1070071828 4]; [Fill 1070071832 8]]).
  - now apply gx_item2_head.
  - reflexivity.
  - constructor; [|constructor; [|constructor]].
    + apply pl_fill with (sa := fx "0x3fc80014") (sn := fx "0x4") (g1 := fx "         ") (g2 := fx "        "); [t_num|t_num|t_gap|t_gap|t_line].
    + apply pl_fill with (sa := fx "0x3fc80018") (sn := fx "0x8") (g1 := fx "         ") (g2 := fx "        "); [t_num|t_num|t_gap|t_gap|t_line].
Qed.
Lemma hx_item2_ok : item_lines hx_item2 hx_lines2.
Proof.
  apply (item_lines_intro hx_item2 [fx " .data.b        0x3fc80010        0x0 lib.a(y.o)"] [[Data 1]]).
  - now apply gx_item2_head.
  - reflexivity.
  - constructor; [|constructor].
    apply pl_data with (a := 1070071824) (k := fx "BYTE") (v := fx "0x1") (sa := fx "0x3fc80010") (sn := fx "0x1") (g1 := fx "        ") (g2 := fx " ") (g3 := fx " ");
      try t_num; try t_gap; try t_word; try t_line. cbn. tauto.
Qed.

Lemma gx_script_of items ls : Forall2 item_lines items ls ->
  script_lines [Printed (fx ".dram0.data") 1070071808 32 items] (fx ".dram0.data     0x3fc80000       0x20" :: List.concat ls ++ [fx ""]).
Proof.
  intro F.
  replace (fx ".dram0.data     0x3fc80000       0x20" :: List.concat ls ++ [fx ""])
    with ([] ++ ([fx ".dram0.data     0x3fc80000       0x20"] ++ [] ++ List.concat ls ++ [fx ""]) ++ []) by now rewrite app_nil_r.
  apply script_cons; [constructor| |constructor; constructor].
  apply section_lines_intro; [|constructor|exact F|t_blank].
  apply (sh_one (Printed (fx ".dram0.data") 1070071808 32 items) (fx "     ") (fx "0x3fc80000") (fx "       ") (fx "0x20") []);
    [split; [t_word|t_prefix]|t_num|t_num|t_gap|t_gap|t_blank].
Qed.

Lemma gx_map_ok : printed_map fx_regions gx_sections None gx_lines.
Proof.
  apply pm_crt_absent; [exact fx_table_ok|t_prefix|].
  apply (gx_script_of [gx_item1; gx_item2] [gx_lines1; gx_lines2]).
  constructor; [exact gx_item1_ok|constructor; [exact gx_item2_ok|constructor]].
Qed.
Lemma hx_map_ok : printed_map fx_regions hx_sections None hx_lines.
Proof.
  apply pm_crt_absent; [exact fx_table_ok|t_prefix|].
  apply (gx_script_of [gx_item1; hx_item2] [gx_lines1; hx_lines2]).
  constructor; [exact gx_item1_ok|constructor; [exact hx_item2_ok|constructor]].
Qed.
