(** * Listings: sections and symbols *)
From Coq Require Import Ascii String List ZArith Bool Lia.
From Verif Require Import Base ElfRead Dwarf Names Table Dump SpecMap SpecTable SpecElf SpecDwarf SpecDebug SpecDump
  ProofElf1 ProofElf2 ProofTable ProofDwarf3 ProofDwarf4 ProofDump1.
Import ListNotations.
Open Scope list_scope.
Open Scope Z_scope.

Local Definition tx (s : string) : str := list_ascii_of_string s.

(** the same lines under another element *)
Lemma rows_map {A B} (f : A -> B) (R : nat -> B -> str -> Prop) l lines : rows (fun i a => R i (f a)) l lines -> rows R (map f l) lines.
Proof.
  intros (L & H). split; [now rewrite map_length|]. intros i b E. rewrite nth_error_map in E. destruct (nth_error l i) as [a|] eqn:Ea; [|discriminate E]. injection E as <-. exact (H i a Ea).
Qed.
Lemma rows_weak {A} (R S : nat -> A -> str -> Prop) l lines : (forall i a line, nth_error l i = Some a -> R i a line -> S i a line) -> rows R l lines -> rows S l lines.
Proof. intros W (L & H). split; [exact L|]. intros i a E. destruct (H i a E) as (line & X & Y). exists line. split; [exact X|]. now apply W. Qed.
Lemma nth_combine {A B} (l : list A) (m : list B) i a b : nth_error (combine l m) i = Some (a, b) <-> nth_error l i = Some a /\ nth_error m i = Some b.
Proof.
  revert m i. induction l as [|x l IH]; intros [|y m] [|i]; cbn; try (split; [discriminate|intros (E & F); discriminate E || discriminate F]).
  - split; [intros E; injection E as -> ->; now split|intros (E & F); now injection E as ->; injection F as ->].
  - apply IH.
Qed.
Lemma Forall2_nth {A B} (R : A -> B -> Prop) l m i a : Forall2 R l m -> nth_error l i = Some a -> exists b, nth_error m i = Some b /\ R a b.
Proof.
  intros F. revert i. induction F as [|x y l m Rx F IH]; intros [|i] E; cbn in *; try discriminate E; [injection E as ->; now exists y|]. exact (IH i E).
Qed.
Lemma fits_nonneg n v : fits n v -> 0 <= v.
Proof. unfold fits. lia. Qed.

Lemma cells_left_right v m w n l s : cells (w :: l) (w ++ s) -> cells (v :: w :: l) (left_in m v ++ " "%char :: right_in n w ++ s).
Proof.
  intros C. unfold left_in, right_in. rewrite <- !app_assoc.
  replace (repeat " "%char (m - length v) ++ " "%char :: repeat " "%char (n - length w) ++ w ++ s) with ((repeat " "%char (m - length v) ++ " "%char :: repeat " "%char (n - length w)) ++ w ++ s) by (rewrite <- app_assoc; reflexivity).
  constructor; [intros E; apply app_eq_nil in E; destruct E as (_ & E); discriminate E|apply spaces_app; [apply spaces_repeat|constructor; [reflexivity|apply spaces_repeat]]|exact C].
Qed.

Section Image.
  Variables (is64 big : bool) (file : bytes) (h : ehdr) (phs : list phdr) (shs : list xshdr).
  Hypothesis I : elf_image is64 big file h phs shs.
  Definition the_elf : xelf := XElf file is64 big h (map (phdr_read is64) phs) shs.
  Lemma the_elf_init : elf_init file = Ok the_elf.
  Proof. exact (elf_init_image _ _ _ _ _ _ I). Qed.
  Lemma names_read names i s n : named_sections the_elf names -> nth_error shs i = Some s -> nth_error names i = Some n -> shdr_name the_elf s = Ok n.
  Proof.
    intros (t & T & F) Es En. cbn [the_elf xe_shdrs xe_ehdr xe_file] in *. destruct (Forall2_nth _ _ _ _ _ F Es) as (m & Em & P & S). rewrite En in Em. injection Em as <-.
    apply (shdr_name_at the_elf t); assumption.
  Qed.
  Lemma names_len names : named_sections the_elf names -> length names = length shs.
  Proof. intros (t & _ & F). symmetry. exact (Forall2_len _ _ _ F). Qed.

  Lemma sections_done names o : named_sections the_elf names -> o_debug o = None -> o_symbols o = false -> o_sections o = true ->
    exists lines, elf_program o file = (sections_header :: lines, Ok tt) /\ rows section_row (combine shs names) lines.
  Proof.
    intros NS D S T. unfold elf_program. rewrite the_elf_init, lift_then, D, S, T. unfold dump_sections. rewrite say_then.
    destruct (each_from_rows (fun idx s => having n <- lift (shdr_name the_elf s); say (section_line idx n (get_sht_name (x_type s)) s))
      (fun i s line => forall n, nth_error names i = Some n -> section_row i (s, n) line) shs) as (lines & E & R).
    - intros i s Es. pose proof (names_len names NS) as L. destruct (nth_error names i) as [n|] eqn:En.
      2:{ apply nth_error_None in En. assert (i < length shs)%nat by (apply nth_error_Some; congruence). lia. }
      rewrite (names_read _ _ _ _ NS Es En), lift_then. eexists. split; [reflexivity|]. intros m Em. injection Em as <-.
      pose proof (im_shdrs_ok _ _ _ _ _ _ I) as K. rewrite Forall_forall in K. destruct (K s (nth_error_In _ _ Es)) as (_ & _ & _ & F1 & F2 & F3 & _). unfold xfits in *. apply fits_nonneg in F1, F2, F3.
      exists (show_Z (Z.of_nat i)), (get_sht_name (x_type s)), (hex_zeros 10 (x_addr s)), (hex_zeros 8 (x_offset s)), (hex_zeros 8 (x_size s)).
      split; [apply show_Z_written|]. split; [apply sht_shown|]. do 3 (split; [apply hex_zeros_number; [lia|assumption]|]).
      unfold section_line. change (Dump.tx " ") with [" "%char]. cbn [app]. do 3 apply cells_left. do 2 apply cells_word. apply cells_last.
    - cbn [the_elf xe_shdrs]. rewrite E. exists lines. split; [reflexivity|]. destruct R as (L & R). split; [rewrite combine_length, (names_len names NS), Nat.min_id; exact L|].
      intros i (s, n) En. apply nth_combine in En. destruct En as (Es & En). destruct (R i s Es) as (line & X & Y). exists line. split; [exact X|]. now apply Y.
  Qed.

  (** the section of a symbol *)
  Lemma section_of_read names y : named_sections the_elf names -> 0 <= x_shndx y -> exists sec, section_of (Some the_elf) y = Ok sec /\ section_named names (x_shndx y) sec.
  Proof.
    intros NS P. unfold section_of. cbn [the_elf xe_shdrs]. pose proof (names_len names NS) as L. destruct (Z.ltb_spec (x_shndx y) (Z.of_nat (length shs))) as [B|B].
    - destruct (nth_error names (Z.to_nat (x_shndx y))) as [n|] eqn:En; [|apply nth_error_None in En; lia].
      destruct (nth_error shs (Z.to_nat (x_shndx y))) as [s|] eqn:Es; [|apply nth_error_None in Es; lia].
      exists n. unfold nth_shdr. cbn [the_elf xe_shdrs]. rewrite Es. cbn [bind]. split; [exact (names_read _ _ _ _ NS Es En)|]. left. rewrite L. split; [lia|exact En].
    - eexists. split; [reflexivity|]. right. rewrite L. split; [lia|reflexivity].
  Qed.
  Lemma symbol_list_done names l : named_sections the_elf names ->
    Forall (fun ync => let '(y, n, c) := ync in 0 <= x_value y /\ 0 <= x_shndx y /\ usual y /\ symbol_named the_elf y n) l ->
    exists lines, dump_symbol_list (Some the_elf) the_elf (map (fun ync => (fst (fst ync), snd ync)) l) = (symbols_header :: lines, Ok tt) /\
      rows (symbol_row names) l lines.
  Proof.
    intros NS F. unfold dump_symbol_list. rewrite say_then.
    match goal with |- context [each_from ?f 0 (map ?g l)] => destruct (each_from_rows f (fun i yc line => forall n, nth_error (map (fun ync => snd (fst ync)) l) i = Some n -> symbol_row names i (fst yc, n, snd yc) line) (map g l)) as (lines & E & R) end.
    - intros i (y, c) Ey. rewrite nth_error_map in Ey. destruct (nth_error l i) as [[[y' n] c']|] eqn:El; [|discriminate Ey]. cbn [option_map fst snd] in Ey. injection Ey as -> ->.
      rewrite Forall_forall in F. destruct (F _ (nth_error_In _ _ El)) as (V & X & (U1 & U2) & (t & T & S & P)).
      destruct (section_of_read names y NS X) as (sec & E1 & S1). rewrite E1, lift_then.
      unfold type_name. rewrite type_mod16. destruct (check_error _ _ _ stt_ok U1) as (ty & E2 & S2). rewrite E2, lift_then.
      unfold bind_name. rewrite bind_div16. destruct (check_error _ _ _ stb_ok U2) as (bi & E3 & S3). rewrite E3, lift_then.
      unfold visibility_name. rewrite vis_mod4. destruct (check_error _ _ _ stv_ok (vis_named y)) as (vi & E4 & S4). rewrite E4, lift_then.
      rewrite (xsym_name_at the_elf t y n T P S), lift_then. eexists. split; [reflexivity|]. intros m Em. rewrite nth_error_map, El in Em. cbn [option_map fst snd] in Em. injection Em as <-.
      cbn [fst snd symbol_row]. exists (show_Z (Z.of_nat i)), (hex_zeros 10 (x_value y)), (show_Z (x_stsize y)), ty, bi, vi, (show_Z (x_shndx y)), sec.
      split; [apply show_Z_written|]. split; [apply hex_zeros_number; [lia|assumption]|]. split; [apply show_Z_written|]. split; [exact S2|]. split; [exact S3|]. split; [exact S4|]. split; [apply show_Z_written|]. split; [exact S1|].
      unfold symbol_line. change (Dump.tx " ") with [" "%char]. cbn [app]. apply cells_left. apply cells_right. apply cells_word. do 2 apply cells_left.
      apply cells_left_right.
      apply cells_word, cells_left, cells_word, cells_last.
    - rewrite E. exists lines. split; [reflexivity|]. destruct R as (L & R). rewrite map_length in L. split; [exact L|].
      intros i [[y n] c] El. destruct (R i (y, c)) as (line & X & Y); [now rewrite nth_error_map, El|]. exists line. split; [exact X|]. apply (Y n). now rewrite nth_error_map, El.
  Qed.
End Image.
