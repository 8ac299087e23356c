(** * FixDump: whole files for the listings *)
From Coq Require Import Ascii String List ZArith Bool Lia.
From Verif Require Import Base ElfRead Dwarf Names Dump SpecMap SpecElf SpecDwarf SpecDebug SpecDump ProofElf1 ProofElf2 ProofDump1 FixElf FixDebug.
Import ListNotations.
Open Scope list_scope.
Open Scope Z_scope.

(** ** names of symbols, decided *)
Definition symbol_b (e : xelf) (y : xsym) (n : str) : bool :=
  match nth_error (xe_shdrs e) (Z.to_nat (x_strndx y)) with
  | None => false
  | Some t => let data := slice (xe_file e) (x_offset t) (x_size t) in
              occursb (xe_file e) (x_offset t) data && (x_size t =? blen data) && forallb (fun b => negb (b =? 0)) (text n) && utf8_ok (text n) &&
              occursb data (x_stname y) (text n ++ [0])
  end.
Lemma symbol_ok e y n : symbol_b e y n = true -> symbol_named e y n.
Proof.
  unfold symbol_b, symbol_named. destruct (nth_error _ _) as [t|]; [|discriminate]. rewrite !andb_true_iff. intros ((((O & L) & P) & U) & Q). exists t. split; [reflexivity|]. split.
  - eexists. split; [apply occursb_ok, O|]. split; [now apply Z.eqb_eq|]. now apply occursb_ok.
  - apply plain_ok. now rewrite P, U.
Qed.
Definition named_b (constants : list (Z * str)) (z : Z) : bool := existsb (fun kv => fst kv =? z) constants.
Lemma has_name_ok constants z : named_b constants z = true -> has_name constants z.
Proof. intros H. apply existsb_exists in H. destruct H as ((k, n) & I & E). apply Z.eqb_eq in E. cbn [fst] in E. subst k. now exists n. Qed.
Lemma usual_ok y : named_b STT_CONSTANTS (x_stinfo y mod 16) && named_b STB_CONSTANTS (x_stinfo y / 16) = true -> usual y.
Proof. rewrite andb_true_iff. intros (A & B). split; now apply has_name_ok. Qed.

(** ** attributes, decided; [strs] is the content of .debug_str *)
Definition value_b (e : xelf) (names : list str) (strs : list Z) (a : dattr) : bool :=
  negb (inexact (at_form a) (at_value a)) &&
  (if at_form a =? 8 then
     match at_value a with DBytes b => (text (map (fun z => ascii_of_nat (Z.to_nat z)) b) =?= b) && utf8_ok b | _ => false end
   else if at_form a =? 14 then
     match at_value a, get_attr_str e a with
     | DInt z, Ok n => section_b e names (tx ".debug_str") strs && occursb strs z (text n ++ [0]) && forallb (fun b => negb (b =? 0)) (text n) && utf8_ok (text n)
     | _, _ => false
     end
   else if at_form a =? 24 then
     match at_value a with
     | DBytes (x :: r) => if x =? 3 then let z := fst (get_address e r 0) in (r =?= address_bytes e z) && (0 <=? z) && (z <? 256 ^ 4)
                          else is_bytesb (x :: r)
     | _ => false
     end
   else negb (at_form a =? 31) && match at_value a with DInt z => 0 <=? z | DBytes b => is_bytesb b | DTrue => true | DNone => false end).
Lemma value_ok e names strs a : value_b e names strs a = true -> inexact (at_form a) (at_value a) = false /\ exists v, value_shown e names a v.
Proof.
  unfold value_b. rewrite andb_true_iff, negb_true_iff. intros (X & H). split; [exact X|]. clear X. destruct (at_form a =? 8) eqn:F8.
  { apply Z.eqb_eq in F8. destruct (at_value a) as [|b| |] eqn:V; try discriminate H. apply andb_true_iff in H. destruct H as (E & U). apply keq_eq in E.
    eexists. apply vs_text. apply tv_string; [exact F8|now rewrite V, E|]. rewrite E. now apply accepted_utf8. }
  destruct (at_form a =? 14) eqn:F14.
  { apply Z.eqb_eq in F14. destruct (at_value a) as [z| | |] eqn:V; try discriminate H. destruct (get_attr_str e a) as [n|]; [|discriminate H]. rewrite !andb_true_iff in H. destruct H as (((S & O) & P) & U).
    exists n. apply vs_text. apply (tv_strp _ _ _ _ 14 (tx ".debug_str") strs z); [now left|exact F14|exact V|now apply section_ok|now apply occursb_ok|]. apply plain_ok. now rewrite P, U. }
  destruct (at_form a =? 24) eqn:F24.
  { apply Z.eqb_eq in F24. destruct (at_value a) as [|[|x r]| |] eqn:V; try discriminate H. destruct (Z.eqb_spec x 3) as [->|N].
    - rewrite !andb_true_iff, Z.leb_le, Z.ltb_lt in H. destruct H as ((E & P) & L). apply keq_eq in E. set (z := fst (get_address e r 0)) in *. exists (hex_int z).
      apply (vs_address _ _ _ z); [exact F24|now rewrite V, E at 1| |now apply hex_int_number]. unfold address_fits, fits. destruct (xe_is64 e); lia.
    - exists (hex_bytes (x :: r)). apply (vs_expression _ _ _ (x :: r)); [exact F24|exact V|now apply eo_other|intros z E; congruence|now apply hex_bytes_ok, is_bytesb_ok]. }
  apply andb_true_iff in H. destruct H as (F31 & H). apply negb_true_iff in F31. apply Z.eqb_neq in F8, F14, F24, F31.
  assert (N : ~ In (at_form a) [8; 14; 24; 31]) by (cbn [In]; intuition congruence).
  destruct (at_value a) as [z|b| |] eqn:V; try discriminate H.
  - apply Z.leb_le in H. exists (hex_int z). apply (vs_number _ _ _ z); auto. now apply hex_int_number.
  - exists (hex_bytes b). apply (vs_bytes _ _ _ b); auto. now apply hex_bytes_ok, is_bytesb_ok.
  - exists (SpecDump.tx "0x1"). now apply vs_true.
Qed.
Lemma showable_ok e names strs ds : forallb (fun d => forallb (fun p => value_b e names strs (snd p)) (d_attrs d)) ds = true -> Forall (showable e names) ds.
Proof.
  rewrite forallb_forall. intros H. apply Forall_forall. intros d I k a J. specialize (H d I). rewrite forallb_forall in H. exact (value_ok _ _ _ _ (H (k, a) J)).
Qed.

(** ** whole files from their sections; the names of the sections and of the symbols are in the first *)
Definition whole_shdrs (l : list sec) : list xshdr :=
  mini_shdrs 0 52 (match l with (n, ty, d) :: r => (n, ty, flat_map (fun s => bz (fst (fst s))) l ++ d) :: r | [] => [] end).
Definition whole_data (l : list sec) : list Z :=
  match l with (n, ty, d) :: r => (flat_map (fun s => bz (fst (fst s))) l ++ d) ++ flat_map snd r | [] => [] end.
Definition whole_ehdr (l : list sec) : ehdr :=
  Ehdr [127; 69; 76; 70; 1; 1; 1; 0; 0; 0; 0; 0; 0; 0; 0; 0] 2 243 1 0 0 (52 + blen (whole_data l)) 0 52 32 0 40 (Z.of_nat (length l)) 0.
Definition whole (l : list sec) : list Z := ehdr_bytes false false (whole_ehdr l) ++ whole_data l ++ flat_map (shdr_bytes false false) (whole_shdrs l).
Definition whole_elf (l : list sec) : xelf := XElf (whole l) false false (whole_ehdr l) [] (whole_shdrs l).
Ltac whole_tac := split; [split|vm_compute; discriminate]; try (intros _); try (apply occursb_ok; vm_compute; reflexivity); try reflexivity; try (repeat constructor; numbers).

(** a symbol of the processor-independent reserved type 8 between two others *)
Definition ut_syms : list xsym := [XSym 0 0 4096 40 18 0 1; XSym 0 0 8192 4 24 0 1; XSym 0 0 12288 4 17 0 1].
Definition ut_secs : list sec := [(".shstrtab"%string, 3, []); (".symtab"%string, 2, flat_map (sym_bytes false false) ut_syms)].
Lemma ut_image : elf_image false false (whole ut_secs) (whole_ehdr ut_secs) [] (whole_shdrs ut_secs).
Proof. whole_tac. Qed.
Lemma ut_symtab : Forall2 (symtab_image false false (whole ut_secs)) (filter is_symtab (whole_shdrs ut_secs)) [ut_syms].
Proof.
  cbv [whole_shdrs ut_secs mini_shdrs flat_map filter is_symtab x_type Z.eqb Pos.eqb orb]. constructor; [|constructor]. split; [apply occursb_ok; vm_compute; reflexivity|reflexivity|repeat constructor; numbers|repeat constructor].
Qed.

(** a unit with DW_AT_ranges (85) in the form f, loclistx (34) or rnglistx (35) *)
Definition rl_root (f : Z) : abbrev := Abbrev 1 17 0 [attr 3 8; attr 85 f; attr 19 11; no_more].
Definition rl_tree (f : Z) : tree := Tree (rl_root f) [1] [vstr "main.c"; (DInt 0, [0]); (DInt 29, [29])] [].
Definition rl_unit (f : Z) : funit := FUnit (cu_v5 1 (rl_tree f)) [rl_root f] (rl_tree f) [].
Definition rl_secs (f : Z) : list sec :=
  [(".shstrtab"%string, 3, []); (".debug_abbrev"%string, 1, abbrevs_bytes [rl_root f]); (".debug_info"%string, 1, unit_bytes (rl_unit f) (hdr_v5 1))].
(** a unit with an attribute with a long name: DW_AT_GNU_all_source_call_sites (8472) *)
Definition ln_root : abbrev := Abbrev 1 17 0 [attr 3 8; attr 8472 25; no_more].
Definition ln_bytes : list Z := [1; 17; 0; 3; 8; 152; 66; 25; 0; 0; 0].
Definition ln_tree : tree := Tree ln_root [1] [vstr "main.c"; (DTrue, [])] [].
Definition ln_unit : funit := FUnit (cu_v5 1 ln_tree) [ln_root] ln_tree [].
Definition ln_secs : list sec :=
  [(".shstrtab"%string, 3, []); (".debug_abbrev"%string, 1, ln_bytes); (".debug_info"%string, 1, unit_bytes ln_unit (hdr_v5 1))].
Lemma unit_v5 t tbl abb : blen (tbytes t) < 1000000 -> let u := FUnit (cu_v5 1 t) tbl t [] in
  units_enc false 0 (map (fun u => (u_cu u, tbytes (u_tree u) ++ u_pad u)) [u]) (unit_bytes u (hdr_v5 1)) /\
  (tree_ok false (cu_v5 1 t) tbl t -> (exists l, abbrevs_enc tbl l /\ occurs abb 0 l) -> numbered tbl -> readable tbl -> unit_ok false abb u).
Proof.
  intros L u. split.
  - cbn [map u_cu u_tree u_pad u]. rewrite <- (app_nil_r (unit_bytes u (hdr_v5 1))).
    apply us_cons; [reflexivity | | apply us_nil]. unfold unit_bytes. cbn [u_cu u_tree u_pad u]. pose proof (blen_nonneg (tbytes t)).
    apply (ue_unit false (cu_v5 1 t) (tbytes t ++ []) (hdr_v5 1)).
    + apply uh_full. now left.
    + auto.
    + split; [discriminate | reflexivity].
    + rewrite app_nil_r. reflexivity.
    + cbn [cu_length cu_is64 cu_v5]. lia.
    + reflexivity.
    + reflexivity.
  - intros T A N R. split; auto. right. now left.
Qed.
Lemma rl_image f : f = 34 \/ f = 35 -> elf_image false false (whole (rl_secs f)) (whole_ehdr (rl_secs f)) [] (whole_shdrs (rl_secs f)).
Proof. intros [->| ->]; whole_tac. Qed.
Lemma rl_debug34 : debug_image (whole_elf (rl_secs 34)) (mini_names (rl_secs 34)) [rl_unit 34].
Proof.
  split; [apply named_ok; vm_compute; reflexivity|]. exists (unit_bytes (rl_unit 34) (hdr_v5 1)), (abbrevs_bytes [rl_root 34]).
  split; [apply section_ok; vm_compute; reflexivity|]. split; [apply section_ok; vm_compute; reflexivity|].
  destruct (unit_v5 (rl_tree 34) [rl_root 34] (abbrevs_bytes [rl_root 34])) as (U & O); [reflexivity|]. split; [exact U|]. constructor; [|constructor]. apply O.
  - unfold rl_tree. set (c := cu_v5 1 (rl_tree 34)). node false c; [attr_tac false c | attr_tac false c | attr_tac false c | apply Forall_nil].
  - exists (abbrevs_bytes [rl_root 34]). split; [apply uleb_tbl; reflexivity | apply occursb_ok; reflexivity].
  - apply numbered_ok. reflexivity.
  - apply readable_ok. reflexivity.
Qed.
Lemma rl_debug35 : debug_image (whole_elf (rl_secs 35)) (mini_names (rl_secs 35)) [rl_unit 35].
Proof.
  split; [apply named_ok; vm_compute; reflexivity|]. exists (unit_bytes (rl_unit 35) (hdr_v5 1)), (abbrevs_bytes [rl_root 35]).
  split; [apply section_ok; vm_compute; reflexivity|]. split; [apply section_ok; vm_compute; reflexivity|].
  destruct (unit_v5 (rl_tree 35) [rl_root 35] (abbrevs_bytes [rl_root 35])) as (U & O); [reflexivity|]. split; [exact U|]. constructor; [|constructor]. apply O.
  - unfold rl_tree. set (c := cu_v5 1 (rl_tree 35)). node false c; [attr_tac false c | attr_tac false c | attr_tac false c | apply Forall_nil].
  - exists (abbrevs_bytes [rl_root 35]). split; [apply uleb_tbl; reflexivity | apply occursb_ok; reflexivity].
  - apply numbered_ok. reflexivity.
  - apply readable_ok. reflexivity.
Qed.
Lemma ln_image : elf_image false false (whole ln_secs) (whole_ehdr ln_secs) [] (whole_shdrs ln_secs).
Proof. whole_tac. Qed.
Lemma ln_debug : debug_image (whole_elf ln_secs) (mini_names ln_secs) [ln_unit].
Proof.
  split; [apply named_ok; vm_compute; reflexivity|]. exists (unit_bytes ln_unit (hdr_v5 1)), ln_bytes.
  split; [apply section_ok; vm_compute; reflexivity|]. split; [apply section_ok; vm_compute; reflexivity|].
  destruct (unit_v5 ln_tree [ln_root] ln_bytes) as (U & O); [reflexivity|]. split; [exact U|]. constructor; [|constructor]. apply O.
  - unfold ln_tree. set (c := cu_v5 1 ln_tree). node false c; [attr_tac false c | attr_tac false c | apply Forall_nil].
  - exists ln_bytes. split; [|apply occursb_ok; reflexivity].
    apply (abs_more ln_root [] [1] [17] [3; 8; 152; 66; 25; 0; 0] [0]); [cbn; lia|uleb|uleb|cbn; lia| |apply abs_end; uleb].
    apply (aes_more (attr 3 8) [3; 8] _ [152; 66; 25; 0; 0]); [left; discriminate|exists [3], [8], []; repeat split; try uleb; discriminate|].
    apply (aes_more (attr 8472 25) [152; 66; 25] _ [0; 0]); [left; discriminate|exists [152; 66], [25], []; repeat split; try uleb; discriminate|].
    apply (aes_end [0] [0]); uleb.
  - apply numbered_ok. reflexivity.
  - apply readable_ok. reflexivity.
Qed.
