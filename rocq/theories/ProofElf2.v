(** * ProofElf2: reading headers, symbols and names *)
From Coq Require Import Ascii String List ZArith Bool Lia.
From Verif Require Import Base ElfRead SpecElf ProofElf1.
Import ListNotations.
Open Scope list_scope.
Open Scope Z_scope.

(** ** Structures *)

Inductive packed (big : bool) : list Z -> list Z -> list Z -> Prop :=
| pk_nil : packed big [] [] []
| pk_cons n v fmt vs l : fits (Z.of_nat n) v -> packed big fmt vs l ->
    packed big (Z.of_nat n :: fmt) (v :: vs) (int_enc big n v ++ l).

Lemma packed_len : forall big fmt vs l, packed big fmt vs l -> blen l = calcsize fmt.
Proof.
  intros big fmt vs l H. induction H; [reflexivity|].
  rewrite blen_app, blen_int_enc, IHpacked. reflexivity.
Qed.
Lemma packed_unpack : forall big fmt vs l, packed big fmt vs l -> forall post, unpack big fmt (l ++ post) = vs.
Proof.
  intros big fmt vs l H. induction H; intros post; [reflexivity|]. cbn [unpack].
  rewrite <- app_assoc. rewrite take_app_le by (now rewrite blen_int_enc).
  rewrite from_bytes_fits by assumption.
  replace (Z.of_nat n) with (blen (int_enc big n v)) by apply blen_int_enc.
  rewrite drop_app, IHpacked. reflexivity.
Qed.
Lemma get_fmt_packed : forall big fmt vs l data off, packed big fmt vs l -> occurs data off l ->
  get_fmt big fmt data off = Ok (vs, off + blen l).
Proof.
  intros big fmt vs l data off H O. unfold get_fmt. pose proof (occurs_off _ _ _ O).
  rewrite <- (packed_len _ _ _ _ H).
  destruct (blen data - off <? blen l) eqn:E; [apply Z.ltb_lt in E; lia|].
  destruct (occurs_drop _ _ _ O) as [p ->]. now rewrite (packed_unpack _ _ _ _ H).
Qed.

Lemma int_enc_byte : forall big v, fits 1 v -> int_enc big 1 v = [v].
Proof.
  intros big v F. unfold fits in F. change (256 ^ 1) with 256 in F.
  unfold int_enc; cbn [le_enc rev app]. rewrite Z.mod_small by lia. now destruct big.
Qed.

Ltac pack :=
  repeat match goal with
  | |- packed _ (?n :: _) _ (int_enc _ ?k _ ++ _) =>
      change n with (Z.of_nat k); apply pk_cons; [assumption|]
  | |- packed _ [?n] _ (int_enc _ ?k ?v) =>
      rewrite <- (app_nil_r (int_enc _ k v)); change n with (Z.of_nat k); apply pk_cons; [assumption|apply pk_nil]
  end.

Lemma packed_shdr : forall is64 big s, shdr_ok is64 s ->
  packed big (shdr_fmt is64)
    [x_name s; x_type s; x_flags s; x_addr s; x_offset s; x_size s; x_link s; x_info s; x_addralign s; x_entsize s]
    (shdr_bytes is64 big s).
Proof.
  intros is64 big s (A & B & C & D & E & F & G & H & I & J). unfold xfits in *.
  unfold shdr_bytes, word, xword. destruct is64; cbn [shdr_fmt]; pack.
Qed.
Lemma mk_xshdr_eta : forall s,
  mk_xshdr [x_name s; x_type s; x_flags s; x_addr s; x_offset s; x_size s; x_link s; x_info s; x_addralign s;
            x_entsize s] = Ok s.
Proof. intros []; reflexivity. Qed.

Lemma packed_phdr32 : forall big p, phdr_ok false p ->
  packed big (phdr_fmt false)
    [p_type p; p_offset p; p_vaddr p; p_paddr p; p_filesz p; p_memsz p; p_flags p; p_align p] (phdr_bytes false big p).
Proof.
  intros big p (A & B & C & D & E & F & G & H). unfold xfits in *.
  unfold phdr_bytes, word; cbn [phdr_fmt]; pack.
Qed.
Lemma packed_phdr64 : forall big p, phdr_ok true p ->
  packed big (phdr_fmt true)
    [p_type p; p_flags p; p_offset p; p_vaddr p; p_paddr p; p_filesz p; p_memsz p; p_align p] (phdr_bytes true big p).
Proof.
  intros big p (A & B & C & D & E & F & G & H). unfold xfits in *.
  unfold phdr_bytes, word, xword; cbn [phdr_fmt]; pack.
Qed.
(** what is made of a program header *)
Definition phdr_read (is64 : bool) (p : phdr) : phdr :=
  if is64 then Phdr (p_type p) (p_flags p) (p_offset p) (p_vaddr p) (p_paddr p) (p_filesz p) (p_memsz p) (p_align p)
  else p.

Lemma packed_sym : forall is64 big y, sym_ok is64 y ->
  packed big (sym_fmt is64)
    (if is64 then [x_stname y; x_stinfo y; x_stother y; x_shndx y; x_value y; x_stsize y]
     else [x_stname y; x_value y; x_stsize y; x_stinfo y; x_stother y; x_shndx y]) (sym_bytes is64 big y).
Proof.
  intros is64 big y (A & B & C & D & E & F). unfold xfits in *.
  unfold sym_bytes, word, xword, half.
  rewrite <- (int_enc_byte big (x_stinfo y)), <- (int_enc_byte big (x_stother y)) by assumption.
  destruct is64; cbn [sym_fmt]; pack.
Qed.
Lemma mk_xsym_eta : forall is64 link y, x_strndx y = link ->
  mk_xsym is64 link (if is64 then [x_stname y; x_stinfo y; x_stother y; x_shndx y; x_value y; x_stsize y]
     else [x_stname y; x_value y; x_stsize y; x_stinfo y; x_stother y; x_shndx y]) = Ok y.
Proof. intros [] link [] <-; reflexivity. Qed.

(** ** Tables *)

Lemma read_table_items : forall {A B} big fmt (mk : list Z -> res B) (enc : A -> list Z) (g : A -> B) (ok : A -> Prop),
  (forall a, ok a -> exists vs, packed big fmt vs (enc a) /\ mk vs = Ok (g a)) -> 0 < calcsize fmt ->
  forall l, Forall ok l -> forall fuel data off size, (length l < fuel)%nat ->
  occurs data off (flat_map enc l) -> size = off + blen (flat_map enc l) ->
  read_table fuel big fmt mk data off size = (map g l, None).
Proof.
  intros A B big fmt mk enc g ok P N l OK. induction OK as [|a l Ha OK IH]; intros fuel data off size F O E;
    (destruct fuel as [|fuel]; [cbn [length] in F; lia|]); cbn [read_table flat_map map length] in *.
  - rewrite blen_nil in E. subst size. destruct (off <? off + 0) eqn:L; [apply Z.ltb_lt in L; lia | reflexivity].
  - destruct (P a Ha) as (vs & PK & MK). pose proof (packed_len _ _ _ _ PK) as LEN.
    rewrite blen_app in E. pose proof (blen_nonneg (flat_map enc l)).
    destruct (off <? size) eqn:L; [|apply Z.ltb_ge in L; lia].
    rewrite (get_fmt_packed _ _ _ _ _ _ PK (occurs_app_l _ _ _ _ O)). rewrite MK.
    rewrite (IH fuel data (off + blen (enc a)) size); [reflexivity | lia | apply occurs_app_r; exact O | lia].
Qed.

Lemma flat_map_len : forall {A} (enc : A -> list Z) n l, (forall a, In a l -> blen (enc a) = n) ->
  blen (flat_map enc l) = Z.of_nat (length l) * n.
Proof.
  intros A enc n l H. induction l as [|a l IH]; [reflexivity|]. cbn [flat_map length].
  rewrite blen_app, IH by (intros; apply H; now right). rewrite H by now left. lia.
Qed.

Lemma read_headers_items : forall {A B} file big fmt (mk : list Z -> res B) (enc : A -> list Z) (g : A -> B)
    (ok : A -> Prop) l num entsize off,
  (forall a, ok a -> exists vs, packed big fmt vs (enc a) /\ mk vs = Ok (g a)) -> 0 < calcsize fmt ->
  Forall ok l -> num = Z.of_nat (length l) -> (l <> [] -> entsize = calcsize fmt) ->
  (l <> [] -> occurs file off (flat_map enc l)) ->
  read_headers file big fmt mk num entsize off = Ok (map g l).
Proof.
  intros A B file big fmt mk enc g ok l num entsize off P N OK NUM ENT O. unfold read_headers.
  destruct l as [|a l].
  - subst num. reflexivity.
  - assert (NE : a :: l <> []) by discriminate. specialize (ENT NE). specialize (O NE).
    destruct (num =? 0) eqn:E; [apply Z.eqb_eq in E; cbn [length] in NUM; lia|]. clear E.
    assert (LEN : blen (flat_map enc (a :: l)) = num * entsize).
    { rewrite NUM, ENT. apply flat_map_len. intros x X.
      destruct (P x (proj1 (Forall_forall _ _) OK x X)) as (vs & PK & _). exact (packed_len _ _ _ _ PK). }
    rewrite <- LEN. rewrite (read_occurs _ _ _ O). cbn [bind].
    rewrite (read_table_items big fmt mk enc g ok P N (a :: l) OK); [reflexivity| | |lia].
    + assert (Z.of_nat (length (a :: l)) <= blen (flat_map enc (a :: l))) by (rewrite LEN, NUM, ENT; nia).
      unfold blen in H. lia.
    + exists [], []. rewrite app_nil_r. auto.
Qed.

Lemma symtab_items : forall is64 big file h phs shs s l, symtab_image is64 big file s l ->
  symtab_symbols (XElf file is64 big h phs shs) s = (l, None).
Proof.
  intros is64 big file h phs shs s l [D L OK LK]. unfold symtab_symbols.
  destruct l as [|y l].
  - cbn in L. rewrite L. reflexivity.
  - assert (LEN : forall y, In y (y :: l) -> True) by auto. clear LEN.
    assert (N : 0 < calcsize (sym_fmt is64)) by (destruct is64; reflexivity).
    assert (LEN : blen (flat_map (sym_bytes is64 big) (y :: l)) = Z.of_nat (length (y :: l)) * calcsize (sym_fmt is64)).
    { apply flat_map_len. intros x X. apply (packed_len _ _ _ _ (packed_sym is64 big x (proj1 (Forall_forall _ _) OK x X))). }
    destruct (x_size s <=? 0) eqn:E; [apply Z.leb_le in E; rewrite L, LEN in E; cbn [length] in E; lia|].
    unfold shdr_data. cbn [xe_file xe_is64 xe_big]. rewrite L, (read_occurs _ _ _ D).
    rewrite <- (map_id (y :: l)) at 4.
    apply (read_table_items big (sym_fmt is64) (mk_xsym is64 (x_link s)) (sym_bytes is64 big) (fun x => x)
               (fun x => sym_ok is64 x /\ x_strndx x = x_link s)).
    + intros a [A1 A2]. eexists; split; [apply packed_sym; exact A1 | apply mk_xsym_eta; exact A2].
    + exact N.
    + apply Forall_forall. intros x X. split; [exact (proj1 (Forall_forall _ _) OK x X) | exact (proj1 (Forall_forall _ _) LK x X)].
    + unfold blen in LEN. nia.
    + exists [], []. rewrite app_nil_r. auto.
    + lia.
Qed.

Lemma symbols_items : forall is64 big file h phs shs all ls,
  Forall2 (symtab_image is64 big file) (filter is_symtab all) ls ->
  symbols_loop (XElf file is64 big h phs shs) all = (concat ls, None).
Proof.
  intros is64 big file h phs shs all. induction all as [|s all IH]; intros ls F; cbn [filter symbols_loop] in *.
  - inversion F; reflexivity.
  - unfold is_symtab in F at 1. destruct ((x_type s =? 2) || (x_type s =? 11)); cbn [negb].
    + inversion F as [|s' l ss ls' I F']; subst. rewrite (symtab_items _ _ _ h phs shs _ _ I).
      rewrite (IH ls' F'). reflexivity.
    + apply IH; exact F.
Qed.

(** ** The file *)

Lemma fits_ident : forall (l : list Z), length l = 16%nat -> blen l = 16.
Proof. intros l H; unfold blen; now rewrite H. Qed.

Lemma header_native is64 : native_size 16 (ehdr_fmt is64) = 76.
Proof. now destruct is64. Qed.
Lemma header_calc is64 : 16 + calcsize (ehdr_fmt is64) = if is64 then 64 else 52.
Proof. now destruct is64. Qed.

(** the first [n] bytes of a file, of which [l] is the beginning *)
Lemma read_longer : forall file l n, occurs file 0 l -> blen l <= n <= blen file -> exists r, read file 0 n = Ok (l ++ r).
Proof.
  intros file l n (pre & post & E & Z0) N. assert (pre = []) as -> by (destruct pre; [reflexivity|unfold blen in Z0; cbn [length] in Z0; lia]).
  cbn [app] in E. subst file. exists (take (n - blen l) post). unfold read, slice. rewrite drop_0 by lia. rewrite blen_app in N.
  assert (T : take n (l ++ post) = l ++ take (n - blen l) post).
  { clear Z0. revert n N. induction l as [|b l IH]; intros n N; cbn [app take].
    - unfold blen. cbn [length]. f_equal; lia.
    - unfold blen in *. cbn [length] in *. destruct (n <=? 0) eqn:C; [apply Z.leb_le in C; lia|]. f_equal. rewrite IH by lia. do 2 f_equal. lia. }
  rewrite T, blen_app. replace (blen l + blen (take (n - blen l) post) =? n) with true; [reflexivity|]. symmetry. apply Z.eqb_eq.
  rewrite take_firstn. unfold blen in *. rewrite firstn_length. lia.
Qed.

Lemma elf_init_image : forall is64 big file h phs shs, elf_image is64 big file h phs shs ->
  elf_init file = Ok (XElf file is64 big h (map (phdr_read is64) phs) shs).
Proof.
  intros is64 big file h phs shs I. destruct I as [[OK EH PN PE PO PD SN SE SO SD] ROOM].
  destruct OK as [[IL ID] (A & B & C & D & E & F & G & H & J & K & L & M & N)].
  unfold elf_init, ehdr_bytes in *.
  set (rest := half big (e_type h) ++ _) in EH.
  assert (PK : packed big (ehdr_fmt is64)
            [e_type h; e_machine h; e_version h; e_entry h; e_phoff h; e_shoff h; e_flags h; e_ehsize h;
             e_phentsize h; e_phnum h; e_shentsize h; e_shnum h; e_shstrndx h] rest).
  { subst rest. unfold half, word, xword, xfits in *. destruct is64; cbn [ehdr_fmt]; pack. }
  pose proof (fits_ident _ IL) as IL'.
  replace (read file 0 16) with (@Ok (list Z) (e_ident h)).
  2:{ rewrite <- IL'. symmetry. apply read_occurs. exact (occurs_app_l _ _ _ _ EH). }
  cbn [bind].
  assert (ID' : exists r, e_ident h = [127; 69; 76; 70; if is64 then 2 else 1; if big then 2 else 1] ++ r).
  { exists (skipn 6 (e_ident h)). rewrite <- ID. symmetry; apply firstn_skipn. }
  destruct ID' as [r ID'].
  assert (T4 : take 4 (e_ident h) = ELFMAG) by (rewrite ID'; reflexivity).
  assert (I5 : py_index (e_ident h) 5 = Ok (if big then 2 else 1)) by (rewrite ID'; reflexivity).
  assert (I4 : py_index (e_ident h) 4 = Ok (if is64 then 2 else 1)) by (rewrite ID'; reflexivity).
  rewrite T4. replace (ELFMAG =?= ELFMAG) with true by reflexivity. cbn [negb].
  rewrite I5. cbn [bind]. replace (if (if big then 2 else 1) =? 1 then Ok false else if (if big then 2 else 1) =? 2 then Ok true else Err Elf_Exception) with (Ok big) by (destruct big; reflexivity).
  cbn [bind]. rewrite I4. cbn [bind].
  replace (if (if is64 then 2 else 1) =? 1 then Ok false else if (if is64 then 2 else 1) =? 2 then Ok true else Err Elf_Exception) with (Ok is64) by (destruct is64; reflexivity).
  cbn [bind].
  assert (LEN : blen (e_ident h ++ rest) = 16 + calcsize (ehdr_fmt is64)).
  { rewrite blen_app, IL', (packed_len _ _ _ _ PK). reflexivity. }
  rewrite header_native. destruct (read_longer file (e_ident h ++ rest) 76 EH) as [more ->].
  { rewrite LEN, header_calc. destruct is64; lia. }
  cbn [bind]. rewrite <- app_assoc.
  assert (O : occurs (e_ident h ++ rest ++ more) 16 rest).
  { exists (e_ident h), more. auto. }
  rewrite (get_fmt_packed _ _ _ _ _ _ PK O). cbn [bind].
  rewrite (take_app_le 16) by (symmetry; exact IL').
  replace (mk_ehdr (e_ident h) _) with (@Ok ehdr h) by (destruct h; reflexivity).
  cbn [bind].
  rewrite (read_headers_items file big (phdr_fmt is64) mk_phdr (phdr_bytes is64 big) (phdr_read is64) (phdr_ok is64) phs).
  - cbn [bind].
    rewrite (read_headers_items file big (shdr_fmt is64) mk_xshdr (shdr_bytes is64 big) (fun x => x) (shdr_ok is64) shs).
    + cbn [bind]. now rewrite map_id.
    + intros a X. eexists; split; [apply packed_shdr; exact X | apply mk_xshdr_eta].
    + destruct is64; reflexivity.
    + exact SO.
    + exact SN.
    + intros X. rewrite (SE X). destruct is64; reflexivity.
    + exact SD.
  - intros a X. destruct is64.
    + eexists; split; [apply packed_phdr64; exact X | reflexivity].
    + eexists; split; [apply packed_phdr32; exact X | destruct a; reflexivity].
  - destruct is64; reflexivity.
  - exact PO.
  - exact PN.
  - intros X. rewrite (PE X). destruct is64; reflexivity.
  - exact PD.
Qed.

(** ** Names *)

Lemma until_zero_app : forall s post, Forall (fun b => b <> 0) s -> until_zero (s ++ 0 :: post) = Some s.
Proof.
  intros s post H. induction H as [|b s B H IH]; [reflexivity|]. cbn [app until_zero].
  destruct (b =? 0) eqn:E; [apply Z.eqb_eq in E; contradiction|]. rewrite IH. reflexivity.
Qed.
Lemma text_nonzero : forall s, plain s -> Forall (fun b => b <> 0) (text s).
Proof. intros s [H _]. exact H. Qed.

Lemma within_true : forall lo hi b, lo <= b <= hi -> within lo hi b = true.
Proof. intros lo hi b [A B]. unfold within. apply andb_true_iff. rewrite !Z.leb_le. auto. Qed.
Lemma within_false : forall lo hi b, b < lo \/ hi < b -> within lo hi b = false.
Proof. intros lo hi b H. unfold within. apply andb_false_iff. rewrite !Z.leb_gt. auto. Qed.
Lemma within_inv : forall lo hi b, within lo hi b = true -> lo <= b <= hi.
Proof. intros lo hi b H. unfold within in H. apply andb_true_iff in H. rewrite !Z.leb_le in H. exact H. Qed.

Lemma utf8_ok_char : forall c l, scalar c -> utf8_ok (utf8_char c ++ l) = utf8_ok l.
Proof.
  intros c l S. unfold scalar in S. unfold utf8_char.
  destruct (c <? 128) eqn:C1; [apply Z.ltb_lt in C1 | apply Z.ltb_ge in C1].
  - cbn [app utf8_ok]. rewrite within_true by lia. reflexivity.
  - destruct (c <? 2048) eqn:C2; [apply Z.ltb_lt in C2 | apply Z.ltb_ge in C2].
    + assert (2 <= c / 64 < 32) by (split; [apply Z.div_le_lower_bound | apply Z.div_lt_upper_bound]; lia).
      pose proof (Z.mod_pos_bound c 64 ltac:(lia)).
      cbn [app utf8_ok]. rewrite (within_false 0 127) by lia. rewrite (within_true 194 223) by lia.
      rewrite within_true by lia. reflexivity.
    + destruct (c <? 65536) eqn:C3; [apply Z.ltb_lt in C3 | apply Z.ltb_ge in C3].
      * assert (0 <= c / 4096 < 16) by (split; [apply Z.div_pos | apply Z.div_lt_upper_bound]; lia).
        pose proof (Z.mod_pos_bound c 64 ltac:(lia)). pose proof (Z.mod_pos_bound (c / 64) 64 ltac:(lia)).
        assert (D : c / 64 = 64 * (c / 4096) + c / 64 mod 64).
        { change 4096 with (64 * 64). rewrite <- Z.div_div by lia. apply Z.div_mod. lia. }
        pose proof (Z.div_mod c 64 ltac:(lia)).
        cbn [app utf8_ok]. rewrite (within_false 0 127) by lia. rewrite (within_false 194 223) by lia.
        rewrite (within_true 224 239) by lia.
        rewrite (within_true 128 191 (128 + c mod 64)) by lia.
        rewrite within_true; [reflexivity|].
        destruct (224 + c / 4096 =? 224) eqn:E1; [apply Z.eqb_eq in E1 | apply Z.eqb_neq in E1];
          destruct (224 + c / 4096 =? 237) eqn:E2; [apply Z.eqb_eq in E2 | apply Z.eqb_neq in E2
                                                   |apply Z.eqb_eq in E2 | apply Z.eqb_neq in E2]; lia.
      * assert (0 <= c / 262144 <= 4) by (split; [apply Z.div_pos | apply Z.lt_succ_r; apply Z.div_lt_upper_bound]; lia).
        pose proof (Z.mod_pos_bound c 64 ltac:(lia)). pose proof (Z.mod_pos_bound (c / 64) 64 ltac:(lia)).
        pose proof (Z.mod_pos_bound (c / 4096) 64 ltac:(lia)).
        assert (D : c / 64 = 64 * (c / 4096) + c / 64 mod 64).
        { change 4096 with (64 * 64). rewrite <- Z.div_div by lia. apply Z.div_mod. lia. }
        assert (D2 : c / 4096 = 64 * (c / 262144) + c / 4096 mod 64).
        { change 262144 with (4096 * 64). rewrite <- Z.div_div by lia. apply Z.div_mod. lia. }
        pose proof (Z.div_mod c 64 ltac:(lia)).
        cbn [app utf8_ok]. rewrite (within_false 0 127) by lia. rewrite (within_false 194 223) by lia.
        rewrite (within_false 224 239) by lia. rewrite (within_true 240 244) by lia.
        rewrite (within_true 128 191 (128 + c mod 64)) by lia. rewrite (within_true 128 191 (128 + c / 64 mod 64)) by lia.
        rewrite within_true; [reflexivity|].
        destruct (240 + c / 262144 =? 240) eqn:E1; [apply Z.eqb_eq in E1 | apply Z.eqb_neq in E1];
          destruct (240 + c / 262144 =? 244) eqn:E2; [apply Z.eqb_eq in E2 | apply Z.eqb_neq in E2
                                                   |apply Z.eqb_eq in E2 | apply Z.eqb_neq in E2]; lia.
Qed.

Lemma utf8_accepted : forall l, utf8 l -> utf8_ok l = true.
Proof.
  intros l (cs & F & ->). induction F as [|c cs S F IH]; [reflexivity|].
  cbn [flat_map]. rewrite utf8_ok_char by exact S. exact IH.
Qed.

Lemma utf8_nil : utf8 [].
Proof. exists []. split; [constructor | reflexivity]. Qed.
Lemma utf8_cons : forall c l, scalar c -> utf8 l -> utf8 (utf8_char c ++ l).
Proof. intros c l S (cs & F & ->). exists (c :: cs). split; [constructor; assumption | reflexivity]. Qed.

(** the decoder accepts nothing else *)
Lemma accepted_utf8_len : forall n l, (length l <= n)%nat -> utf8_ok l = true -> utf8 l.
Proof.
  induction n as [|n IH]; intros [|a r] L H; try apply utf8_nil; [cbn in L; lia|].
  cbn [utf8_ok] in H.
  destruct (within 0 127 a) eqn:W0.
  { apply within_inv in W0. replace (a :: r) with (utf8_char a ++ r).
    - apply utf8_cons; [left; lia | apply IH; [cbn in L; lia | exact H]].
    - unfold utf8_char. rewrite (proj2 (Z.ltb_lt a 128)) by lia. reflexivity. }
  destruct (within 194 223 a) eqn:W1.
  { apply within_inv in W1. destruct r as [|b r]; [discriminate|]. apply andb_true_iff in H. destruct H as [B H].
    apply within_inv in B. set (c := 64 * (a - 192) + (b - 128)).
    assert (Q : c / 64 = a - 192) by (unfold c; rewrite Z.add_comm, Z.mul_comm, Z.div_add, Z.div_small by lia; lia).
    assert (R : c mod 64 = b - 128) by (unfold c; rewrite Z.add_comm, Z.mul_comm, Z.mod_add, Z.mod_small by lia; lia).
    replace (a :: b :: r) with (utf8_char c ++ r).
    - apply utf8_cons; [left; unfold c; lia | apply IH; [cbn in L; lia | exact H]].
    - unfold utf8_char. rewrite (proj2 (Z.ltb_ge c 128)) by (unfold c; lia). rewrite (proj2 (Z.ltb_lt c 2048)) by (unfold c; lia).
      rewrite Q, R. cbn [app]. repeat (f_equal; try lia). }
  destruct (within 224 239 a) eqn:W2.
  { apply within_inv in W2. destruct r as [|b [|c r]]; try discriminate. rewrite !andb_true_iff in H. destruct H as [[B C] H].
    apply within_inv in B, C.
    assert (BB : 128 <= b <= 191 /\ (a = 224 -> 160 <= b) /\ (a = 237 -> b <= 159)).
    { destruct (a =? 224) eqn:E1; [apply Z.eqb_eq in E1 | apply Z.eqb_neq in E1];
        destruct (a =? 237) eqn:E2; [apply Z.eqb_eq in E2 | apply Z.eqb_neq in E2
                                    |apply Z.eqb_eq in E2 | apply Z.eqb_neq in E2]; lia. }
    set (x := 64 * (64 * (a - 224) + (b - 128)) + (c - 128)).
    assert (Q : x / 64 = 64 * (a - 224) + (b - 128)) by (unfold x; rewrite Z.add_comm, Z.mul_comm, Z.div_add, Z.div_small by lia; lia).
    assert (R : x mod 64 = c - 128) by (unfold x; rewrite Z.add_comm, Z.mul_comm, Z.mod_add, Z.mod_small by lia; lia).
    assert (Q2 : x / 4096 = a - 224).
    { change 4096 with (64 * 64). rewrite <- Z.div_div, Q by lia. rewrite Z.add_comm, Z.mul_comm, Z.div_add, Z.div_small by lia. lia. }
    assert (R2 : x / 64 mod 64 = b - 128).
    { rewrite Q. rewrite Z.add_comm, Z.mul_comm, Z.mod_add, Z.mod_small by lia. lia. }
    replace (a :: b :: c :: r) with (utf8_char x ++ r).
    - apply utf8_cons; [unfold scalar, x; lia | apply IH; [cbn in L; lia | exact H]].
    - unfold utf8_char. rewrite (proj2 (Z.ltb_ge x 128)) by (unfold x; lia). rewrite (proj2 (Z.ltb_ge x 2048)) by (unfold x; lia).
      rewrite (proj2 (Z.ltb_lt x 65536)) by (unfold x; lia).
      rewrite Q2, R2, R. cbn [app]. repeat (f_equal; try lia). }
  destruct (within 240 244 a) eqn:W3; [|discriminate].
  apply within_inv in W3. destruct r as [|b [|c [|d r]]]; try discriminate. rewrite !andb_true_iff in H. destruct H as [[[B C] D] H].
  apply within_inv in B, C, D.
  assert (BB : 128 <= b <= 191 /\ (a = 240 -> 144 <= b) /\ (a = 244 -> b <= 143)).
  { destruct (a =? 240) eqn:E1; [apply Z.eqb_eq in E1 | apply Z.eqb_neq in E1];
      destruct (a =? 244) eqn:E2; [apply Z.eqb_eq in E2 | apply Z.eqb_neq in E2
                                  |apply Z.eqb_eq in E2 | apply Z.eqb_neq in E2]; lia. }
  set (x := 64 * (64 * (64 * (a - 240) + (b - 128)) + (c - 128)) + (d - 128)).
  assert (Q : x / 64 = 64 * (64 * (a - 240) + (b - 128)) + (c - 128)) by (unfold x; rewrite Z.add_comm, Z.mul_comm, Z.div_add, Z.div_small by lia; lia).
  assert (R : x mod 64 = d - 128) by (unfold x; rewrite Z.add_comm, Z.mul_comm, Z.mod_add, Z.mod_small by lia; lia).
  assert (Q2 : x / 4096 = 64 * (a - 240) + (b - 128)).
  { change 4096 with (64 * 64). rewrite <- Z.div_div, Q by lia. rewrite Z.add_comm, Z.mul_comm, Z.div_add, Z.div_small by lia. lia. }
  assert (R2 : x / 64 mod 64 = c - 128).
  { rewrite Q. rewrite Z.add_comm, Z.mul_comm, Z.mod_add, Z.mod_small by lia. lia. }
  assert (Q3 : x / 262144 = a - 240).
  { change 262144 with (4096 * 64). rewrite <- Z.div_div, Q2 by lia. rewrite Z.add_comm, Z.mul_comm, Z.div_add, Z.div_small by lia. lia. }
  assert (R3 : x / 4096 mod 64 = b - 128).
  { rewrite Q2. rewrite Z.add_comm, Z.mul_comm, Z.mod_add, Z.mod_small by lia. lia. }
  replace (a :: b :: c :: d :: r) with (utf8_char x ++ r).
  - apply utf8_cons; [unfold scalar, x; lia | apply IH; [cbn in L; lia | exact H]].
  - unfold utf8_char. rewrite (proj2 (Z.ltb_ge x 128)) by (unfold x; lia). rewrite (proj2 (Z.ltb_ge x 2048)) by (unfold x; lia).
    rewrite (proj2 (Z.ltb_ge x 65536)) by (unfold x; lia).
    rewrite Q3, R3, R2, R. cbn [app]. repeat (f_equal; try lia).
Qed.
Lemma accepted_utf8 : forall l, utf8_ok l = true -> utf8 l.
Proof. intros l. apply (accepted_utf8_len (length l)). lia. Qed.

Lemma untext : forall s, map (fun b => ascii_of_nat (Z.to_nat b)) (text s) = s.
Proof.
  intros s. unfold text. rewrite map_map. rewrite <- (map_id s) at 2. apply map_ext. intros c.
  rewrite Nat2Z.id. apply ascii_nat_embedding.
Qed.
Lemma decode_text : forall s, plain s -> decode (text s) = Ok s.
Proof. intros s [_ U]. unfold decode. rewrite (utf8_accepted _ U), untext. reflexivity. Qed.
(** decoding fails for everything that is not UTF-8 *)
Lemma decode_iff : forall s, decode (text s) = Ok s <-> utf8 (text s).
Proof.
  intros s. unfold decode. split.
  - intros H. apply accepted_utf8. destruct (utf8_ok (text s)); [reflexivity | discriminate].
  - intros U. rewrite (utf8_accepted _ U), untext. reflexivity.
Qed.

Lemma get_string_text : forall data off s, Forall (fun b => b <> 0) s -> occurs data off (s ++ [0]) ->
  get_string data off = Ok (s, off + blen s + 1).
Proof.
  intros data off s H O. unfold get_string. destruct (occurs_drop _ _ _ O) as [p ->].
  rewrite <- app_assoc. cbn [app]. rewrite until_zero_app by exact H. reflexivity.
Qed.
Lemma lookup_string_at : forall e t index s, plain s -> string_at (xe_file e) t index s ->
  lookup_string e t index = Ok (text s).
Proof.
  intros e t index s P (data & O & L & I). unfold lookup_string, shdr_data. rewrite L, (read_occurs _ _ _ O). cbn [bind].
  destruct (occurs_drop _ _ _ I) as [p ->]. rewrite <- app_assoc. cbn [app].
  rewrite until_zero_app by (apply text_nonzero; exact P). reflexivity.
Qed.

Lemma shdr_name_at : forall e t s n, nth_error (xe_shdrs e) (Z.to_nat (e_shstrndx (xe_ehdr e))) = Some t ->
  plain n -> string_at (xe_file e) t (x_name s) n -> shdr_name e s = Ok n.
Proof.
  intros e t s n T P S. unfold shdr_name, nth_shdr. rewrite T. cbn [bind].
  rewrite (lookup_string_at _ _ _ _ P S). cbn [bind]. apply decode_text; exact P.
Qed.
Lemma xsym_name_at : forall e t y n, nth_error (xe_shdrs e) (Z.to_nat (x_strndx y)) = Some t ->
  plain n -> string_at (xe_file e) t (x_stname y) n -> xsym_name e y = Ok n.
Proof.
  intros e t y n T P S. unfold xsym_name, nth_shdr. rewrite T. cbn [bind].
  rewrite (lookup_string_at _ _ _ _ P S). cbn [bind]. apply decode_text; exact P.
Qed.

(** the first section of a name *)
Lemma lookup_shdr_first : forall e names name, Forall2 (fun s n => shdr_name e s = Ok n) (xe_shdrs e) names ->
  lookup_shdr e name =
  Ok (option_map fst (find (fun p => snd p =?= name) (combine (xe_shdrs e) names))).
Proof.
  intros e names name H. unfold lookup_shdr.
  induction H as [|s n ss ns N H IH]; [reflexivity|].
  cbn [lookup_shdr_in combine find fst snd]. rewrite N. cbn [bind].
  destruct (n =?= name); [reflexivity | exact IH].
Qed.

(** ** The headers are read for every file; the loops end *)

Lemma get_fmt_ok : forall big fmt data off v o, get_fmt big fmt data off = Ok (v, o) -> o = off + calcsize fmt.
Proof. intros big fmt data off v o H. unfold get_fmt in H. destruct (_ <? _) in H; inversion H; reflexivity. Qed.

Lemma get_fmt_err : forall big fmt data off e, get_fmt big fmt data off = Err e -> e = StructError.
Proof. intros big fmt data off e H. unfold get_fmt in H. destruct (_ <? _) in H; inversion H; reflexivity. Qed.

Lemma read_table_ends : forall {A} big fmt (mk : list Z -> res A), 0 < calcsize fmt ->
  (forall v, mk v <> Err OutOfFuel) ->
  forall fuel data off size, 0 <= off -> Z.max 0 (size - off) < Z.of_nat fuel ->
  snd (read_table fuel big fmt mk data off size) <> Some OutOfFuel.
Proof.
  intros A big fmt mk N MK fuel. induction fuel as [|fuel IH]; intros data off size O F; cbn [read_table].
  - cbn. lia.
  - destruct (off <? size) eqn:L; [|cbn; congruence].
    destruct (get_fmt big fmt data off) as [[v o]|e] eqn:G.
    + pose proof (get_fmt_ok _ _ _ _ _ _ G). destruct (mk v) as [a|e] eqn:M.
      * specialize (IH data o size). destruct (read_table fuel big fmt mk data o size) as [l x]. cbn [snd] in *.
        apply IH; lia.
      * cbn. intros X. inversion X; subst e. exact (MK v M).
    + cbn. rewrite (get_fmt_err _ _ _ _ _ G). congruence.
Qed.

Lemma symbols_image : forall is64 big file h phs shs ls e, elf_image is64 big file h phs shs ->
  Forall2 (symtab_image is64 big file) (filter is_symtab shs) ls ->
  elf_init file = Ok e -> symbols e = Ok (concat ls).
Proof.
  intros is64 big file h phs shs ls e I F E. rewrite (elf_init_image _ _ _ _ _ _ I) in E. injection E as <-.
  unfold symbols. cbn [xe_shdrs]. rewrite (symbols_items is64 big file h (map (phdr_read is64) phs) shs shs ls F). reflexivity.
Qed.

Lemma phdrs32 : forall big file h phs shs, elf_image false big file h phs shs ->
  exists e, elf_init file = Ok e /\ xe_phdrs e = phs.
Proof.
  intros big file h phs shs I. exists (XElf file false big h (map (phdr_read false) phs) shs).
  split; [exact (elf_init_image _ _ _ _ _ _ I)|]. cbn [xe_phdrs]. unfold phdr_read. apply map_id.
Qed.

Lemma symbols_repeat : forall e l cache, symbols_call e None = (Ok l, cache) -> fst (symbols_call e cache) = Ok l.
Proof.
  intros e l cache H. unfold symbols_call in H. injection H as H <-. cbn.
  destruct (symbols_loop e (xe_shdrs e)) as [a [x|]]; cbn in *; congruence.
Qed.

(** ** Errors of [Elf(fn)] *)
Lemma read_only_err : forall f o c x, read f o c = Err x -> x = Elf_Exception.
Proof. intros f o c x. unfold read. destruct (_ =? _); congruence. Qed.

Lemma unpack_len : forall big fmt data, length (unpack big fmt data) = length fmt.
Proof. induction fmt; intros; cbn; auto. Qed.
Lemma get_fmt_len : forall big fmt data off v o, get_fmt big fmt data off = Ok (v, o) -> length v = length fmt.
Proof. intros big fmt data off v o H. unfold get_fmt in H. destruct (_ <? _); [discriminate|]. injection H as <- _. apply unpack_len. Qed.

Lemma read_table_err : forall {A} big fmt (mk : list Z -> res A), 0 < calcsize fmt ->
  (forall v, length v = length fmt -> exists a, mk v = Ok a) ->
  forall fuel data off size x, 0 <= off -> blen data = size -> Z.max 0 (size - off) < Z.of_nat fuel ->
  table_res (read_table fuel big fmt mk data off size) = Err x ->
  x = StructError /\ (exists k, 0 <= k /\ 0 < size - (off + k * calcsize fmt) < calcsize fmt).
Proof.
  intros A big fmt mk CP MK. induction fuel as [|fuel IH]; intros data off size x O D F H; [cbn in F; lia|].
  cbn [read_table] in H. destruct (off <? size) eqn:L; [apply Z.ltb_lt in L | discriminate].
  destruct (get_fmt big fmt data off) as [[v o]|y] eqn:G.
  - destruct (MK v (get_fmt_len _ _ _ _ _ _ G)) as [a Ea]. rewrite Ea in H.
    pose proof (get_fmt_ok _ _ _ _ _ _ G) as ->.
    destruct (read_table fuel big fmt mk data (off + calcsize fmt) size) as [l [y|]] eqn:R; cbn in H; [|discriminate].
    destruct (IH data (off + calcsize fmt) size x ltac:(lia) D ltac:(lia)) as [-> (k & K1 & K2)].
    { rewrite R. exact H. }
    split; [reflexivity|]. exists (k + 1). split; [lia|]. rewrite Z.mul_add_distr_r. lia.
  - cbn in H. injection H as <-. split; [exact (get_fmt_err _ _ _ _ _ G)|]. exists 0. split; [lia|].
    unfold get_fmt in G. destruct (blen data - off <? calcsize fmt) eqn:B; [|discriminate]. apply Z.ltb_lt in B. lia.
Qed.

Lemma read_headers_err : forall {A} file big fmt (mk : list Z -> res A) num ent off x, 0 < calcsize fmt ->
  (forall v, length v = length fmt -> exists a, mk v = Ok a) ->
  read_headers file big fmt mk num ent off = Err x ->
  x = Elf_Exception \/ (x = StructError /\ ent <> calcsize fmt).
Proof.
  intros A file big fmt mk num ent off x CP MK H. unfold read_headers in H. destruct (num =? 0); [discriminate|].
  destruct (read file off (num * ent)) as [data|y] eqn:R; cbn [bind] in H.
  - right. assert (D : blen data = num * ent).
    { unfold read in R. destruct (_ =? _) eqn:E in R; [|discriminate]. injection R as <-. now apply Z.eqb_eq. }
    destruct (read_table_err big fmt mk CP MK (S (length data)) data 0 (num * ent) x ltac:(lia) D ltac:(unfold blen in D; lia) H) as [-> (k & K1 & K2)].
    split; [reflexivity|]. intros ->. replace (num * calcsize fmt - (0 + k * calcsize fmt)) with ((num - k) * calcsize fmt) in K2 by lia.
    assert (0 < num - k) by nia. assert (num - k < 1) by nia. lia.
  - left. injection H as <-. exact (read_only_err _ _ _ _ R).
Qed.

Lemma mk_phdr_total : forall v, length v = 8%nat -> exists a, mk_phdr v = Ok a.
Proof. intros v H. repeat (destruct v as [|? v]; try discriminate H). eexists; reflexivity. Qed.
Lemma mk_xshdr_total : forall v, length v = 10%nat -> exists a, mk_xshdr v = Ok a.
Proof. intros v H. repeat (destruct v as [|? v]; try discriminate H). eexists; reflexivity. Qed.
Lemma mk_ehdr_total : forall i v, length v = 13%nat -> exists a, mk_ehdr i v = Ok a.
Proof. intros i v H. repeat (destruct v as [|? v]; try discriminate H). eexists; reflexivity. Qed.

Lemma py_index_in : forall l i, 0 <= i < blen l -> exists b, py_index l i = Ok b.
Proof.
  intros l i H. unfold py_index. destruct (i <? 0) eqn:E; [apply Z.ltb_lt in E; lia|]. rewrite E.
  assert (G : forall (l : list Z) i, 0 <= i < blen l -> exists b r, drop i l = b :: r).
  { clear. induction l as [|b l IH]; intros i H; [rewrite blen_nil in H; lia|]. cbn [drop].
    destruct (i <=? 0) eqn:E; [eauto|]. apply Z.leb_gt in E. rewrite blen_cons in H. apply IH. lia. }
  destruct (G l i H) as (b & r & ->). eauto.
Qed.

Lemma read_len : forall f o c d, read f o c = Ok d -> blen d = c.
Proof. intros f o c d R. unfold read in R. destruct (_ =? _) eqn:E in R; [|discriminate]. injection R as <-. now apply Z.eqb_eq. Qed.

Lemma take_take : forall (l : list Z) n m, 0 <= n <= m -> take n (take m l) = take n l.
Proof.
  induction l as [|b l IH]; intros n m H; [reflexivity|]. cbn [take].
  destruct (m <=? 0) eqn:M.
  - apply Z.leb_le in M. assert (n <=? 0 = true) as -> by (apply Z.leb_le; lia). reflexivity.
  - cbn [take]. destruct (n <=? 0) eqn:N; [reflexivity|]. apply Z.leb_gt in N, M. f_equal. apply IH. lia.
Qed.

Lemma elf_init_err_cases : forall file x, elf_init file = Err x -> is_bytes file ->
  x = Elf_Exception \/
  (x = StructError /\ exists is64 big h data v o, read file 0 (native_size 16 (ehdr_fmt is64)) = Ok data /\
     get_fmt big (ehdr_fmt is64) data 16 = Ok (v, o) /\ mk_ehdr (take 16 data) v = Ok h /\
     (e_phentsize h <> phdr_size is64 \/ e_shentsize h <> shdr_size is64)).
Proof.
  intros file x H B. unfold elf_init in H.
  destruct (read file 0 16) as [ident|y] eqn:R; cbn [bind] in H; [|left; injection H as <-; exact (read_only_err _ _ _ _ R)].
  pose proof (read_len _ _ _ _ R) as L.
  destruct (negb _); [left; congruence|].
  destruct (py_index_in ident 5 ltac:(lia)) as [d E5]. rewrite E5 in H. cbn [bind] in H.
  destruct (if d =? 1 then Ok false else if d =? 2 then Ok true else Err Elf_Exception) as [big|y] eqn:EB; cbn [bind] in H.
  2:{ left. destruct (d =? 1); [discriminate|]. destruct (d =? 2); [discriminate|]. congruence. }
  destruct (py_index_in ident 4 ltac:(lia)) as [c E4]. rewrite E4 in H. cbn [bind] in H.
  destruct (if c =? 1 then Ok false else if c =? 2 then Ok true else Err Elf_Exception) as [is64|y] eqn:EC; cbn [bind] in H.
  2:{ left. destruct (c =? 1); [discriminate|]. destruct (c =? 2); [discriminate|]. congruence. }
  destruct (read file 0 (native_size 16 (ehdr_fmt is64))) as [data|y] eqn:R2; cbn [bind] in H;
    [|left; injection H as <-; exact (read_only_err _ _ _ _ R2)].
  pose proof (read_len _ _ _ _ R2) as L2.
  destruct (get_fmt big (ehdr_fmt is64) data 16) as [[v o]|y] eqn:G; cbn [bind] in H.
  2:{ exfalso. unfold get_fmt in G. destruct (_ <? _) eqn:X in G; [|discriminate]. apply Z.ltb_lt in X. rewrite header_native in L2. pose proof (header_calc is64). destruct is64; lia. }
  destruct (mk_ehdr_total (take 16 data) v) as [h Eh].
  { rewrite (get_fmt_len _ _ _ _ _ _ G). destruct is64; reflexivity. }
  rewrite Eh in H. cbn [bind] in H.
  destruct (read_headers file big (phdr_fmt is64) mk_phdr _ _ _) as [ph|y] eqn:P; cbn [bind] in H.
  - destruct (read_headers file big (shdr_fmt is64) mk_xshdr _ _ _) as [sh|y] eqn:Q; cbn [bind] in H; [discriminate|].
    injection H as <-. apply read_headers_err in Q; [|destruct is64; reflexivity|].
    + destruct Q as [Q|[Q N]]; [now left|]. right. split; [exact Q|].
      exists is64, big, h, data, v, o. repeat split; auto. right. destruct is64; exact N.
    + intros w Hw. apply mk_xshdr_total. rewrite Hw. destruct is64; reflexivity.
  - injection H as <-. apply read_headers_err in P; [|destruct is64; reflexivity|].
    + destruct P as [P|[P N]]; [now left|]. right. split; [exact P|].
      exists is64, big, h, data, v, o. repeat split; auto. left. destruct is64; exact N.
    + intros w Hw. apply mk_phdr_total. rewrite Hw. destruct is64; reflexivity.
Qed.

Lemma elf_init_errors : forall file x, elf_init file = Err x -> is_bytes file -> x = Elf_Exception \/ x = StructError.
Proof. intros file x H B. destruct (elf_init_err_cases file x H B) as [?|[? _]]; auto. Qed.

Lemma le_enc_value : forall l, is_bytes l -> le_enc (length l) (le_value l) = l.
Proof.
  induction l as [|b l IH]; intros B; [reflexivity|]. inversion B; subst. cbn [length le_enc le_value].
  f_equal.
  - rewrite Z.mul_comm, Z.mod_add, Z.mod_small by lia. reflexivity.
  - rewrite Z.mul_comm, Z.div_add, Z.div_small by lia. rewrite Z.add_0_l. now apply IH.
Qed.
Lemma is_bytes_rev : forall l, is_bytes l -> is_bytes (rev l).
Proof. intros l H. apply Forall_forall. intros b I. apply in_rev in I. exact (proj1 (Forall_forall _ _) H b I). Qed.
Lemma int_enc_value : forall big n l, is_bytes l -> blen l = Z.of_nat n -> int_enc big n (from_bytes big l) = l.
Proof.
  intros big n l B L. assert (E : n = length l) by (unfold blen in L; lia). subst n. unfold int_enc, from_bytes. destruct big.
  - rewrite <- (rev_length l). rewrite le_enc_value by (now apply is_bytes_rev). apply rev_involutive.
  - now apply le_enc_value.
Qed.

Lemma take_drop' : forall n l, take n l ++ drop n l = l.
Proof.
  intros n l. revert n. induction l as [|b l IH]; intros n; [reflexivity|]. cbn [take drop].
  destruct (n <=? 0); [reflexivity|]. cbn [app]. now rewrite IH.
Qed.
Lemma is_bytes_take : forall n l, is_bytes l -> is_bytes (take n l) /\ is_bytes (drop n l).
Proof. intros n l B. rewrite <- (take_drop' n l) in B. apply Forall_app in B. exact B. Qed.
Lemma blen_take' : forall n l, 0 <= n <= blen l -> blen (take n l) = n.
Proof.
  intros n l. revert n. induction l as [|b l IH]; intros n H; [rewrite blen_nil in H; cbn; lia|].
  rewrite blen_cons in H. cbn [take]. destruct (n <=? 0) eqn:E; [apply Z.leb_le in E; rewrite blen_nil; lia|].
  apply Z.leb_gt in E. rewrite blen_cons, IH; lia.
Qed.
Lemma blen_drop' : forall n l, 0 <= n <= blen l -> blen (drop n l) = blen l - n.
Proof. intros n l H. rewrite <- (take_drop' n l) at 2. rewrite blen_app, blen_take' by exact H. lia. Qed.
Lemma from_bytes_fit : forall big l, is_bytes l -> fits (blen l) (from_bytes big l).
Proof.
  assert (G : forall l, is_bytes l -> fits (blen l) (le_value l)).
  { induction l as [|b l IH]; intros B; [unfold fits; cbn; lia|]. inversion B; subst. specialize (IH H2). unfold fits in *.
    rewrite blen_cons. cbn [le_value]. rewrite Z.pow_add_r by (pose proof (blen_nonneg l); lia). change (256 ^ 1) with 256. lia. }
  intros big l B. unfold from_bytes. destruct big; [|now apply G].
  specialize (G (rev l) (is_bytes_rev _ B)). unfold blen in *. rewrite rev_length in G. exact G.
Qed.

Lemma take_app_gen : forall a b n, blen a <= n -> take n (a ++ b) = a ++ take (n - blen a) b.
Proof.
  induction a as [|x a IH]; intros b n H.
  - rewrite blen_nil, Z.sub_0_r. reflexivity.
  - rewrite blen_cons in *. pose proof (blen_nonneg a). cbn [app take].
    destruct (n <=? 0) eqn:E; [apply Z.leb_le in E; lia|]. f_equal. rewrite IH by lia. f_equal. f_equal. lia.
Qed.

Lemma unpack_packed : forall big ns data, is_bytes data -> fold_right Z.add 0 (map Z.of_nat ns) <= blen data ->
  packed big (map Z.of_nat ns) (unpack big (map Z.of_nat ns) data) (take (fold_right Z.add 0 (map Z.of_nat ns)) data).
Proof.
  induction ns as [|n ns IH]; intros data B L; cbn [map fold_right unpack] in *.
  - replace (take 0 data) with (@nil Z) by (destruct data; reflexivity). constructor.
  - set (c := fold_right Z.add 0 (map Z.of_nat ns)) in *.
    assert (0 <= c) by (unfold c; clear; induction ns; cbn; lia).
    destruct (is_bytes_take (Z.of_nat n) data B) as [B1 B2].
    assert (L1 : blen (take (Z.of_nat n) data) = Z.of_nat n) by (apply blen_take'; lia).
    assert (E : take (Z.of_nat n + c) data = int_enc big n (from_bytes big (take (Z.of_nat n) data)) ++ take c (drop (Z.of_nat n) data)).
    { rewrite int_enc_value by assumption. rewrite <- (take_drop' (Z.of_nat n) data) at 1.
      rewrite take_app_gen by lia. rewrite L1. f_equal. f_equal. lia. }
    rewrite E. constructor.
    + rewrite <- L1 at 1. now apply from_bytes_fit.
    + apply IH; [exact B2|]. rewrite blen_drop' by lia. lia.
Qed.

Lemma packed_inv : forall big k fmt vs l, packed big (Z.of_nat k :: fmt) vs l ->
  exists v vs' l', vs = v :: vs' /\ l = int_enc big k v ++ l' /\ packed big fmt vs' l'.
Proof.
  intros big k fmt vs l H. inversion H as [|n v fmt' vs' l' F P E1 E2 E3]. subst.
  assert (n = k) by lia. subst n. eauto 8.
Qed.
Lemma packed_nil_inv : forall big vs l, packed big [] vs l -> vs = [] /\ l = [].
Proof. intros big vs l H. inversion H. auto. Qed.

Lemma ehdr_unpacked : forall is64 big ident v l h, packed big (ehdr_fmt is64) v l -> mk_ehdr ident v = Ok h ->
  ehdr_bytes is64 big h = ident ++ l.
Proof.
  intros is64 big ident v l h P M. unfold ehdr_fmt in P.
  assert (E : exists ks, (if is64 then [2; 2; 4; 8; 8; 8; 4; 2; 2; 2; 2; 2; 2] else [2; 2; 4; 4; 4; 4; 4; 2; 2; 2; 2; 2; 2]) = map Z.of_nat ks /\
             ks = (let w := if is64 then 8%nat else 4%nat in [2; 2; 4; w; w; w; 4; 2; 2; 2; 2; 2; 2]%nat)).
  { eexists. split; [|reflexivity]. destruct is64; reflexivity. }
  destruct E as (ks & E & ->). rewrite E in P. clear E. set (w := if is64 then 8%nat else 4%nat) in P. cbn [map] in P.
  do 13 (apply packed_inv in P; destruct P as (? & ? & ? & -> & -> & P)). apply packed_nil_inv in P. destruct P as [-> ->].
  cbn [mk_ehdr] in M. injection M as <-. unfold ehdr_bytes, half, word, xword. cbn [e_ident e_type e_machine e_version e_entry e_phoff e_shoff
    e_flags e_ehsize e_phentsize e_phnum e_shentsize e_shnum e_shstrndx]. fold w. now rewrite app_nil_r.
Qed.

Lemma read_occurs : forall file o c d, 0 <= o -> read file o c = Ok d -> d <> [] -> occurs file o d.
Proof.
  intros file o c d O R N. pose proof (read_len _ _ _ _ R) as L. unfold read in R. destruct (_ =? _) in R; [|discriminate].
  injection R as E. unfold slice in E. exists (take o file), (drop c (drop o file)). rewrite <- E, take_drop', take_drop'.
  split; [reflexivity|]. symmetry. apply blen_take'. split; [exact O|].
  destruct (Z_le_gt_dec o (blen file)) as [H|H]; [exact H|]. exfalso. apply N. rewrite <- E.
  replace (drop o file) with (@nil Z); [reflexivity|]. clear - H.
  revert o H. induction file as [|b f IH]; intros o H; [reflexivity|]. rewrite blen_cons in H. pose proof (blen_nonneg f).
  cbn [drop]. destruct (o <=? 0) eqn:E; [apply Z.leb_le in E; lia|]. apply IH. lia.
Qed.

(** only a file that states entries of another size *)
Lemma elf_init_struct_error : forall file, elf_init file = Err StructError -> is_bytes file ->
  exists is64 big h, occurs file 0 (ehdr_bytes is64 big h) /\
    (e_phentsize h <> phdr_size is64 \/ e_shentsize h <> shdr_size is64).
Proof.
  intros file H B. destruct (elf_init_err_cases file _ H B) as [X|[_ (is64 & big & h & data & v & o & R & G & M & N)]]; [discriminate|].
  exists is64, big, h. split; [|exact N].
  pose proof (read_len _ _ _ _ R) as L.
  assert (BD : is_bytes data).
  { unfold read in R. destruct (_ =? _) in R; [|discriminate]. injection R as <-. unfold slice.
    apply is_bytes_take. now apply is_bytes_take. }
  rewrite header_native in L, R.
  assert (E : data = ehdr_bytes is64 big h ++ drop (calcsize (ehdr_fmt is64)) (drop 16 data)).
  { unfold get_fmt in G. destruct (_ <? _) in G; [discriminate|]. injection G as <- _.
    set (ks := (let w := if is64 then 8%nat else 4%nat in [2; 2; 4; w; w; w; 4; 2; 2; 2; 2; 2; 2]%nat)).
    assert (K : ehdr_fmt is64 = map Z.of_nat ks) by (unfold ks; destruct is64; reflexivity).
    assert (C : calcsize (ehdr_fmt is64) = fold_right Z.add 0 (map Z.of_nat ks)) by (rewrite K; reflexivity).
    assert (P : 0 <= calcsize (ehdr_fmt is64) <= 60) by (pose proof (header_calc is64); destruct is64; lia).
    destruct (is_bytes_take 16 data BD) as [_ B2].
    assert (L2 : blen (drop 16 data) = 60) by (rewrite blen_drop'; lia).
    pose proof (unpack_packed big ks (drop 16 data) B2 ltac:(lia)) as PK. rewrite <- C, <- K in PK.
    rewrite (ehdr_unpacked _ _ _ _ _ _ PK M). rewrite <- app_assoc, take_drop', take_drop'. reflexivity. }
  assert (O : occurs file 0 data).
  { apply (read_occurs file 0 _ data ltac:(lia) R). intros ->. rewrite blen_nil in L. discriminate. }
  rewrite E in O. exact (occurs_app_l _ _ _ _ O).
Qed.

(** ** Which files are opened *)
Lemma elf_init_room : forall file e, elf_init file = Ok e -> 76 <= blen file.
Proof.
  intros file e H. unfold elf_init in H.
  destruct (read file 0 16) as [ident|]; [|discriminate]. cbn [bind] in H. destruct (negb _); [discriminate|].
  destruct (py_index ident 5); [|discriminate]. cbn [bind] in H. destruct (if _ =? 1 then _ else _); [|discriminate]. cbn [bind] in H.
  destruct (py_index ident 4); [|discriminate]. cbn [bind] in H. destruct (if _ =? 1 then _ else _) as [is64|]; [|discriminate]. cbn [bind] in H.
  rewrite header_native in H. destruct (read file 0 76) as [data|] eqn:R; [|discriminate]. pose proof (read_len _ _ _ _ R) as L.
  unfold read in R. destruct (_ =? _) in R; [|discriminate]. injection R as E. unfold slice in E. rewrite drop_0 in E by lia.
  rewrite take_firstn in E. rewrite <- E in L. unfold blen in *. rewrite firstn_length in L. lia.
Qed.
Lemma opened_exactly : forall is64 big file h phs shs, elf_file is64 big file h phs shs ->
  (exists e, elf_init file = Ok e) <-> 76 <= blen file.
Proof.
  intros is64 big file h phs shs F. split.
  - intros [e E]. exact (elf_init_room _ _ E).
  - intros R. eexists. exact (elf_init_image _ _ _ _ _ _ (Build_elf_image _ _ _ _ _ _ F R)).
Qed.
Lemma table_room : forall file o (l : list Z) n, occurs file o l -> n <= o + blen l -> n <= blen file.
Proof. intros file o l n O N. apply occurs_off in O. lia. Qed.
Lemma opened_tables : forall is64 big file h phs shs, elf_file is64 big file h phs shs ->
  (phs <> [] /\ e_ehsize h <= e_phoff h \/ shs <> [] /\ e_ehsize h <= e_shoff h) -> e_ehsize h = (if is64 then 64 else 52) ->
  exists e, elf_init file = Ok e.
Proof.
  intros is64 big file h phs shs F T Z0. rewrite (opened_exactly _ _ _ _ _ _ F). rewrite Z0 in T. destruct T as [[N O]|[N O]].
  - apply (table_room _ _ _ _ (im_phdrs _ _ _ _ _ _ F N)). destruct phs as [|p phs]; [congruence|]. cbn [flat_map]. rewrite blen_app.
    assert (blen (phdr_bytes is64 big p) = phdr_size is64).
    { pose proof (im_phdrs_ok _ _ _ _ _ _ F) as K. inversion K; subst. unfold phdr_size. destruct is64.
      - exact (packed_len _ _ _ _ (packed_phdr64 big p ltac:(assumption))).
      - exact (packed_len _ _ _ _ (packed_phdr32 big p ltac:(assumption))). }
    unfold phdr_size in *. unfold blen in *. destruct is64; lia.
  - apply (table_room _ _ _ _ (im_shdrs _ _ _ _ _ _ F N)). destruct shs as [|p shs]; [congruence|]. cbn [flat_map]. rewrite blen_app.
    assert (blen (shdr_bytes is64 big p) = shdr_size is64).
    { pose proof (im_shdrs_ok _ _ _ _ _ _ F) as K. inversion K; subst. unfold shdr_size.
      rewrite (packed_len _ _ _ _ (packed_shdr is64 big p ltac:(assumption))). destruct is64; reflexivity. }
    unfold shdr_size in *. unfold blen in *. destruct is64; lia.
Qed.
Lemma headers_read : forall is64 big file h phs shs e, elf_file is64 big file h phs shs -> elf_init file = Ok e ->
  xe_file e = file /\ xe_is64 e = is64 /\ xe_big e = big /\ xe_ehdr e = h /\ xe_shdrs e = shs.
Proof.
  intros is64 big file h phs shs e F E. pose proof (elf_init_image _ _ _ _ _ _ (Build_elf_image _ _ _ _ _ _ F (elf_init_room _ _ E))) as E'.
  rewrite E in E'. injection E' as ->. repeat split.
Qed.
Lemma symbols_read : forall is64 big file h phs shs ls e, elf_file is64 big file h phs shs ->
  Forall2 (symtab_image is64 big file) (filter is_symtab shs) ls -> elf_init file = Ok e -> symbols e = Ok (concat ls).
Proof.
  intros is64 big file h phs shs ls e F S E. exact (symbols_image _ _ _ _ _ _ _ _ (Build_elf_image _ _ _ _ _ _ F (elf_init_room _ _ E)) S E).
Qed.
