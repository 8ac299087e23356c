(** * ProofElf3: what is read of an ELF file is in the file *)
From Coq Require Import Ascii String List ZArith Bool Lia.
From Verif Require Import Base ElfRead SpecElf ProofElf1 ProofElf2 SpecElf2.
Import ListNotations.
Open Scope list_scope.
Open Scope Z_scope.

Lemma packed_step big k fmt vs l : packed big (Z.of_nat k :: fmt) vs l ->
  exists v vs' l', vs = v :: vs' /\ l = int_enc big k v ++ l' /\ fits (Z.of_nat k) v /\ packed big fmt vs' l'.
Proof.
  intros H. inversion H as [|n v fmt' vs' l' F P E1 E2 E3]. subst. assert (n = k) by lia. subst n. eauto 8.
Qed.
Ltac conjs := repeat match goal with |- _ /\ _ => split end; first [assumption|reflexivity].
Ltac unpack_all P := repeat (apply packed_step in P; destruct P as (? & ? & ? & -> & -> & ? & P)); apply packed_nil_inv in P; destruct P as [-> ->].

Definition sym_ks (is64 : bool) : list nat := if is64 then [4; 1; 1; 2; 8; 8]%nat else [4; 4; 4; 1; 1; 2]%nat.
Definition shdr_ks (is64 : bool) : list nat := if is64 then [4; 4; 8; 8; 8; 8; 4; 4; 8; 8]%nat else [4; 4; 4; 4; 4; 4; 4; 4; 4; 4]%nat.
Definition phdr_ks (is64 : bool) : list nat := if is64 then [4; 4; 8; 8; 8; 8; 8; 8]%nat else [4; 4; 4; 4; 4; 4; 4; 4]%nat.
Definition ehdr_ks (is64 : bool) : list nat := if is64 then [2; 2; 4; 8; 8; 8; 4; 2; 2; 2; 2; 2; 2]%nat else [2; 2; 4; 4; 4; 4; 4; 2; 2; 2; 2; 2; 2]%nat.

Lemma sym_unpacked is64 big link v l y : packed big (map Z.of_nat (sym_ks is64)) v l -> mk_xsym is64 link v = Ok y ->
  sym_bytes is64 big y = l /\ sym_ok is64 y /\ x_strndx y = link.
Proof.
  intros P M. destruct is64; cbn [sym_ks map] in P; unpack_all P; cbn [mk_xsym] in M; injection M as <-;
    unfold sym_bytes, sym_ok, xfits, half, word, xword; cbn [x_stname x_stinfo x_stother x_shndx x_value x_stsize x_strndx].
  all: split; [|conjs].
  all: rewrite !int_enc_byte by assumption; rewrite ?app_nil_r; reflexivity.
Qed.
Lemma shdr_unpacked is64 big v l s : packed big (map Z.of_nat (shdr_ks is64)) v l -> mk_xshdr v = Ok s -> shdr_bytes is64 big s = l /\ shdr_ok is64 s.
Proof.
  intros P M. destruct is64; cbn [shdr_ks map] in P; unpack_all P; cbn [mk_xshdr] in M; injection M as <-;
    unfold shdr_bytes, shdr_ok, xfits, word, xword; cbn [x_name x_type x_flags x_addr x_offset x_size x_link x_info x_addralign x_entsize].
  all: split; [rewrite ?app_nil_r; reflexivity|conjs].
Qed.
(** the header that is read as [q] *)
Definition phdr_back (is64 : bool) (q : phdr) : phdr :=
  if is64 then Phdr (p_type q) (p_vaddr q) (p_paddr q) (p_filesz q) (p_memsz q) (p_flags q) (p_offset q) (p_align q) else q.
Lemma phdr_unpacked is64 big v l q : packed big (map Z.of_nat (phdr_ks is64)) v l -> mk_phdr v = Ok q ->
  phdr_bytes is64 big (phdr_back is64 q) = l /\ phdr_ok is64 (phdr_back is64 q).
Proof.
  intros P M. destruct is64; cbn [phdr_ks map] in P; unpack_all P; cbn [mk_phdr] in M; injection M as <-;
    unfold phdr_bytes, phdr_ok, xfits, word, xword, phdr_back; cbn [p_type p_flags p_offset p_vaddr p_paddr p_filesz p_memsz p_align].
  all: split; [rewrite ?app_nil_r; reflexivity|conjs].
Qed.
Lemma phdr_back_read is64 q : phdr_read is64 (phdr_back is64 q) = q.
Proof. destruct is64, q; reflexivity. Qed.
Lemma ehdr_fields is64 big ident v l h : packed big (map Z.of_nat (ehdr_ks is64)) v l -> mk_ehdr ident v = Ok h ->
  ehdr_bytes is64 big h = ident ++ l /\ e_ident h = ident /\
  (length ident = 16%nat -> firstn 6 ident = [127; 69; 76; 70; if is64 then 2 else 1; if big then 2 else 1] -> ehdr_ok is64 big h).
Proof.
  intros P M. destruct is64; cbn [ehdr_ks map] in P; unpack_all P; cbn [mk_ehdr] in M; injection M as <-;
    unfold ehdr_bytes, ehdr_ok, xfits, half, word, xword; cbn [e_ident e_type e_machine e_version e_entry e_phoff e_shoff
    e_flags e_ehsize e_phentsize e_phnum e_shentsize e_shnum e_shstrndx].
  all: split; [rewrite ?app_nil_r; reflexivity|]; split; [reflexivity|]; intros L F.
  all: split; [split; assumption|conjs].
Qed.

(** ** tables *)
Section Made.
Context {A : Type}.
Variables (big : bool) (ks : list nat) (mk : list Z -> res A) (enc : A -> list Z) (ok : A -> Prop).
Let fmt := map Z.of_nat ks.
Hypotheses (U : forall v l a, packed big fmt v l -> mk v = Ok a -> enc a = l /\ ok a) (N : 0 < calcsize fmt).
Lemma table_made : forall fuel data off size l, is_bytes data -> 0 <= off <= size -> size = blen data ->
  read_table fuel big fmt mk data off size = (l, None) -> drop off data = flat_map enc l /\ Forall ok l.
Proof.
  induction fuel as [|fuel IH]; intros data off size l B O S H; cbn [read_table] in H; [discriminate|].
  destruct (off <? size) eqn:L.
  - apply Z.ltb_lt in L. destruct (get_fmt big fmt data off) as [[v o]|] eqn:G; [|discriminate].
    unfold get_fmt in G. destruct (blen data - off <? calcsize fmt) eqn:C; [discriminate|]. apply Z.ltb_ge in C. injection G as <- <-.
    destruct (mk (unpack big fmt (drop off data))) as [a|] eqn:M; [|discriminate].
    destruct (read_table fuel big fmt mk data (off + calcsize fmt) size) as [r x] eqn:R. injection H as <- ->.
    destruct (IH data (off + calcsize fmt) size r B ltac:(lia) S R) as (D & F).
    pose proof (unpack_packed big ks (drop off data) (proj2 (is_bytes_take off data B)) ltac:(fold fmt; rewrite blen_drop' by lia; exact C)) as P.
    destruct (U _ _ _ P M) as (E & Ha). split; [|now constructor].
    cbn [flat_map]. rewrite E, <- D. rewrite <- drop_drop by lia. symmetry. apply take_drop'.
  - apply Z.ltb_ge in L. injection H as <-. split; [|constructor]. assert (off = blen data) by lia. subst off.
    rewrite <- (app_nil_r data) at 2. apply drop_app.
Qed.
Lemma headers_made file num ent off l : is_bytes file -> 0 <= num -> 0 <= off -> (num <> 0 -> ent = calcsize fmt) -> read_headers file big fmt mk num ent off = Ok l ->
  (forall a, ok a -> blen (enc a) = calcsize fmt) ->
  num = Z.of_nat (length l) /\ Forall ok l /\ (l <> [] -> occurs file off (flat_map enc l)).
Proof.
  intros B Hn Ho He R Ln. unfold read_headers in R. destruct (Z.eqb_spec num 0) as [->|Nz].
  - injection R as <-. split; [reflexivity|]. split; [constructor|contradiction].
  - rewrite (He Nz) in R. destruct (read file off (num * calcsize fmt)) as [data|] eqn:Rd; [|discriminate]. cbn [bind] in R.
    destruct (read_table _ _ _ _ _ _ _) as [r x] eqn:T in R. cbn [table_res] in R. destruct x; [discriminate|]. injection R as ->.
    pose proof (read_len _ _ _ _ Rd) as Ld.
    assert (Bd : is_bytes data).
    { unfold read in Rd. destruct (_ =? _) in Rd; [|discriminate]. injection Rd as <-. unfold slice. apply is_bytes_take. now apply is_bytes_take. }
    destruct (table_made _ data 0 (num * calcsize fmt) l Bd ltac:(split; [lia|]; apply Z.mul_nonneg_nonneg; lia) ltac:(now rewrite Ld) T) as (D & F). rewrite drop_0 in D by lia.
    assert (Lf : blen (flat_map enc l) = Z.of_nat (length l) * calcsize fmt).
    { apply flat_map_len. intros a Ia. apply Ln. rewrite Forall_forall in F. now apply F. }
    split; [rewrite <- D in Lf; nia|]. split; [exact F|]. intros Nl. rewrite <- D. apply (ProofElf2.read_occurs file off _ data Ho Rd).
    intros ->. rewrite blen_nil in Ld. nia.
Qed.
End Made.

(** ** symbols *)
Lemma bytes_read file o c d : is_bytes file -> read file o c = Ok d -> is_bytes d.
Proof. intros B R. unfold read in R. destruct (_ =? _) in R; [|discriminate]. injection R as <-. unfold slice. apply is_bytes_take. now apply is_bytes_take. Qed.
Lemma symtab_made e s l : is_bytes (xe_file e) -> 0 <= x_offset s -> 0 <= x_size s -> symtab_symbols e s = (l, None) ->
  symtab_holds (xe_is64 e) (xe_big e) (xe_file e) s l.
Proof.
  intros B O S H. unfold symtab_symbols in H. destruct (x_size s <=? 0) eqn:Z0.
  - apply Z.leb_le in Z0. injection H as <-. left. split; [lia|reflexivity].
  - apply Z.leb_gt in Z0. right. unfold shdr_data in H. destruct (read (xe_file e) (x_offset s) (x_size s)) as [data|] eqn:R; [|discriminate].
    pose proof (read_len _ _ _ _ R) as Ld.
    replace (sym_fmt (xe_is64 e)) with (map Z.of_nat (sym_ks (xe_is64 e))) in H by (destruct (xe_is64 e); reflexivity).
    assert (Np : 0 < calcsize (map Z.of_nat (sym_ks (xe_is64 e)))) by (destruct (xe_is64 e); reflexivity).
    pose proof (table_made (xe_big e) (sym_ks (xe_is64 e)) (mk_xsym (xe_is64 e) (x_link s)) (sym_bytes (xe_is64 e) (xe_big e)) (fun y => sym_ok (xe_is64 e) y /\ x_strndx y = x_link s)
      (fun v b a P M => sym_unpacked _ _ _ _ _ _ P M) Np _ data 0 (x_size s) l (bytes_read _ _ _ _ B R) ltac:(lia) (eq_sym Ld) H) as (D & F).
    rewrite drop_0 in D by lia. split.
    + rewrite <- D. apply (ProofElf2.read_occurs _ _ _ _ O R). intros ->. rewrite blen_nil in Ld. lia.
    + now rewrite <- D, Ld.
    + eapply Forall_impl; [|exact F]. intros y (X1 & X2). assumption.
    + eapply Forall_impl; [|exact F]. intros y (X1 & X2). assumption.
Qed.
Lemma symtab_back is64 big file h phs shs s l : symtab_holds is64 big file s l -> symtab_symbols (XElf file is64 big h phs shs) s = (l, None).
Proof. intros [(S & ->)|I]; [unfold symtab_symbols; rewrite S; reflexivity|now apply symtab_items]. Qed.
Lemma loop_made e : is_bytes (xe_file e) -> forall all l, Forall (fun s => 0 <= x_offset s /\ 0 <= x_size s) all -> symbols_loop e all = (l, None) ->
  exists ls, Forall2 (symtab_holds (xe_is64 e) (xe_big e) (xe_file e)) (filter is_symtab all) ls /\ l = concat ls.
Proof.
  intros B. induction all as [|s all IH]; intros l F H; cbn [symbols_loop filter] in *.
  - injection H as <-. exists []. split; [constructor|reflexivity].
  - inversion F as [|? ? (S1 & S2) F2]; subst. unfold is_symtab at 1. destruct ((x_type s =? 2) || (x_type s =? 11)); cbn [negb] in H; [|now apply IH].
    destruct (symtab_symbols e s) as [a [x|]] eqn:T; [discriminate|]. destruct (symbols_loop e all) as [b x] eqn:R. injection H as <- ->.
    destruct (IH b F2 eq_refl) as (ls & Fl & ->). exists (a :: ls). split; [constructor; [now apply symtab_made|exact Fl]|reflexivity].
Qed.
Lemma loop_back is64 big file h phs shs : forall all ls, Forall2 (symtab_holds is64 big file) (filter is_symtab all) ls ->
  symbols_loop (XElf file is64 big h phs shs) all = (concat ls, None).
Proof.
  induction all as [|s all IH]; intros ls F; cbn [filter symbols_loop] in *.
  - inversion F; reflexivity.
  - unfold is_symtab in F at 1. destruct ((x_type s =? 2) || (x_type s =? 11)); cbn [negb]; [|now apply IH].
    inversion F as [|s' l ss ls' I F']; subst. rewrite (symtab_back _ _ _ h phs shs _ _ I). rewrite (IH ls' F'). reflexivity.
Qed.
Lemma shdr_places is64 shs : Forall (shdr_ok is64) shs -> Forall (fun s => 0 <= x_offset s /\ 0 <= x_size s) shs.
Proof. apply Forall_impl. intros s (_ & _ & _ & _ & O & Z0 & _). unfold xfits, fits in *. lia. Qed.
Lemma opened_shape is64 big file h phs shs e : elf_file is64 big file h phs shs -> elf_init file = Ok e -> e = XElf file is64 big h (map (phdr_read is64) phs) shs.
Proof.
  intros F E. pose proof (elf_init_image _ _ _ _ _ _ (Build_elf_image _ _ _ _ _ _ F (elf_init_room _ _ E))) as E'. congruence.
Qed.
Lemma symbols_exactly is64 big file h phs shs e l : is_bytes file -> elf_file is64 big file h phs shs -> elf_init file = Ok e ->
  (symbols e = Ok l <-> exists ls, Forall2 (symtab_holds is64 big file) (filter is_symtab shs) ls /\ l = concat ls).
Proof.
  intros B F E. pose proof (opened_shape _ _ _ _ _ _ _ F E) as ->. unfold symbols. cbn [xe_shdrs]. split.
  - intros H. destruct (symbols_loop _ shs) as [r x] eqn:L. cbn [table_res] in H. destruct x; [discriminate|]. injection H as <-.
    exact (loop_made (XElf file is64 big h (map (phdr_read is64) phs) shs) B shs r (shdr_places _ _ (im_shdrs_ok _ _ _ _ _ _ F)) L).
  - intros (ls & H & ->). now rewrite (loop_back _ _ _ h _ shs _ _ H).
Qed.

(** ** why symbols cannot be read *)
Lemma slice_len file o c : 0 <= o -> 0 <= c -> blen (slice file o c) = Z.max 0 (Z.min c (blen file - o)).
Proof. intros O C. unfold slice. rewrite blen_take, blen_drop by lia. lia. Qed.
Lemma read_fails file o c x : 0 <= o -> 0 <= c -> read file o c = Err x -> x = Elf_Exception /\ 0 < c /\ blen file < o + c.
Proof.
  intros O C H. split; [exact (read_only_err _ _ _ _ H)|]. unfold read in H. destruct (Z.eqb_spec (blen (slice file o c)) c) as [|N]; [discriminate|].
  rewrite slice_len in N by assumption. pose proof (blen_nonneg file). lia.
Qed.
Lemma mk_xsym_total is64 link v : length v = 6%nat -> exists a, mk_xsym is64 link v = Ok a.
Proof. intros H. repeat (destruct v as [|? v]; try discriminate H). eexists; reflexivity. Qed.
Lemma sym_calc is64 : calcsize (sym_fmt is64) = sym_size is64.
Proof. destruct is64; reflexivity. Qed.
Lemma symtab_fails e s l x : 0 <= x_offset s -> 0 <= x_size s -> symtab_symbols e s = (l, Some x) ->
  (x = Elf_Exception /\ beyond (xe_file e) s) \/ (x = StructError /\ x_size s mod sym_size (xe_is64 e) <> 0).
Proof.
  intros O S H. unfold symtab_symbols in H. destruct (x_size s <=? 0); [discriminate|]. unfold shdr_data in H.
  destruct (read (xe_file e) (x_offset s) (x_size s)) as [data|y] eqn:R.
  - right. pose proof (read_len _ _ _ _ R) as Ld.
    destruct (read_table_err (xe_big e) (sym_fmt (xe_is64 e)) (mk_xsym (xe_is64 e) (x_link s)) ltac:(rewrite sym_calc; destruct (xe_is64 e); reflexivity)
      ltac:(intros v Lv; apply mk_xsym_total; rewrite Lv; destruct (xe_is64 e); reflexivity) (Datatypes.S (length data)) data 0 (x_size s) x ltac:(lia) Ld ltac:(unfold blen in Ld; lia)) as (-> & k & K1 & K2).
    { rewrite H. reflexivity. }
    split; [reflexivity|]. rewrite sym_calc in K2. intros M. apply Z.mod_divide in M; [|destruct (xe_is64 e); discriminate]. destruct M as (q & M).
    rewrite M in K2. replace (q * sym_size (xe_is64 e) - (0 + k * sym_size (xe_is64 e))) with ((q - k) * sym_size (xe_is64 e)) in K2 by lia.
    assert (0 < sym_size (xe_is64 e)) by (destruct (xe_is64 e); reflexivity). assert (0 < q - k) by nia. nia.
  - left. injection H as <- <-. destruct (read_fails _ _ _ _ O S R) as (-> & P). auto.
Qed.
Lemma loop_fails e x : forall all l, Forall (fun s => 0 <= x_offset s /\ 0 <= x_size s) all -> symbols_loop e all = (l, Some x) ->
  exists s, In s all /\ is_symtab s = true /\ ((x = Elf_Exception /\ beyond (xe_file e) s) \/ (x = StructError /\ x_size s mod sym_size (xe_is64 e) <> 0)).
Proof.
  induction all as [|s all IH]; intros l F H; cbn [symbols_loop] in H; [discriminate|]. inversion F as [|? ? (S1 & S2) F2]; subst.
  assert (Is : is_symtab s = ((x_type s =? 2) || (x_type s =? 11))) by reflexivity.
  destruct ((x_type s =? 2) || (x_type s =? 11)); cbn [negb] in H.
  - destruct (symtab_symbols e s) as [a [y|]] eqn:T.
    + injection H as <- ->. exists s. split; [now left|]. split; [exact Is|]. exact (symtab_fails _ _ _ _ S1 S2 T).
    + destruct (symbols_loop e all) as [b y] eqn:R. injection H as <- ->. destruct (IH b F2 eq_refl) as (t & It & Q). exists t. split; [now right|exact Q].
  - destruct (IH l F2 H) as (t & It & Q). exists t. split; [now right|exact Q].
Qed.
Lemma symbols_fails is64 big file h phs shs e x : elf_file is64 big file h phs shs -> elf_init file = Ok e -> symbols e = Err x ->
  exists s, In s shs /\ is_symtab s = true /\ ((x = Elf_Exception /\ beyond file s) \/ (x = StructError /\ x_size s mod sym_size is64 <> 0)).
Proof.
  intros F E H. pose proof (opened_shape _ _ _ _ _ _ _ F E) as ->. unfold symbols in H. cbn [xe_shdrs] in H.
  destruct (symbols_loop _ shs) as [r y] eqn:L. cbn [table_res] in H. destruct y as [y|]; [|discriminate]. injection H as ->.
  exact (loop_fails _ x shs r (shdr_places _ _ (im_shdrs_ok _ _ _ _ _ _ F)) L).
Qed.

(** ** names *)
Lemma until_zero_is l s : until_zero l = Some s -> exists post, l = s ++ 0 :: post /\ Forall (fun b => b <> 0) s.
Proof.
  revert s. induction l as [|b l IH]; intros s H; cbn [until_zero] in H; [discriminate|]. destruct (Z.eqb_spec b 0) as [->|N].
  - injection H as <-. exists l. split; [reflexivity|constructor].
  - destruct (until_zero l) as [r|] eqn:U; [|discriminate]. injection H as <-. destruct (IH r eq_refl) as (post & -> & F). exists post. split; [reflexivity|now constructor].
Qed.
Lemma text_decoded l : is_bytes l -> text (map (fun b => ascii_of_nat (Z.to_nat b)) l) = l.
Proof.
  intros B. unfold text. rewrite map_map. induction B as [|b l Hb B IH]; [reflexivity|]. cbn [map]. rewrite IH. f_equal.
  rewrite nat_ascii_embedding by lia. lia.
Qed.
Section Names.
Variables (e : xelf) (t : xshdr) (index : Z).
Hypotheses (B : is_bytes (xe_file e)) (O : 0 <= x_offset t) (S : 0 <= x_size t) (I : 0 <= index).
Lemma string_made n : (do b <- lookup_string e t index; decode b) = Ok n -> plain n /\ string_at (xe_file e) t index n.
Proof.
  unfold lookup_string, shdr_data. destruct (read (xe_file e) (x_offset t) (x_size t)) as [data|] eqn:R; [|discriminate]. cbn [bind].
  destruct (until_zero (drop index data)) as [s|] eqn:U; [|discriminate]. cbn [bind]. unfold decode. destruct (utf8_ok s) eqn:K; [|discriminate]. intros [= <-].
  pose proof (bytes_read _ _ _ _ B R) as Bd. destruct (until_zero_is _ _ U) as (post & D & F).
  assert (Bs : is_bytes s).
  { pose proof (proj2 (is_bytes_take index data Bd)) as X. rewrite D in X. apply Forall_app in X. apply X. }
  unfold plain, string_at. rewrite !text_decoded by exact Bs. split; [split; [exact F|now apply accepted_utf8]|].
  assert (Li : index <= blen data).
  { destruct (Z_le_gt_dec index (blen data)) as [L|G]; [exact L|]. exfalso. assert (blen (drop index data) = 0) by (rewrite blen_drop by lia; lia).
    rewrite D in H. rewrite blen_app, blen_cons in H. pose proof (blen_nonneg s). pose proof (blen_nonneg post). lia. }
  exists data. split; [|split].
  - apply (ProofElf2.read_occurs _ _ _ _ O R). intros ->. cbn in D. destruct s; discriminate.
  - symmetry. exact (read_len _ _ _ _ R).
  - exists (take index data), post. rewrite <- app_assoc. cbn [app]. rewrite <- D, take_drop'. split; [reflexivity|]. symmetry. apply blen_take'. lia.
Qed.
Lemma string_fails x : (do b <- lookup_string e t index; decode b) = Err x ->
  (x = Elf_Exception /\ beyond (xe_file e) t) \/ (x = ValueError /\ ~ beyond (xe_file e) t).
Proof.
  unfold lookup_string, shdr_data. destruct (read (xe_file e) (x_offset t) (x_size t)) as [data|y] eqn:R; cbn [bind].
  - intros H. right. split.
    + destruct (until_zero (drop index data)) as [s|]; cbn [bind] in H; [|congruence]. unfold decode in H. destruct (utf8_ok s); congruence.
    + intros (P & L). pose proof (read_len _ _ _ _ R) as Ld. unfold read in R. destruct (Z.eqb_spec (blen (slice (xe_file e) (x_offset t) (x_size t))) (x_size t)) as [E|]; [|discriminate].
      rewrite slice_len in E by assumption. lia.
  - intros [= <-]. left. destruct (read_fails _ _ _ _ O S R) as (-> & P). auto.
Qed.
End Names.
Lemma name_exactly e i index n : is_bytes (xe_file e) -> Forall (fun s => 0 <= x_offset s /\ 0 <= x_size s) (xe_shdrs e) -> 0 <= index ->
  ((do t <- nth_shdr e i; do b <- lookup_string e t index; decode b) = Ok n <-> name_at e i index n).
Proof.
  intros B F I. unfold nth_shdr, name_at. split.
  - destruct (nth_error _ _) as [t|] eqn:N; [|discriminate]. cbn [bind]. intros H. rewrite Forall_forall in F. destruct (F t (nth_error_In _ _ N)) as (O & S).
    exists t. split; [reflexivity|]. exact (string_made e t index B O I n H).
  - intros (t & -> & P & S). cbn [bind]. rewrite (lookup_string_at _ _ _ _ P S). cbn [bind]. now apply decode_text.
Qed.
Lemma name_fails e i index x : Forall (fun s => 0 <= x_offset s /\ 0 <= x_size s) (xe_shdrs e) -> 
  (do t <- nth_shdr e i; do b <- lookup_string e t index; decode b) = Err x ->
  (x = IndexError /\ nth_error (xe_shdrs e) (Z.to_nat i) = None) \/
  (exists t, nth_error (xe_shdrs e) (Z.to_nat i) = Some t /\ ((x = Elf_Exception /\ beyond (xe_file e) t) \/ (x = ValueError /\ ~ beyond (xe_file e) t))).
Proof.
  intros F. unfold nth_shdr. destruct (nth_error _ _) as [t|] eqn:N; cbn [bind]; intros H.
  - right. exists t. split; [reflexivity|]. rewrite Forall_forall in F. destruct (F t (nth_error_In _ _ N)) as (O & S). exact (string_fails e t index O S x H).
  - left. split; [congruence|reflexivity].
Qed.

(** ** the headers *)
Lemma opened_made file e : is_bytes file -> elf_init file = Ok e -> standard_entries (xe_is64 e) (xe_ehdr e) ->
  exists phs, elf_image (xe_is64 e) (xe_big e) file (xe_ehdr e) phs (xe_shdrs e) /\ xe_phdrs e = map (phdr_read (xe_is64 e)) phs.
Proof.
  intros B H Se. pose proof (elf_init_room _ _ H) as Room. unfold elf_init in H.
  destruct (read file 0 16) as [ident|] eqn:R; [|discriminate]. cbn [bind] in H.
  destruct (take 4 ident =?= ELFMAG) eqn:Mg; cbn [negb] in H; [|discriminate]. apply keq_eq in Mg.
  destruct (py_index ident 5) as [d|] eqn:I5; [|discriminate]. cbn [bind] in H.
  destruct (if d =? 1 then Ok false else if d =? 2 then Ok true else Err Elf_Exception) as [big|] eqn:Eb; [|discriminate]. cbn [bind] in H.
  destruct (py_index ident 4) as [c|] eqn:I4; [|discriminate]. cbn [bind] in H.
  destruct (if c =? 1 then Ok false else if c =? 2 then Ok true else Err Elf_Exception) as [is64|] eqn:Ec; [|discriminate]. cbn [bind] in H.
  rewrite header_native in H. destruct (read file 0 76) as [data|] eqn:R2; [|discriminate]. cbn [bind] in H.
  destruct (get_fmt big (ehdr_fmt is64) data 16) as [[v o]|] eqn:G; [|discriminate]. cbn [bind] in H.
  destruct (mk_ehdr (take 16 data) v) as [h|] eqn:M; [|discriminate]. cbn [bind] in H.
  destruct (read_headers file big (phdr_fmt is64) _ _ _ _) as [ph|] eqn:P; [|discriminate]. cbn [bind] in H.
  destruct (read_headers file big (shdr_fmt is64) _ _ _ _) as [sh|] eqn:Q; [|discriminate]. cbn [bind] in H. injection H as <-.
  cbn [xe_is64 xe_ehdr xe_big xe_shdrs xe_phdrs] in *. destruct Se as (Sp & Ss).
  pose proof (bytes_read _ _ _ _ B R2) as Bd. pose proof (read_len _ _ _ _ R2) as Ld. pose proof (read_len _ _ _ _ R) as Li.
  assert (Ei : take 16 data = ident).
  { unfold read in R, R2. destruct (_ =? _) in R; [|discriminate]. destruct (_ =? _) in R2; [|discriminate]. injection R as <-. injection R2 as <-. unfold slice. apply take_take. lia. }
  assert (Ke : ehdr_fmt is64 = map Z.of_nat (ehdr_ks is64)) by (destruct is64; reflexivity).
  unfold get_fmt in G. destruct (_ <? _) eqn:C in G; [discriminate|]. apply Z.ltb_ge in C. injection G as <- _.
  pose proof (unpack_packed big (ehdr_ks is64) (drop 16 data) (proj2 (is_bytes_take 16 data Bd)) ltac:(rewrite <- Ke, blen_drop by lia; unfold calcsize in C; lia)) as PK.
  rewrite <- Ke in PK at 2. destruct (ehdr_fields _ _ _ _ _ _ PK M) as (Eh & Eid & Hok). rewrite Ei in *.
  assert (Hh : ehdr_ok is64 big h).
  { apply Hok; [unfold blen in Li; lia|]. do 6 (destruct ident as [|? ident]; [discriminate Li|]). cbn in Mg. injection Mg as -> -> -> ->. cbn in I5, I4. injection I5 as <-. injection I4 as <-.
    cbn [firstn]. destruct (Z.eqb_spec z3 1) as [->|]; [|destruct (Z.eqb_spec z3 2) as [->|]; [|discriminate]]; injection Ec as <-;
      (destruct (Z.eqb_spec z4 1) as [->|]; [|destruct (Z.eqb_spec z4 2) as [->|]; [|discriminate]]; injection Eb as <-); reflexivity. }
  assert (Num : 0 <= e_phnum h /\ 0 <= e_shnum h /\ 0 <= e_phoff h /\ 0 <= e_shoff h).
  { destruct Hh as (_ & _ & _ & _ & _ & X1 & X2 & _ & _ & _ & X3 & _ & X4 & _). unfold xfits, fits in *. lia. }
  replace (phdr_fmt is64) with (map Z.of_nat (phdr_ks is64)) in P by (destruct is64; reflexivity).
  replace (shdr_fmt is64) with (map Z.of_nat (shdr_ks is64)) in Q by (destruct is64; reflexivity).
  destruct (headers_made big (phdr_ks is64) mk_phdr (fun q => phdr_bytes is64 big (phdr_back is64 q)) (fun q => phdr_ok is64 (phdr_back is64 q))
    (fun v l q => phdr_unpacked is64 big v l q) ltac:(destruct is64; reflexivity) file (e_phnum h) (e_phentsize h) (e_phoff h) ph B ltac:(lia) ltac:(lia)) as (P1 & P2 & P3).
  { intros N. rewrite (Sp N). destruct is64; reflexivity. }
  { exact P. }
  { intros a Ha. destruct is64; [exact (packed_len _ _ _ _ (packed_phdr64 big _ Ha))|exact (packed_len _ _ _ _ (packed_phdr32 big _ Ha))]. }
  destruct (headers_made big (shdr_ks is64) mk_xshdr (shdr_bytes is64 big) (shdr_ok is64)
    (fun v l q => shdr_unpacked is64 big v l q) ltac:(destruct is64; reflexivity) file (e_shnum h) (e_shentsize h) (e_shoff h) sh B ltac:(lia) ltac:(lia)) as (Q1 & Q2 & Q3).
  { intros N. rewrite (Ss N). destruct is64; reflexivity. }
  { exact Q. }
  { intros a Ha. rewrite (packed_len _ _ _ _ (packed_shdr is64 big a Ha)). destruct is64; reflexivity. }
  exists (map (phdr_back is64) ph). split.
  - split; [split|exact Room].
    + exact Hh.
    + rewrite Eh. assert (Od : occurs file 0 data) by (apply (ProofElf2.read_occurs file 0 76 data ltac:(lia) R2); intros ->; rewrite blen_nil in Ld; lia).
      rewrite <- Ei in *. apply (occurs_app_l _ _ _ (drop (fold_right Z.add 0 (map Z.of_nat (ehdr_ks is64))) (drop 16 data))).
      rewrite <- app_assoc, take_drop', take_drop'. exact Od.
    + rewrite map_length. exact P1.
    + intros N. apply Sp. rewrite P1. destruct ph; [contradiction|discriminate].
    + apply Forall_map. exact P2.
    + intros N. rewrite flat_map_concat_map, map_map, <- flat_map_concat_map. apply P3. intros ->. now apply N.
    + exact Q1.
    + intros N. apply Ss. rewrite Q1. destruct sh; [contradiction|discriminate].
    + exact Q2.
    + exact Q3.
  - rewrite map_map. symmetry. erewrite map_ext; [apply map_id|]. intros q. apply phdr_back_read.
Qed.
Lemma holds_fits is64 big file : forall ss ls, Forall2 (symtab_holds is64 big file) ss ls -> forall y, In y (concat ls) -> 0 <= x_stname y.
Proof.
  intros ss ls F. induction F as [|s l ss ls H F IH]; intros y I; [destruct I|]. cbn [concat] in I. apply in_app_or in I. destruct I as [I|I]; [|now apply IH].
  destruct H as [(_ & ->)|H]; [destruct I|]. pose proof (st_syms _ _ _ _ _ H) as K. rewrite Forall_forall in K. destruct (K y I) as (X & _). unfold fits in X. lia.
Qed.
Section Opened.
Variables (is64 big : bool) (file : bytes) (h : ehdr) (phs : list phdr) (shs : list xshdr) (e : xelf).
Hypotheses (B : is_bytes file) (F : elf_file is64 big file h phs shs) (E : elf_init file = Ok e).
Lemma opened_places : is_bytes (xe_file e) /\ Forall (fun s => 0 <= x_offset s /\ 0 <= x_size s) (xe_shdrs e).
Proof. rewrite (opened_shape _ _ _ _ _ _ _ F E). split; [exact B|]. exact (shdr_places _ _ (im_shdrs_ok _ _ _ _ _ _ F)). Qed.
Lemma section_names s n : In s shs -> (shdr_name e s = Ok n <-> name_at e (e_shstrndx h) (x_name s) n).
Proof.
  intros I. destruct opened_places as (Bf & Fp). unfold shdr_name.
  replace (xe_ehdr e) with h by (rewrite (opened_shape _ _ _ _ _ _ _ F E); reflexivity). apply name_exactly; [exact Bf|exact Fp|].
  pose proof (im_shdrs_ok _ _ _ _ _ _ F) as K. rewrite Forall_forall in K. destruct (K s I) as (X & _). unfold fits in X. lia.
Qed.
Lemma section_names_fail s x : shdr_name e s = Err x ->
  (x = IndexError /\ nth_error shs (Z.to_nat (e_shstrndx h)) = None) \/
  (exists t, nth_error shs (Z.to_nat (e_shstrndx h)) = Some t /\ ((x = Elf_Exception /\ beyond file t) \/ (x = ValueError /\ ~ beyond file t))).
Proof.
  destruct opened_places as (_ & Fp). unfold shdr_name. intros H. apply name_fails in H; [|exact Fp].
  rewrite (opened_shape _ _ _ _ _ _ _ F E) in H. exact H.
Qed.
Lemma symbol_names l y n : symbols e = Ok l -> In y l -> (xsym_name e y = Ok n <-> name_at e (x_strndx y) (x_stname y) n).
Proof.
  intros S I. destruct opened_places as (Bf & Fp). unfold xsym_name. apply name_exactly; [exact Bf|exact Fp|].
  apply (symbols_exactly _ _ _ _ _ _ _ _ B F E) in S. destruct S as (ls & Fl & ->). exact (holds_fits _ _ _ _ _ Fl y I).
Qed.
Lemma symbol_names_fail y x : xsym_name e y = Err x ->
  (x = IndexError /\ nth_error shs (Z.to_nat (x_strndx y)) = None) \/
  (exists t, nth_error shs (Z.to_nat (x_strndx y)) = Some t /\ ((x = Elf_Exception /\ beyond file t) \/ (x = ValueError /\ ~ beyond file t))).
Proof.
  destruct opened_places as (_ & Fp). unfold xsym_name. intros H. apply name_fails in H; [|exact Fp].
  rewrite (opened_shape _ _ _ _ _ _ _ F E) in H. exact H.
Qed.
End Opened.
