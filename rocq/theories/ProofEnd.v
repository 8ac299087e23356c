(** * From the files of a project to its report *)
From Coq Require Import Ascii String List ZArith Lia Bool.
From Verif Require Import Base MemMap SpecTree SpecBytes Pipeline SpecPipe SpecBuild ProofBytes ProofBytes2 ProofBytes3 PyStr MapFile SpecMap ProofMap5
  ElfRead Dwarf SpecElf ProofElf1 ProofElf2 Chips SpecChips ProofChips Project SpecProject ProofProject1 ProofProject2 SpecEnd.
Import ListNotations.
Open Scope list_scope.
Open Scope Z_scope.

(** ** numbers in the map are not negative *)
Lemma hex_nonneg s z : SpecMap.hex_digits s z -> 0 <= z.
Proof. induction 1 as [c d (H & _)|s z c d _ IH (H & _)]; lia. Qed.
Lemma number_nonneg z s : number z s -> 0 <= z.
Proof. intros (t & H & _). now apply hex_nonneg in H. Qed.
Lemma region_line_nonneg r s : region_line r s -> Forall (fun r => 0 <= r_length r) r.
Proof. intros []; repeat constructor; cbn; eauto using number_nonneg. Qed.
Lemma table_nonneg rs tbl : region_table rs tbl -> Forall (fun r => 0 <= r_length r) rs.
Proof.
  intros [pre mc mid nm rows lines _ _ _ _ F]. clear pre mc mid nm. induction F as [|r s rows lines H F IH]; [constructor|].
  cbn. apply Forall_app. split; [eapply region_line_nonneg; eauto|exact IH].
Qed.
Lemma head_nonneg o ls : section_head o ls -> 0 <= pr_size o.
Proof. intros []; try (eapply number_nonneg; eassumption). lia. Qed.
Lemma pad_nonneg p s : pad_line p s -> 0 <= pads_size p.
Proof. intros []; cbn; try lia; match goal with H : number ?n _ |- 0 <= ?n + 0 => apply number_nonneg in H; lia end. Qed.
Lemma pads_app a b : pads_size (a ++ b) = pads_size a + pads_size b.
Proof. unfold pads_size. induction a as [|p a IH]; cbn [app fold_right]; [lia|]. rewrite IH. lia. Qed.
Lemma item_nonneg i ls : item_lines i ls -> 0 <= it_size i /\ 0 <= pads_size (it_pads i).
Proof.
  intros [h pads ls' H E F]. split.
  - destruct H as [g r s _ _ R _|r s1 s2 _ _ R _]; destruct R as (sa & g1 & ss & g2 & lo & _ & _ & N & _); now apply number_nonneg in N.
  - rewrite E. clear E H. induction F as [|p s pads ls' Hp F IH]; cbn [List.concat]; [cbn; lia|]. rewrite pads_app. apply pad_nonneg in Hp. lia.
Qed.
Lemma section_nonneg o ls : section_lines o ls -> 0 <= pr_size o /\ Forall (fun i => 0 <= it_size i /\ 0 <= pads_size (it_pads i)) (pr_items o).
Proof.
  intros [h ig body z H _ F _]. split; [eapply head_nonneg; eauto|]. clear -F. induction F; constructor; eauto using item_nonneg.
Qed.
Lemma script_nonneg l ls : script_lines l ls -> Forall (fun o => 0 <= pr_size o /\ Forall (fun i => 0 <= it_size i /\ 0 <= pads_size (it_pads i)) (pr_items o)) l.
Proof. induction 1; constructor; eauto using section_nonneg. Qed.
Lemma printed_nonneg rs l crt lines : printed_map rs l crt lines ->
  Forall (fun r => 0 <= r_length r) rs /\
  Forall (fun o => 0 <= pr_size o /\ Forall (fun i => 0 <= it_size i /\ 0 <= pads_size (it_pads i)) (pr_items o)) l.
Proof. intros []; split; eauto using table_nonneg, script_nonneg. Qed.

(** ** the map file *)
Lemma validate_isecs_some l : Forall (fun i => pi_addr i <> None) l -> forall start off, start <> None ->
  validate_isecs start off l = Ok tt \/ validate_isecs start off l = Err MapFileException.
Proof.
  induction 1 as [|i l N F IH]; intros start off Hs; [now left|]. cbn [validate_isecs].
  destruct (pi_size i) as [n|]; [|now apply IH]. destruct (n =? 0); [now apply IH|].
  destruct start as [s|]; [|now destruct Hs]. cbn [py_add bind]. destruct (pi_addr i) as [a|]; [|now destruct N].
  destruct (s + off =? a); [now apply IH|now right].
Qed.
Lemma validate_exact l : validate_sections (map exact_section l) = Ok tt \/ validate_sections (map exact_section l) = Err MapFileException.
Proof.
  induction l as [|o l IH]; [now left|]. cbn [map validate_sections].
  assert (V : validate_section (exact_section o) = Ok tt \/ validate_section (exact_section o) = Err MapFileException).
  { unfold validate_section, exact_section. cbn [po_isecs]. destruct (pr_items o) as [|i q]; [now left|].
    apply validate_isecs_some; [|discriminate]. cbn [map]. constructor; [discriminate|]. apply Forall_map. apply Forall_forall. discriminate. }
  destruct V as [->| ->]; cbn [bind]; [exact IH|now right].
Qed.
Lemma load_printed d fn text rs l crt : d_text d fn = Some text -> printed_map rs l crt (splitlines text) -> Forall regular l ->
  exists target, load_map d fn = Ok (MapFile target rs (map printed_section l)).
Proof.
  intros T P R. destruct (exact_read_back _ _ _ _ P R) as (m & A & B & C & _).
  unfold load_map, read_map. rewrite T. unfold map_text. rewrite A. exists (pm_target m). unfold usable_map. rewrite B, C, map_map.
  assert (E : map (fun x => osec_of (exact_section x)) l = map printed_section l).
  { apply map_ext. intros o. unfold osec_of, exact_section, printed_section. cbn. now rewrite map_map. }
  rewrite E. destruct (validate_exact l) as [->| ->]; reflexivity.
Qed.

(** ** the ELF file *)
Definition header_of (nh : str * xshdr) : shdr :=
  Shdr (if (x_size (snd nh) =? 0) || (Z.land (x_flags (snd nh)) SHF_ALLOC =? 0) then [] else fst nh)
    (x_type (snd nh)) (x_flags (snd nh)) (x_size (snd nh)).
Lemma view_headers file l e : named_headers file l -> elf_init file = Ok e -> mapM (view_shdr e) (xe_shdrs e) = Ok (map header_of l).
Proof.
  intros (is64 & big & h & phs & t & I & Nt & F) E. rewrite (elf_init_image _ _ _ _ _ _ I) in E. injection E as <-.
  set (e := XElf _ _ _ _ _ _). assert (T : nth_error (xe_shdrs e) (Z.to_nat (e_shstrndx (xe_ehdr e))) = Some t) by exact Nt.
  assert (Fi : xe_file e = file) by reflexivity. assert (S0 : xe_shdrs e = map snd l) by reflexivity. rewrite S0. clearbody e. clear Nt I.
  rewrite <- Fi in F. clear S0 Fi. induction F as [|[n s] l (Pn & Sn) F IH]; [reflexivity|]. cbn [map snd mapM]. cbn [fst snd] in *.
  assert (V : view_shdr e s = Ok (header_of (n, s))).
  { unfold view_shdr, header_of. cbn [fst snd]. destruct ((x_size s =? 0) || _); [reflexivity|]. now rewrite (shdr_name_at e t s n T Pn Sn). }
  rewrite V. cbn [bind]. rewrite IH. reflexivity.
Qed.
Definition elf_matches (im : option (list (str * xshdr))) (e : option elf) : Prop :=
  match im, e with
  | None, None => True
  | Some l, Some f => elf_shdrs f = map header_of l
  | _, _ => False
  end.
Lemma has_headers_of im e : elf_matches im e -> has_headers e <-> exists n, loaded im n.
Proof.
  intros M. split.
  - intros (f & h & -> & I & A). destruct im as [l|]; [|contradiction]. cbn in M. rewrite M in I. apply in_map_iff in I.
    destruct I as ([n s] & <- & I). exists n, l, s. repeat split; try assumption; apply A.
  - intros (n & l & h & -> & I & S1 & A). destruct e as [f|]; [|contradiction]. cbn in M. exists f, (header_of (n, h)). split; [reflexivity|].
    split; [rewrite M; now apply in_map|]. now split.
Qed.
Lemma in_headers_of im e n : elf_matches im e -> in_headers e n <-> loaded im n.
Proof.
  intros M. split.
  - intros (f & h & -> & I & A & N). destruct im as [l|]; [|contradiction]. cbn in M. rewrite M in I. apply in_map_iff in I.
    destruct I as ([n' s] & <- & I). destruct A as (A1 & A2). cbn in *. exists l, s. split; [reflexivity|].
    apply Z.eqb_neq in A1 as A1', A2 as A2'. unfold SHF_ALLOC in N. rewrite A1', A2' in N. cbn in N. subst n'. now repeat split.
  - intros (l & h & -> & I & S1 & A). destruct e as [f|]; [|contradiction]. cbn in M. exists f, (header_of (n, h)). split; [reflexivity|].
    split; [rewrite M; now apply in_map|]. split; [now split|]. cbn. apply Z.eqb_neq in S1, A. unfold SHF_ALLOC. now rewrite S1, A.
Qed.
Lemma kept_counted im e o : elf_matches im e -> kept e (printed_section o) <-> counted im o.
Proof. intros M. unfold kept, counted. cbn [printed_section o_size o_name]. now rewrite (has_headers_of im e M), (in_headers_of im e _ M). Qed.

(** ** the world that is loaded *)
Lemma get_elf_ok w ls ud ma ea r : get w ls ud ma ea = Ok r -> exists e, w_elf w = Ok e.
Proof.
  unfold get. destruct (load_mapfile _ _); [|discriminate]. cbn [bind]. destruct (w_elf w) as [e|]; [now exists e|discriminate].
Qed.
Lemma loaded_world d dir name chips ls ud m im :
  directory dir -> proper name -> get_files d chips (in_dir dir name) ls ud = Ok m -> image_of d dir name im ->
  exists w e mf, get w ls (Some (w_lto w)) None None = Ok (m, mf) /\ w_mapfile w = load_map d (in_dir dir name) /\
    w_elf w = Ok e /\ elf_matches im e /\ w_memory_types w = chips /\ (no_dwarf d dir ud -> w_lto w = false).
Proof.
  intros D P E I. unfold get_files in E. destruct (load_world d chips (in_dir dir name) ls ud) as [w|] eqn:L; [|discriminate]. cbn [bind] in E.
  destruct (get w ls (Some (w_lto w)) None None) as [[m0 mf]|] eqn:G; [|discriminate]. cbn in E. injection E as ->.
  unfold load_world in L. rewrite abspath_in in L by assumption.
  destruct (get_proj_desc d (in_dir dir name)) as [pd|] eqn:Pd; [|discriminate]. cbn [bind] in L.
  set (fl := match ud with Some b => Ok b | None => _ end) in L. destruct fl as [flag|] eqn:Fl; [|discriminate]. cbn [bind] in L.
  destruct (desc_target pd) as [t|]; [|discriminate]. cbn [bind] in L. injection L as L.
  destruct (get_elf_ok _ _ _ _ _ _ G) as (e & We). exists w, e, mf.
  split; [exact G|]. split; [now rewrite <- L|]. split; [exact We|]. split; [|split; [now rewrite <- L|]].
  2:{ rewrite <- L. cbn [w_lto]. intros N. unfold fl in Fl. destruct N as [->|(-> & N)]; [now injection Fl|].
      rewrite lto_eq in Fl by assumption. destruct N as [N|(o & N & X)]; rewrite N in Fl; [now injection Fl|].
      cbn [jget] in Fl. destruct (dget (list_ascii_of_string "COMPILER_LTO_LINKTIME") o) as [v|]; [subst v|]; cbn in Fl; now injection Fl. }
  rewrite <- L in We. clear L.
  cbn [w_elf] in We. clear G Fl fl.
  assert (Desc : forall o app, description d dir = Some (JObj o) -> describes_map o name app -> pd = Some (JObj o) /\ dget (list_ascii_of_string "app_elf") o = Some (JStr app)).
  { intros o app Ed M. rewrite proj_desc_eq in Pd by assumption. rewrite Ed in Pd. pose proof (proj1 M) as Ga. cbn [jget] in Pd. rewrite Ga in Pd. cbn [bind jstr] in Pd.
    rewrite (proj2 (describes_b name o app Ga) M) in Pd. split; [now injection Pd|exact Ga]. }
  assert (Loc : forall app fn, located dir app fn -> path_join (dirname (in_dir dir name)) app = fn).
  { intros app fn Lo. pose proof (join_located dir name app D (proper_noslash _ P)) as Lo'. destruct Lo as [(R & ->)|(R & ->)], Lo' as [(R' & E')|(R' & E')]; tauto. }
  destruct I as [U|o app fn Ed M Lo F|o app fn Ed M Lo B|o app fn file l Ed M Lo F B N].
  - rewrite (undescribed_desc name P d dir D U) in Pd. injection Pd as <-. cbn in We. injection We as <-. exact I.
  - destruct (Desc o app Ed M) as (-> & Ga). cbn [get_elf jindex] in We. rewrite Ga in We. cbn [bind jstr] in We. rewrite (Loc _ _ Lo), F in We. cbn in We. injection We as <-. exact I.
  - destruct (Desc o app Ed M) as (-> & Ga). cbn [get_elf jindex] in We. rewrite Ga in We. cbn [bind jstr] in We. rewrite (Loc _ _ Lo) in We.
    unfold load_elf_file in We. rewrite B in We. destruct (d_isfile d fn); cbn in We; injection We as <-; exact I.
  - destruct (Desc o app Ed M) as (-> & Ga). cbn [get_elf jindex] in We. rewrite Ga in We. cbn [bind jstr] in We. rewrite (Loc _ _ Lo), F in We.
    unfold load_elf_file in We. rewrite B in We. pose proof N as (is64 & big & h & phs & tt & Im & _). pose proof (elf_init_image _ _ _ _ _ _ Im) as Ei. rewrite Ei in We. cbn [bind] in We.
    destruct (view_elf ls flag _) as [v|] eqn:V; [|discriminate]. cbn [bind] in We.
    match type of We with (do _ <- ?x; _) = _ => destruct x; [|discriminate] end. cbn in We. injection We as <-.
    unfold view_elf in V. destruct (if flag then _ else _) as [cus|]; [|discriminate]. cbn [bind] in V.
    rewrite (view_headers file l _ N Ei) in V. cbn [bind] in V. destruct (if ls then _ else _) as [syms|]; [|discriminate]. cbn in V. injection V as <-. reflexivity.
Qed.

(** ** the bytes *)
Section Bytes.
Variables (d : disk) (dir name text : str) (rs : list region) (l : list printed) (crt : option (list SpecMap.entry)) (im : option (list (str * xshdr))).
Hypotheses (D : directory dir) (P : proper name) (T : d_text d (in_dir dir name) = Some text)
  (Pm : printed_map rs l crt (splitlines text)) (R : Forall regular l) (I : image_of d dir name im).

Lemma used_end ls ud m types :
  get_files d (get_memory_types chip_info) (in_dir dir name) ls ud = Ok m -> get_memory_types chip_info (m_target m) = Ok types ->
  Forall (fun o => counted im o -> section_mapped rs types (printed_section o)) l ->
  exists keep b, (forall o, keep o = true <-> counted im o) /\ (forall n a T, b n a T = true <-> byte_goes types n a T) /\
    forall T t, dget T (m_types m) = Some t ->
      t_used t = zsumf (fun o => bytes_with (fun a => b (pr_name o) a T) (pr_addr o) (pr_size o)) (filter keep l).
Proof.
  intros E Ty F. destruct (loaded_world _ _ _ _ _ _ _ _ D P E I) as (w & e & mf & G & Wm & We & M & Wt & _).
  destruct (load_printed _ _ _ _ _ _ T Pm R) as (target & Lp). rewrite Lp in Wm.
  destruct (printed_nonneg _ _ _ _ Pm) as (Rn & Ln).
  destruct (used_bytes_ok w ls (Some (w_lto w)) None None m mf _ e types G Wm We) as (keep & b & K & B & U).
  - now rewrite Wt.
  - exact (proj1 (chips_ok _ _ Ty)).
  - exact Rn.
  - cbn [mf_sections mf_regions]. apply Forall_map. rewrite Forall_forall in *. intros o Io Ke. split; [exact (proj1 (Ln o Io))|].
    apply F; [exact Io|]. now apply (kept_counted im e o M).
  - exists (fun o => keep (printed_section o)), b. split; [intros o; rewrite K; now apply kept_counted|]. split; [exact B|].
    intros T0 t Gt. rewrite (U T0 t Gt). cbn [mf_sections]. clear. induction l as [|o q IH]; [reflexivity|]. cbn [map filter].
    destruct (keep (printed_section o)); [|exact IH]. unfold zsumf in *. cbn [map]. cbn [zsum fold_right]. f_equal. exact IH.
Qed.

Lemma sections_end ls ud m types :
  no_dwarf d dir ud ->
  get_files d (get_memory_types chip_info) (in_dir dir name) ls ud = Ok m -> get_memory_types chip_info (m_target m) = Ok types ->
  Forall (fun o => counted im o -> section_mapped rs types (printed_section o) /\ unbroken rs types (printed_section o) /\ items_in o) l ->
  exists keep b, (forall o, keep o = true <-> counted im o) /\ (forall n a T, b n a T = true <-> byte_goes types n a T) /\
    (NoDup (map pr_name (filter keep l)) ->
     forall T t, dget T (m_types m) = Some t ->
      (forall o, In o l -> counted im o -> listed_as b T (printed_section o) (dget (pr_name o) (t_sections t))) /\
      (forall n x, dget n (t_sections t) = Some x -> exists o, In o l /\ counted im o /\ pr_name o = n)).
Proof.
  intros Nd E Ty F. destruct (loaded_world _ _ _ _ _ _ _ _ D P E I) as (w & e & mf & G & Wm & We & M & Wt & Wf).
  destruct (load_printed _ _ _ _ _ _ T Pm R) as (target & Lp). rewrite Lp in Wm.
  destruct (printed_nonneg _ _ _ _ Pm) as (Rn & Ln).
  destruct (section_bytes_ok w ls (Some (w_lto w)) None None m mf _ e types G Wm We) as (keep & b & K & B & U).
  - now rewrite Wt.
  - left. f_equal. exact (Wf Nd).
  - exact (proj1 (chips_ok _ _ Ty)).
  - exact Rn.
  - cbn [mf_sections mf_regions]. apply Forall_map. rewrite Forall_forall in *. intros o Io Ke. split; [exact (proj1 (Ln o Io))|].
    apply (kept_counted im e o M) in Ke. destruct (F o Io Ke) as (F1 & F2 & F3). split; [exact F1|]. split; [exact F2|].
    unfold isecs_in, printed_section. cbn [o_isecs o_addr o_size]. apply Forall_map. unfold items_in in F3. rewrite Forall_forall in *.
    destruct (Ln o Io) as (_ & Li). rewrite Forall_forall in Li. intros i Ii. specialize (Li i Ii). specialize (F3 i Ii). cbn. tauto.
  - exists (fun o => keep (printed_section o)), b. split; [intros o; rewrite K; now apply kept_counted|]. split; [exact B|].
    intros N T0 t Gt. cbn [mf_sections] in U. destruct (U) with (T := T0) (t := t) as (U1 & U2); [|exact Gt|].
    + replace (map o_name (filter keep (map printed_section l))) with (map pr_name (filter (fun o => keep (printed_section o)) l)); [exact N|].
      clear. induction l as [|o q IH]; [reflexivity|]. cbn [map filter]. destruct (keep (printed_section o)); [cbn [map]; now rewrite IH|exact IH].
    + split.
      * intros o Io Co. apply (U1 (printed_section o)); [now apply List.in_map|]. now apply (kept_counted im e o M).
      * intros n x Gx. destruct (U2 n x Gx) as (s & Is & Ks & <-). apply List.in_map_iff in Is. destruct Is as (o & <- & Io).
        exists o. split; [exact Io|]. split; [now apply (kept_counted im e o M)|reflexivity].
Qed.
End Bytes.
