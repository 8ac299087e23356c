From Coq Require Import Ascii String List ZArith Bool Lia Sorting.Sorted Permutation.
From Verif Require Import Base MemMap SpecTree Pipeline PyStr SpecPipe SpecBuild SpecBytes ProofBytes ProofBytes3 ProofGet MapFile SpecMap ElfRead SpecElf ProofElf1 ProofElf2 Dwarf SpecDwarf SpecDebug
  Project SpecProject ProofProject1 ProofProject2 SpecShape SpecPath ProofPath SpecOwner SpecEnd ProofEnd Chips SpecChips ProofChips SpecLto SpecLto2 ProofLto1 ProofLto2 ProofLto3.
Import ListNotations.
Open Scope list_scope.
Open Scope Z_scope.

(** ** the order of the symbols does not matter *)
Section Same.
Variables (s1 s2 : list usym).
Hypotheses (P : Permutation s1 s2).
Lemma owned_same own p f i : owned_bytes own s1 p f i = owned_bytes own s2 p f i.
Proof.
  unfold owned_bytes. rewrite !zsumf_filter. now apply zsumf_perm.
Qed.
Lemma given_same own p f i : given_bytes own s1 p f i = given_bytes own s2 p f i.
Proof. unfold given_bytes. now rewrite !owned_same. Qed.
Lemma part_same own i x o : has_part own s1 i x o -> has_part own s2 i x o.
Proof. intros [H|(E & y & I & H)]; [now left|]. right. split; [exact E|]. exists y. split; [now apply (Permutation_in _ P)|exact H]. Qed.
Lemma listed_same own d T s x : listed_optimised own s1 d T s x -> listed_optimised own s2 d T s x.
Proof.
  unfold listed_optimised. destruct x as [x|]; [|auto]. intros (A & B & C & D & E). split; [exact A|]. split; [exact B|]. split; [|split].
  - intros a. rewrite C. apply zsumf_ext. intros i _. apply given_same.
  - intros a o. rewrite D. apply zsumf_ext. intros i _. apply given_same.
  - intros a y G. destruct (E a y G) as ((i & o & Ii & H) & E2). split; [exists i, o; split; [exact Ii|now apply part_same]|].
    intros o' z G2. destruct (E2 o' z G2) as (i' & I' & H'). exists i'. split; [exact I'|now apply part_same].
Qed.
Lemma owners_same comps own : owners comps own s1 -> owners comps own s2.
Proof. intros H y I. apply H. now apply (Permutation_in _ (Permutation_sym P)). Qed.
Lemma symbols_same comps : symbols_ok comps s2 -> symbols_ok comps s1.
Proof.
  intros [A B C D]. assert (I : forall y, In y s1 -> In y s2) by (intros y; apply (Permutation_in _ P)). split.
  - auto.
  - intros y z Iy Iz. apply B; auto.
  - eapply Permutation_NoDup; [|exact C]. apply Permutation_map, Permutation_sym, P.
  - intros y c Iy. apply D; auto.
Qed.
Lemma followed_same comps i : followed comps s2 i -> followed comps s1 i.
Proof.
  intros ((y & Iy & C & E) & H). split; [exists y; split; [now apply (Permutation_in _ (Permutation_sym P))|auto]|]. intros z Iz. apply H. now apply (Permutation_in _ P).
Qed.
End Same.

(** ** the world of such a project *)
Lemma debug_world d dir name chips ls ud m file comps hs syms :
  directory dir -> proper name -> get_files d chips (in_dir dir name) ls ud = Ok m -> described_elf d dir name file comps -> debugged file hs syms -> with_dwarf d dir ud ->
  exists w e mf pd, get w ls (Some true) None None = Ok (m, mf) /\ w_mapfile w = load_map d (in_dir dir name) /\ w_memory_types w = chips /\
    w_elf w = Ok (Some e) /\ elf_matches (Some hs) (Some e) /\ w_proj_desc w = Some pd /\ pd_components pd = comps /\
    (forall p, In p (elf_cusyms e) -> cu_value (snd p) = fst p) /\ NoDup (map us_addr (map usym_of (elf_cusyms e))) /\
    forall y, In y (map usym_of (elf_cusyms e)) <-> In y syms.
Proof.
  intros D P E (o & app & fn & Ed & M & Lo & F & B & Co) (N & is64 & big & h & phs & shs & syml & xe & secs & us & Im & Fs & Ei & Di & Or & Sy) Wd. unfold get_files in E.
  destruct (load_world d chips (in_dir dir name) ls ud) as [w|] eqn:L; [|discriminate]. cbn [bind] in E.
  destruct (get w ls (Some (w_lto w)) None None) as [[m0 mf]|] eqn:G; [|discriminate]. cbn in E. injection E as ->.
  unfold load_world in L. rewrite abspath_in in L by assumption.
  assert (Pd : get_proj_desc d (in_dir dir name) = Ok (Some (JObj o))).
  { rewrite proj_desc_eq by assumption. rewrite Ed. pose proof (proj1 M) as Ga. cbn [jget]. rewrite Ga. cbn [bind jstr]. rewrite (proj2 (describes_b name o app Ga) M). reflexivity. }
  assert (Ge : get_elf d (in_dir dir name) (Some (JObj o)) = Ok (Some xe)).
  { cbn [get_elf jindex]. rewrite (proj1 M). cbn [bind jstr].
    assert (Jn : path_join (dirname (in_dir dir name)) app = fn).
    { pose proof (join_located dir name app D (proper_noslash _ P)) as Lo'. destruct Lo as [(R & ->)|(R & ->)], Lo' as [(R' & E')|(R' & E')]; tauto. }
    rewrite Jn, F. unfold load_elf_file. rewrite B, Ei. reflexivity. }
  destruct Co as (b & info & cls & Gi & Gb & Fc & ->). rewrite Pd in L. cbn [bind] in L. cbv zeta in L. rewrite Ge in L. rewrite (components_loaded o info b cls Gi Gb Fc) in L.
  assert (Fl : match ud with Some b => Ok b | None => lto_flag d (in_dir dir name) end = Ok true).
  { destruct Wd as [->|(-> & c & Ec & El)]; [reflexivity|]. rewrite lto_eq by assumption. rewrite Ec. cbn [jget]. rewrite El. reflexivity. }
  rewrite Fl in L. cbn [bind] in L. destruct (desc_target (Some (JObj o))) as [t|]; [|discriminate]. cbn [bind] in L. injection L as L.
  destruct (get_elf_ok _ _ _ _ _ _ G) as (e & We).
  pose proof We as We0. rewrite <- L in We. cbn [w_elf bind] in We. destruct (view_elf ls true xe) as [v|] eqn:V; [|discriminate]. cbn [bind] in We. injection We as <-.
  exists w, v, mf, (ProjDesc t (concat cls)).
  assert (Wl : w_lto w = true) by (rewrite <- L; reflexivity). rewrite Wl in G. split; [exact G|]. split; [rewrite <- L; reflexivity|]. split; [rewrite <- L; reflexivity|].
  split; [exact We0|].
  unfold view_elf in V. destruct (view_cusyms xe) as [cus|] eqn:Vc; [|discriminate]. cbn [bind] in V. rewrite (view_headers file hs _ N Ei) in V. cbn [bind] in V.
  destruct (if ls then _ else _) as [sl|]; [|discriminate]. cbn in V. injection V as <-. cbn [elf_cusyms].
  split; [reflexivity|]. split; [rewrite <- L; reflexivity|]. split; [reflexivity|].
  destruct (view_is xe secs us (concat syml) Di Or (symbols_image _ _ _ _ _ _ _ _ Im Fs Ei) cus Vc) as (V1 & V2 & V3 & _).
  split; [exact V2|]. split; [exact V3|]. intros y. now rewrite V1, Sy.
Qed.
Lemma nodup_addr (l : list usym) : NoDup (map us_addr l) -> NoDup l.
Proof. apply NoDup_map_inv. Qed.

Lemma optimised_end d dir name text rs l crt file comps hs syms ls ud m types :
  directory dir -> proper name -> d_text d (in_dir dir name) = Some text -> printed_map rs l crt (splitlines text) -> Forall regular l ->
  described_elf d dir name file comps -> debugged file hs syms -> with_dwarf d dir ud -> symbols_ok comps syms ->
  get_files d (get_memory_types chip_info) (in_dir dir name) ls ud = Ok m -> get_memory_types chip_info (m_target m) = Ok types ->
  Forall (fun o => counted (Some hs) o -> optimised_printed rs types comps syms o) l ->
  exists keep b own, (forall o, keep o = true <-> counted (Some hs) o) /\ (forall n a T, b n a T = true <-> byte_goes types n a T) /\ owners comps own syms /\
    (NoDup (map pr_name (filter keep l)) ->
     forall T t, dget T (m_types m) = Some t ->
      (forall o, In o l -> counted (Some hs) o -> listed_optimised own syms b T (printed_section o) (dget (pr_name o) (t_sections t))) /\
      (forall n x, dget n (t_sections t) = Some x -> exists o, In o l /\ counted (Some hs) o /\ pr_name o = n)).
Proof.
  intros D P T Pm R De Db Wd So E Ty F. destruct (debug_world _ _ _ _ _ _ _ _ _ _ _ D P E De Db Wd) as (w & e & mf & pd & G & Wm & Wt & We & Ma & Wp & Cp & Va & Nd & Sm).
  destruct (load_printed _ _ _ _ _ _ T Pm R) as (target & Lp). rewrite Lp in Wm. destruct (printed_nonneg _ _ _ _ Pm) as (Rn & Ln).
  assert (Pe : Permutation (map usym_of (elf_cusyms e)) syms) by (apply NoDup_Permutation; [now apply nodup_addr|apply nodup_addr, (so_once _ _ So)|exact Sm]).
  destruct (optimised_bytes w ls (Some true) None None m mf _ e pd types G Wm We Wp) as (keep & b & own & K & B & Ow & U).
  - now rewrite Wt.
  - now left.
  - exact (proj1 (chips_ok _ _ Ty)).
  - exact Rn.
  - exact Va.
  - rewrite Cp. exact (symbols_same _ _ Pe comps So).
  - cbn [mf_sections mf_regions]. apply Forall_map. rewrite Forall_forall in *. intros o Io Ke. apply (kept_counted _ _ o Ma) in Ke. destruct (F o Io Ke) as (F1 & F2 & F3 & F4).
    destruct (Ln o Io) as (Lo & Li). rewrite Forall_forall in Li. split; [exact Lo|]. split; [exact F1|]. split; [exact F2|]. unfold items_in in F3. rewrite Forall_forall in F3, F4. split.
    + unfold isecs_in, printed_section. cbn [o_isecs o_addr o_size]. apply Forall_map. apply Forall_forall. intros i Ii. specialize (Li i Ii). specialize (F3 i Ii). cbn. tauto.
    + unfold printed_section. cbn [o_isecs]. apply Forall_map. apply Forall_forall. intros i Ii Oi. rewrite Cp. apply (followed_same _ _ Pe). apply F4; [exact Ii|exact Oi].
  - exists (fun o => keep (printed_section o)), b, own. split; [intros o; rewrite K; now apply kept_counted|]. split; [exact B|]. split; [rewrite Cp in Ow; exact (owners_same _ _ Pe _ _ Ow)|].
    intros N T0 t Gt. cbn [mf_sections] in U. destruct (U) with (T := T0) (t := t) as (U1 & U2); [|exact Gt|].
    + rewrite filter_map_comm, map_map. exact N.
    + split.
      * intros o Io Co. apply (listed_same _ _ Pe). apply (U1 (printed_section o)); [now apply List.in_map|]. now apply (kept_counted _ _ o Ma).
      * intros n x Gx. destruct (U2 n x Gx) as (s & Is & Ks & <-). apply List.in_map_iff in Is. destruct Is as (o & <- & Io).
        exists o. split; [exact Io|]. split; [now apply (kept_counted _ _ o Ma)|reflexivity].
Qed.
