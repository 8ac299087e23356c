(** * Specification vocabulary: the reports of a project with link time optimisation *)
From Coq Require Import Ascii String List ZArith Bool Sorted.
From Verif Require Import Base MemMap SpecTree Filter SpecFilter Pipeline SpecPipe SpecBuild SpecBytes SpecShape PyStr MapFile SpecMap ElfRead SpecElf Dwarf SpecDwarf SpecDebug Project SpecProject SpecPath SpecOwner SpecEnd
  Chips Deps Table SpecTable Formats Main SpecMain SpecCommand SpecFail SpecReport SpecLto SpecLto2.
Import ListNotations.
Open Scope list_scope.
Open Scope Z_scope.

(** ** optimised code, taken apart *)
(** the pieces lie one after the other and cover the bytes from the first address to the last *)
Fixpoint one_after_other (a : Z) (js : list item) (e : Z) : Prop :=
  match js with
  | [] => a = e
  | j :: r => it_addr j = a /\ 0 <= it_size j /\ one_after_other (a + it_size j) r e
  end.
(** a piece is a symbol of a component, or no symbol of a component starts in it *)
Definition symbol_piece (own : usym -> option (str * str)) (syms : list usym) (i j : item) : Prop :=
  exists y, In y syms /\ starts_in (item_section i) y = true /\ own y = Some (it_archive j, it_object j) /\ it_addr j = us_addr y /\ it_size j = us_size y.
Definition other_piece (own : usym -> option (str * str)) (syms : list usym) (i j : item) : Prop :=
  it_archive j = "(exe)" /\ it_object j = it_object i /\ forall y, In y syms -> own y <> None -> starts_in (item_section j) y = false.
Definition item_apart (own : usym -> option (str * str)) (syms : list usym) (i : item) (js : list item) : Prop :=
  if it_archive i =?= "(exe)" then
    one_after_other (it_addr i) js (it_addr i + it_size i) /\ Forall (fun j => symbol_piece own syms i j \/ other_piece own syms i j) js
  else exists j, js = [j] /\ it_addr j = it_addr i /\ it_size j = it_size i /\ it_archive j = it_archive i /\ it_object j = it_object i.
(** only the input sections of an output section are other ones *)
Definition section_apart (own : usym -> option (str * str)) (syms : list usym) (o o' : printed) : Prop :=
  pr_name o' = pr_name o /\ pr_addr o' = pr_addr o /\ pr_size o' = pr_size o /\
  exists jss, Forall2 (item_apart own syms) (pr_items o) jss /\ pr_items o' = concat jss.

(** ** a project with its components and the symbols with source files, if debugging information is used *)
Record source := Source { so_account : account; so_units : option (list component * list usym) }.
Definition source_at (d : disk) (a : args) (fn : str) (s : source) : Prop :=
  let k := so_account s in
  exists dir name text crt, fn = in_dir dir name /\ built d dir name text (ac_rs k) (ac_l k) crt (ac_im k) (ac_types k) /\
    (a_show_unused a = true \/ filled (ac_im k) (ac_types k) (ac_l k)) /\
    match so_units s with
    | None => no_dwarf d dir (a_use_dwarf a)
    | Some (comps, syms) => with_dwarf d dir (a_use_dwarf a) /\ symbols_ok comps syms /\
        (exists file hs, ac_im k = Some hs /\ described_elf d dir name file comps /\ debugged file hs syms) /\
        Forall (fun o => counted (ac_im k) o -> Forall (fun i => it_archive i = "(exe)" -> followed comps syms (item_section i)) (pr_items o)) (ac_l k)
    end.
(** the project with its optimised code taken apart *)
Definition apart (s : source) (q : account) : Prop :=
  let k := so_account s in
  match so_units s with
  | None => q = k
  | Some (comps, syms) => ac_rs q = ac_rs k /\ ac_im q = ac_im k /\ ac_types q = ac_types k /\
      exists own, owners comps own syms /\ Forall2 (fun o o' => counted (ac_im k) o -> section_apart own syms o o') (ac_l k) (ac_l q) /\
        Forall2 (fun o o' => pr_name o' = pr_name o /\ pr_addr o' = pr_addr o /\ pr_size o' = pr_size o) (ac_l k) (ac_l q)
  end.
(** the project and the reference of a command *)
Definition sourced (d : disk) (c : cmd) (s : source) (r : option source) : Prop :=
  source_at d (c_args c) (c_input c) s /\
  match r with None => given (a_diff (c_args c)) = false | Some s' => exists fn, a_diff (c_args c) = Some fn /\ source_at d (c_args c) fn s' end /\
  a_unify (c_args c) = false /\ a_archive_dependencies (c_args c) = false.
Definition apart_both (s : source) (r : option source) (q : account) (q' : option account) : Prop :=
  apart s q /\ match r, q' with None, None => True | Some s', Some k' => apart s' k' | _, _ => False end.
(** the names of object files are told from those of archives *)
Definition tells_source (s : source) : Prop :=
  (forall i, places i (so_account s) -> ~ In ":"%char (it_object i)) /\
  forall comps syms y, so_units s = Some (comps, syms) -> In y syms -> ~ In ":"%char (us_path y).
Definition tells_sources (files : bool) (s : source) (r : option source) : Prop :=
  files = true -> tells_source s /\ match r with None => True | Some s' => tells_source s' end.
