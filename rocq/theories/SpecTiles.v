(** * Specification vocabulary: reports of symbols that add up *)
From Coq Require Import Ascii String List ZArith Bool Permutation.
From Verif Require Import Base MemMap Filter Pipeline SpecPipe SpecSyms MapFile SpecMap Deps Table SpecTable Formats Main SpecMain Project SpecProject SpecEnd SpecCommand SpecShape SpecReport SpecSymbols SpecAdds.
Import ListNotations.
Open Scope list_scope.
Open Scope Z_scope.

(** the command with --archive-details x in place of the report it asks for *)
Definition report_details (x : str) (c : cmd) : cmd :=
  let a := c_args c in
  with_args c (Args (a_format a) false (a_archive_dependencies a) (a_dep_symbols a) (a_dep_reverse a) (Some x) false
    (a_diff a) (a_no_abbrev a) (a_abbrev a) (a_unify a) (a_show_unused a) (a_show_unchanged a) (a_use_flash_size a) (a_use_dwarf a)
    (a_output_file a) (a_sort a) (a_filter a) (a_sort_diff a) (a_sort_reverse a)).

(** symbols that lie one next to the other, from one address to another *)
Inductive row_of_symbols : Z -> list symbol -> Z -> Prop :=
| row_end : forall a, row_of_symbols a [] a
| row_next : forall z l b, 0 <= sy_size z -> row_of_symbols (sy_addr z + sy_size z) l b -> row_of_symbols (sy_addr z) (z :: l) b.
(** the symbols of an input section are all there is in it *)
Definition tiled (ys : option (list elfsym)) (i : item) : Prop :=
  exists l, Permutation (item_symbols ys i) l /\ row_of_symbols (it_addr i) l (it_addr i + it_size i).
(** the project with this map file, its input sections and its symbols; [ok] holds for the input
    sections of the archives [x] *)
Definition symbols_within (ok : option (list elfsym) -> item -> Prop) (d : disk) (a : args) (x fn : str) (k q : account) : Prop :=
  exists dir name text crt ys, fn = in_dir dir name /\ built d dir name text (ac_rs k) (ac_l k) crt (ac_im k) (ac_types k) /\
    no_dwarf d dir (a_use_dwarf a) /\ (a_show_unused a = true \/ filled (ac_im k) (ac_types k) (ac_l k)) /\
    symbols_of d dir name (ac_im k) ys /\ clear_symbols k ys /\ q = symbol_account ys k /\
    forall i, places i k -> after_last "/"%char (it_archive i) x -> ok ys i.
Definition both_reported (ok : option (list elfsym) -> item -> Prop) (d : disk) (c : cmd) (x : str) (k q : account) (r r' : option account) : Prop :=
  symbols_within ok d (c_args c) x (c_input c) k q /\
  match r, r' with
  | None, None => given (a_diff (c_args c)) = false
  | Some k', Some q' => exists fn, a_diff (c_args c) = Some fn /\ symbols_within ok d (c_args c) x fn k' q'
  | _, _ => False
  end /\
  a_unify (c_args c) = false /\ a_archive_dependencies (c_args c) = false.

(** a row of the report is about a symbol of archive [y] *)
Definition symbol_in (y n : str) : Prop := exists o z, n = y ++ ":"%char :: o ++ ":"%char :: z /\ ~ In ":"%char o /\ ~ In ":"%char z.
(** the figures of an archive of this name are the sums of those of its symbols *)
Definition symbols_add_up (x : str) (a : args) (archives symbols : dict str sentry) : Prop :=
  forall y part, after_last "/"%char y x -> (forall n, part n = true <-> symbol_in y n) ->
    let rows := filter (fun kv => part (fst kv)) symbols in
    (** the difference of all bytes *)
    (forall e, In (y, e) archives -> se_diff e = zsumf (fun kv => se_diff (snd kv)) rows) /\
    (~ In y (map fst archives) -> zsumf (fun kv => se_diff (snd kv)) rows = 0) /\
    (** every figure *)
    (shows_all a ->
       (forall e c, In (y, e) archives -> col_value e c = (zsumf (fun kv => fst (col_value (snd kv) c)) rows, zsumf (fun kv => snd (col_value (snd kv) c)) rows)) /\
       (In y (map fst archives) <-> rows <> [])).
