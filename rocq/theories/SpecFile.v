(** * Specification vocabulary: the JSON reports in the output file *)
From Coq Require Import Ascii String List ZArith Bool.
From Verif Require Import Base MemMap Filter Pipeline PyStr MapFile SpecMap Deps Table Formats ElfRead SpecElf Project SpecProject SpecEnd JsonText Main SpecMain SpecCommand SpecReport SpecText SpecLines.
Import ListNotations.
Open Scope list_scope.
Open Scope Z_scope.

(** no line is longer than the console is wide (main.py:93) *)
Definition narrow (s : str) : Prop := exists ls, text_lines s ls /\ Forall (fun l => Z.of_nat (length l) <= 10000) ls.
(** the console ends a JSON text with a new line; it shows what the markup stands for and does
    not wrap lines that fit *)
Definition console_shows (normalize : str -> str) (render : console -> list piece -> str) : Prop :=
  forall co p t s, co_quiet co = false -> json_text p = Some t -> shown_as normalize t s -> narrow s -> render co [p] = s ++ [newline].
(** the encoding of the file keeps ASCII characters *)
Definition keeps_ascii (encode : str -> str) : Prop := forall t, Forall printable t -> encode t = t.

(** no name of an output section, an archive, an object file or a symbol has an opening bracket *)
Definition plain_names (k : account) : Prop :=
  Forall (fun o => counted (ac_im k) o -> no_bracket (pr_name o) /\
    Forall (fun i => it_size i <> 0 -> no_bracket (it_archive i) /\ no_bracket (it_object i) /\ no_bracket (it_name i)) (pr_items o)) (ac_l k).
Definition plain_project (k : account) (r : option account) : Prop :=
  plain_names k /\ match r with Some k' => plain_names k' | None => True end.

(** the file has a JSON text that says what is reported *)
Definition file_says (fn : str) (s : state) (p : piece) : Prop :=
  exists t j, json_text p = Some t /\ read_json t = Some j /\ says j p /\ (narrow t -> dget fn (s_files s) = Some (t ++ [newline])).
