(** * Specification vocabulary: the CSV reports in the output file *)
From Coq Require Import Ascii String List ZArith Bool.
From Verif Require Import Base MemMap Filter Pipeline PyStr MapFile SpecMap Deps Table SpecTable Formats Text Percent ElfRead SpecElf Project SpecProject SpecEnd Main SpecMain SpecCommand SpecReport SpecText SpecLines SpecFile.
Import ListNotations.
Open Scope list_scope.
Open Scope Z_scope.

(** a line that the console does not wrap (main.py:93) *)
Definition fits_line (l : str) : Prop := unbroken_text l /\ Z.of_nat (length l) <= 10000.
Definition lines_text (ls : list str) : str := concat (map (fun l => l ++ [newline]) ls).
(** the table with colours for which the model has the second one *)
Inductive handed : table -> table -> Prop :=
| handed_summary : forall m a t' t, color_summary python_floats m a = TOk t' -> get_summary_table (plain_pct python_floats) m a = TOk t -> handed t' t
| handed_entries : forall a first d t' t, color_entries a first d = TOk t' -> entries_table a first d = TOk t -> handed t' t.
(** the console shows the lines of a CSV report as what their markup stands for, each with a
    new line *)
Definition console_lines (normalize : str -> str) (render : console -> list piece -> str) : Prop :=
  forall co t' t, co_quiet co = false -> handed t' t -> Forall2 (shown_as normalize) (csv_lines t') (csv_lines t) -> Forall fits_line (csv_lines t) ->
    render co (map PLine (csv_lines t)) = lines_text (csv_lines t).

(** no name of an output section, an archive, an object file or a symbol has a double quote *)
Definition no_quote (s : str) : Prop := ~ In """"%char s.
Definition quoteless (k : account) : Prop :=
  Forall (fun o => counted (ac_im k) o -> no_quote (pr_name o) /\
    Forall (fun i => it_size i <> 0 -> no_quote (it_archive i) /\ no_quote (it_object i) /\ no_quote (it_name i)) (pr_items o)) (ac_l k).
Definition quoteless_project (k : account) (r : option account) : Prop :=
  quoteless k /\ match r with Some k' => quoteless k' | None => True end.

(** the texts of a row fit into a line, with quotes and commas *)
Definition fits_row (r : list str) : Prop := Forall unbroken_text r /\ zsum (map (fun c => Z.of_nat (length c) + 3) r) <= 10001.
(** from the text in the file a CSV reader reads the titles and the cells of the table, without
    white space around them *)
Definition csv_file (encode : str -> str) (fn : str) (s : state) (tb : table) : Prop :=
  let records := tb_headers tb :: map (map strip) (tb_rows tb) in
  Forall fits_row records -> exists text, dget fn (s_files s) = Some (encode text) /\ csv_records text = records.
