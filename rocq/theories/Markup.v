(** * Model of the console markup of rich (rich/markup.py), as far as the text is concerned.

    Everything printed by the program is text with markup: [log.print] and the cells of
    rich's tables and trees read [[red]] as the beginning of a style and [[/red]] as its end.
    The package is not part of the repository; this is its documented behaviour
    (https://rich.readthedocs.io/en/stable/markup.html), following [_parse] and [render].
    Simplifications: styles themselves are not modelled, [normalize] stands for
    Style.normalize; emoji codes ([:name:]) are left alone; actions ([@click=...]) are like
    other tags. *)
From Coq Require Import Ascii String List ZArith Bool.
From Verif Require Import Base MemMap Pipeline PyStr.
Import ListNotations.
Open Scope list_scope.

Definition lbracket : ascii := "["%char.
Definition rbracket : ascii := "]"%char.
Definition backslash : ascii := "092"%char.

(** ** The tags in a text: the regular expression ((\\STAR)\[([a-z#/@][^[]STAR?)]) with STAR for
    the asterisk *)

(** [[a-z#/@]] *)
Definition tag_start (c : ascii) : bool :=
  let n := nat_of_ascii c in
  ((97 <=? n) && (n <=? 122))%nat || mem c ["#"%char; "/"%char; "@"%char].
(** the backslashes at the beginning *)
Fixpoint backslashes (s : str) : nat * str :=
  match s with
  | c :: s' => if c =?= backslash then let (k, r) := backslashes s' in (S k, r) else (O, s)
  | [] => (O, s)
  end.
(** up to the next closing bracket, without opening ones *)
Fixpoint tag_text (s : str) : option str :=
  match s with
  | [] => None
  | c :: s' =>
    if c =?= rbracket then Some []
    else if c =?= lbracket then None
    else match tag_text s' with Some t => Some (c :: t) | None => None end
  end.
(** the number of backslashes and the text of the tag, if there is one here *)
Definition tag_here (s : str) : option (nat * str) :=
  let (k, r) := backslashes s in
  match r with
  | b :: ((c :: _) as r') =>
    if (b =?= lbracket) && tag_start c then match tag_text r' with Some t => Some (k, t) | None => None end else None
  | _ => None
  end.

(** ** _parse *)
Inductive token := Txt (s : str) | Tag (s : str).
Definition flush (acc : str) : list token := match acc with [] => [] | _ => [Txt acc] end.
(** [skip] characters belong to the last tag, [acc] is the text since then *)
Fixpoint parse (skip : nat) (acc s : str) : list token :=
  match s with
  | [] => flush acc
  | c :: s' =>
    match skip with
    | S n => parse n acc s'
    | O =>
      match tag_here s with
      | None => parse O (acc ++ [c]) s'
      | Some (k, t) =>
        flush acc ++
        flush (repeat backslash (Nat.div2 k)) ++
        (if Nat.odd k then Txt (lbracket :: t ++ [rbracket]) else Tag t) :: parse (k + length t + 1) [] s'
      end
    end
  end.

(** ** render *)
Section Render.
Variable normalize : str -> str.

(** [text.replace('\\[', '[')] *)
Fixpoint unescape (s : str) : str :=
  match s with
  | c :: ((d :: s'') as s') => if (c =?= backslash) && (d =?= lbracket) then d :: unescape s'' else c :: unescape s'
  | _ => s
  end.
(** [tag.partition('=')[0]] *)
Fixpoint before_equals (s : str) : str :=
  match s with [] => [] | c :: s' => if c =?= "="%char then [] else c :: before_equals s' end.
(** pop_style: the innermost open tag of this name *)
Fixpoint pop_style (n : str) (stack : list str) : option (list str) :=
  match stack with
  | [] => None
  | x :: r => if x =?= n then Some r else match pop_style n r with Some r' => Some (x :: r') | None => None end
  end.
(** the tags open after a tag; [None] for a MarkupError *)
Definition do_tag (t : str) (stack : list str) : option (list str) :=
  match before_equals t with
  | "/"%char :: r =>
    match strip r with
    | [] => match stack with [] => None | _ :: st => Some st end
    | n => pop_style (normalize n) stack
    end
  | n => Some (normalize n :: stack)
  end.
(** the plain text, and the tags that are open at its end *)
Fixpoint render (stack : list str) (l : list token) : option (str * list str) :=
  match l with
  | [] => Some ([], stack)
  | Txt s :: l' => match render stack l' with Some (t, st) => Some (unescape s ++ t, st) | None => None end
  | Tag t :: l' => match do_tag t stack with Some st => render st l' | None => None end
  end.

Definition rendered (s : str) : option (str * list str) := render [] (parse O [] s).
(** the text that is shown; [None] for a MarkupError *)
Definition plain (s : str) : option str := option_map fst (rendered s).
End Render.
