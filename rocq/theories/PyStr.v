(** * PyStr: the Python string operations the map file parser uses.

    Code points are 0..255 (see Base). [int(s, 0)] has no limit on the number of
    decimal digits (CPython >= 3.11 raises ValueError above 4300 digits). *)
From Coq Require Import Ascii String List ZArith Bool.
From Verif Require Import Base MemMap.
Import ListNotations.
Open Scope list_scope.
Open Scope Z_scope.

(** [str.isspace] on one code point 0..255; the same set separates words in
    [str.split()], is removed by [str.strip()] and is the complement of [\S] in [re] *)
Definition is_space (c : ascii) : bool :=
  let n := nat_of_ascii c in
  ((9 <=? n)%nat && (n <=? 13)%nat) || ((28 <=? n)%nat && (n <=? 32)%nat) || (n =? 133)%nat || (n =? 160)%nat.

(** [str.lstrip()] *)
Fixpoint lstrip (s : str) : str :=
  match s with
  | [] => []
  | c :: s' => if is_space c then lstrip s' else s
  end.

(** [str.strip()] *)
Definition strip (s : str) : str := rev (lstrip (rev (lstrip s))).

(** longest prefix without white space, and the rest *)
Fixpoint span_word (s : str) : str * str :=
  match s with
  | [] => ([], [])
  | c :: s' => if is_space c then ([], s) else let (w, r) := span_word s' in (c :: w, r)
  end.

(** [str.split(maxsplit=k)]: after [k] words the rest, without leading white space, is
    one piece *)
Fixpoint split_max (k : nat) (s : str) : list str :=
  match lstrip s with
  | [] => []
  | s1 => match k with
          | O => [s1]
          | S k' => let (w, r) := span_word s1 in w :: split_max k' r
          end
  end.

(** [str.split()]: a string has at most as many words as code points *)
Definition split (s : str) : list str := split_max (List.length s) s.

(** [str.splitlines()] on code points 0..255; universal newlines of [open] do not
    change the result *)
Definition is_linebreak (c : ascii) : bool :=
  let n := nat_of_ascii c in
  ((10 <=? n)%nat && (n <=? 13)%nat) || ((28 <=? n)%nat && (n <=? 30)%nat) || (n =? 133)%nat.
Fixpoint splitlines_go (s cur : str) : list str :=
  match s with
  | [] => match cur with [] => [] | _ => [rev cur] end
  | c :: s' =>
    if is_linebreak c then
      rev cur :: match c, s' with
                 | "013"%char, "010"%char :: s'' => splitlines_go s'' []
                 | _, _ => splitlines_go s' []
                 end
    else splitlines_go s' (c :: cur)
  end.
Definition splitlines (s : str) : list str := splitlines_go s [].

(** value of a digit 0-9 a-z A-Z *)
Definition digit_val (c : ascii) : option Z :=
  let n := Z.of_nat (nat_of_ascii c) in
  if (48 <=? n) && (n <=? 57) then Some (n - 48)
  else if (97 <=? n) && (n <=? 122) then Some (n - 87)
  else if (65 <=? n) && (n <=? 90) then Some (n - 55)
  else None.

(** digits in a base, with single underscores between them; [us] means that the
    previous character was not a digit *)
Fixpoint int_digits (base : Z) (s : str) (acc : Z) (us : bool) : option Z :=
  match s with
  | [] => if us then None else Some acc
  | c :: s' =>
    if (c =?= "_"%char) then (if us then None else int_digits base s' acc true)
    else match digit_val c with
         | Some d => if d <? base then int_digits base s' (acc * base + d) false else None
         | None => None
         end
  end.

(** digits after [0x], [0o], [0b]: one underscore is allowed first *)
Definition int_prefixed (base : Z) (s : str) : option Z :=
  match s with
  | "_"%char :: s' => int_digits base s' 0 true
  | _ => int_digits base s 0 true
  end.

Definition int_unsigned (s : str) : option Z :=
  match s with
  | "0"%char :: "x"%char :: r | "0"%char :: "X"%char :: r => int_prefixed 16 r
  | "0"%char :: "o"%char :: r | "0"%char :: "O"%char :: r => int_prefixed 8 r
  | "0"%char :: "b"%char :: r | "0"%char :: "B"%char :: r => int_prefixed 2 r
  | "0"%char :: _ =>
    (* a decimal with a leading zero must be zero *)
    match int_digits 10 s 0 true with
    | Some 0 => Some 0
    | _ => None
    end
  | _ => int_digits 10 s 0 true
  end.

(** [int(s, 0)]; the callers pass words, so there is no surrounding white space.
    [Err ValueError] for a string that is no integer literal *)
Definition py_int (s : str) : res Z :=
  let r := match s with
           | "-"%char :: s' => option_map Z.opp (int_unsigned s')
           | "+"%char :: s' => int_unsigned s'
           | _ => int_unsigned s
           end in
  match r with Some z => Ok z | None => Err ValueError end.

(** [s.find(c)] for one character, as the parts before and after the first occurrence *)
Fixpoint cut_at (c : ascii) (s : str) : option (str * str) :=
  match s with
  | [] => None
  | d :: s' =>
    if d =?= c then Some ([], s')
    else match cut_at c s' with Some (a, b) => Some (d :: a, b) | None => None end
  end.

(** the part of [s] after the prefix [p] *)
Fixpoint strip_prefix (p s : str) : option str :=
  match p, s with
  | [], _ => Some s
  | c :: p', d :: s' => if c =?= d then strip_prefix p' s' else None
  | _ :: _, [] => None
  end.

(** result of [f] at the first position of [s] where it succeeds ([re.search]) *)
Fixpoint first_match {A} (f : str -> option A) (s : str) : option A :=
  match f s with
  | Some a => Some a
  | None => match s with [] => None | _ :: s' => first_match f s' end
  end.

Example split_ex : split (list_ascii_of_string "  .text  0x10 0x20 ") = map list_ascii_of_string [".text"; "0x10"; "0x20"]%string.
Proof. reflexivity. Qed.
Example split_max_ex : split_max 2 (list_ascii_of_string "a b c d ") = map list_ascii_of_string ["a"; "b"; "c d "]%string.
Proof. reflexivity. Qed.
Example int_ex : map (fun s => py_int (list_ascii_of_string s)) ["0x1f"; "-12"; "00"; "012"; "1_0"; "1__0"; "0x"; "0x_1"; ""; "-"]%string =
  [Ok 31; Ok (-12); Ok 0; Err ValueError; Ok 10; Err ValueError; Err ValueError; Ok 1; Err ValueError; Err ValueError].
Proof. reflexivity. Qed.
