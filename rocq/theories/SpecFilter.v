(** * Meaning of glob patterns, and of "matches anywhere" *)
From Coq Require Import Ascii String List ZArith Bool.
From Verif Require Import Base Filter.
Import ListNotations.
Open Scope list_scope.

(** language of one pattern item *)
Definition item_lang (i : glob) (s : str) : Prop :=
  match i with
  | GStar => True
  | GAny => exists c, s = [c]
  | GLit c => s = [c]
  | GSet neg r => exists c, s = [c] /\
      (if neg then (forall lo hi, In (lo, hi) r -> ~ (nat_of_ascii lo <= nat_of_ascii c <= nat_of_ascii hi)%nat)
       else exists lo hi, In (lo, hi) r /\ (nat_of_ascii lo <= nat_of_ascii c <= nat_of_ascii hi)%nat)
  end.

(** a string matches a pattern if it can be cut into pieces matching the items *)
Definition lang (g : list glob) (s : str) : Prop :=
  exists parts, s = concat parts /\ Forall2 item_lang g parts.

(** some part of the name matches *)
Definition matches_somewhere (g : list glob) (name : str) : Prop :=
  exists pre mid post, name = pre ++ mid ++ post /\ lang g mid.

Definition substring (sub s : str) : Prop := exists pre post, s = pre ++ sub ++ post.

Definition plain (p : str) : Prop := Forall (fun c => c <> "*"%char /\ c <> "?"%char /\ c <> "["%char) p.

(** ** patterns as they are written *)

(** a member of a class: a character, or the characters from one to another *)
Inductive member := One (a : ascii) | Range (a b : ascii).
Inductive piece := AnyText | AnyChar | Char (c : ascii) | Class (negated : bool) (l : list member).

Definition show_member (x : member) : str := match x with One a => [a] | Range a b => [a; "-"%char; b] end.
Definition show_piece (p : piece) : str :=
  match p with
  | AnyText => ["*"%char]
  | AnyChar => ["?"%char]
  | Char c => [c]
  | Class n l => "["%char :: (if n then ["!"%char] else []) ++ concat (map show_member l) ++ ["]"%char]
  end.
Definition show_pattern (l : list piece) : str := concat (map show_piece l).

(** what can be written that way *)
Definition fine_member (x : member) : Prop :=
  match x with
  | One a => a <> "-"%char /\ a <> "]"%char /\ a <> "!"%char
  | Range a b => a <> "-"%char /\ a <> "]"%char /\ a <> "!"%char /\ b <> "]"%char
  end.
Definition fine_piece (p : piece) : Prop :=
  match p with
  | AnyText | AnyChar => True
  | Char c => c <> "*"%char /\ c <> "?"%char /\ c <> "["%char
  | Class _ l => l <> [] /\ Forall fine_member l
  end.

(** the texts a piece stands for *)
Definition member_has (x : member) (c : ascii) : Prop :=
  match x with One a => c = a | Range a b => (nat_of_ascii a <= nat_of_ascii c <= nat_of_ascii b)%nat end.
Definition piece_text (p : piece) (s : str) : Prop :=
  match p with
  | AnyText => True
  | AnyChar => exists c, s = [c]
  | Char c => s = [c]
  | Class n l => exists c, s = [c] /\ (if n then ~ Exists (fun x => member_has x c) l else Exists (fun x => member_has x c) l)
  end.

(** a part of the name is made of texts for the pieces *)
Definition contains_pattern (l : list piece) (name : str) : Prop :=
  exists pre parts post, name = pre ++ concat parts ++ post /\ Forall2 piece_text l parts.
