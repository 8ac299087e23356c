(** * Specification vocabulary: small and capital letters (code points 0..255) *)
From Coq Require Import Ascii String List.
From Verif Require Import Base.
Import ListNotations.
Open Scope list_scope.

(** A to Z, and the letters with accents *)
Definition capital (n : nat) : Prop := 65 <= n <= 90 \/ (192 <= n <= 222 /\ n <> 215).
Definition small_letter (c d : ascii) : Prop :=
  (capital (nat_of_ascii c) /\ nat_of_ascii d = nat_of_ascii c + 32) \/ (~ capital (nat_of_ascii c) /\ d = c).
(** the text with small letters *)
Definition lowered (s t : str) : Prop := Forall2 small_letter s t.
(** the text has "flash" somewhere, in letters of any size *)
Definition flash_name (t : str) : Prop := exists a f b, t = a ++ f ++ b /\ lowered f (list_ascii_of_string "flash").
