(** Specification vocabulary: the characters that the library takes for digits.

    The characters ':' to '@', which stand between the digits and the letters,
    are taken for the digits a to g. *)
From Coq Require Import ZArith List Bool.
From Verif Require Import SpecNum.
Import ListNotations.
Open Scope Z_scope.

(** The digit that a character is taken for. *)
Definition as_digit (c : Z) : Z := if (58 <=? c) && (c <=? 64) then c + 39 else c.
Definition taken_digit (base c : Z) : bool := is_digit base (as_digit c).
(** The number that such digits are taken for. *)
Definition taken_number (base : Z) (ds : list Z) : Z := denotes base (map as_digit ds).
(** Characters which are taken for what they are. *)
Definition odd_char (c : Z) : Prop := 58 <= c <= 64.
