(** Specification vocabulary for numerals: what a digit is, what value a digit
    string denotes, and what the canonical numeral of a number is. Independent
    of the model of the code. *)
From Coq Require Import ZArith List Bool.
Import ListNotations.
Open Scope Z_scope.

(** The value of a character as a digit: 0-9, a-z, A-Z. *)
Definition digit_value (c : Z) : option Z :=
  if (48 <=? c) && (c <=? 57) then Some (c - 48)
  else if (97 <=? c) && (c <=? 122) then Some (c - 97 + 10)
  else if (65 <=? c) && (c <=? 90) then Some (c - 65 + 10)
  else None.

(** [c] is a digit of the base. *)
Definition is_digit (base c : Z) : bool :=
  match digit_value c with Some v => v <? base | None => false end.

(** The number denoted by a digit string, most significant digit first. *)
Definition denotes (base : Z) (text : list Z) : Z :=
  fold_left (fun acc c => acc * base + match digit_value c with Some v => v | None => 0 end) text 0.

(** Letters of the wrong case do not occur. *)
Definition right_case (upper : bool) (c : Z) : bool :=
  if upper then negb ((97 <=? c) && (c <=? 122)) else negb ((65 <=? c) && (c <=? 90)).

(** [text] is the canonical numeral of [n >= 0]: digits only, in the given case,
    denoting [n], not empty and without leading zero unless it is "0". *)
Definition canonical_numeral (base : Z) (upper : bool) (n : Z) (text : list Z) : Prop :=
  Forall (fun c => is_digit base c = true /\ right_case upper c = true) text /\
  denotes base text = n /\
  (text = [48] \/ exists c rest, text = c :: rest /\ c <> 48).

(** The longest prefix of [text] consisting of digits of the base. *)
Fixpoint digit_run (base : Z) (text : list Z) : list Z :=
  match text with
  | c :: text => if is_digit base c then c :: digit_run base text else []
  | [] => []
  end.
