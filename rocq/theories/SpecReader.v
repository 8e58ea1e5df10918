(** Specification vocabulary for reading. *)
From Coq Require Import ZArith List Bool.
From Verif Require Import Base SpecNum.
Import ListNotations.
Open Scope Z_scope.

(** An optional sign in front of a text. *)
Definition split_sign (s : list Z) : bool * list Z :=
  match s with
  | 43 :: s => (false, s)
  | 45 :: s => (true, s)
  | _ => (false, s)
  end.

(** What reading an integer from the text [s] must give: the outcome and the
    number of characters consumed. [lo] and [hi] are the least and greatest
    representable values; if [lo] is not negative a minus sign is rejected. *)
Definition read_int_spec (lo hi base : Z) (s : list Z) : outcome Z * nat :=
  let (neg, body) := split_sign s in
  match body, digit_run base body with
  | [], _ => (Err eof, O)
  | _, [] => (Err invalid_data, O)
  | _, run =>
    let v := if neg then - denotes base run else denotes base run in
    if (lo <=? v) && (v <=? hi) && negb (neg && (0 <=? lo))
    then (Ok v, (length s - length body + length run)%nat)
    else (Err out_of_range, O)
  end.

(** The value of the literal, representable or not. *)
Definition literal_value (base : Z) (s : list Z) : Z :=
  let (neg, body) := split_sign s in
  if neg then - denotes base (digit_run base body) else denotes base (digit_run base body).

(** The number of characters of the literal. *)
Definition literal_length (base : Z) (s : list Z) : nat :=
  let (neg, body) := split_sign s in (length s - length body + length (digit_run base body))%nat.

(** [rest] does not continue a number: it does not start with a digit of the
    base, nor (bases above 10) with one of ':' .. '@', see C02. *)
Definition number_ends (base : Z) (rest : list Z) : Prop :=
  match rest with
  | [] => True
  | c :: _ => is_digit base c = false /\ (base <= 10 \/ ~ (58 <= c <= 64))
  end.

(** The digits at the start of [s] are not followed by one of ':' .. '@'. *)
Definition stops_clean (base : Z) (s : list Z) : Prop :=
  match skipn (length (digit_run base s)) s with
  | c :: _ => ~ (58 <= c <= 64)
  | [] => True
  end.

(** [a] is what precedes the first occurrence of [d] in [s]. *)
Definition before_first (s d a : list Z) : Prop :=
  (exists b, s = a ++ d ++ b) /\
  forall a' b', s = a' ++ d ++ b' -> (length a <= length a')%nat.
