(** What floats denote (IEEE 754-2019, 3.4: one sign bit, 8 exponent bits, 23 fraction
    bits), and reading a decimal as float. *)
From Verif Require Import Base SpecFloat.

Definition is_float (b : Z) : Prop := 0 <= b < 2 ^ 32.
Definition float_negative (b : Z) : bool := Z.testbit b 31.
Definition float_exponent (b : Z) : Z := (b / 2 ^ 23) mod 2 ^ 8.
Definition float_fraction (b : Z) : Z := b mod 2 ^ 23.
Definition is_finite_float (b : Z) : Prop := is_float b /\ float_exponent b <> 255.
Definition float_infinity (b : Z) : Prop := is_float b /\ float_exponent b = 255 /\ float_fraction b = 0.
Definition float_nan (b : Z) : Prop := is_float b /\ float_exponent b = 255 /\ float_fraction b <> 0.
(** The magnitude [m * 2^e]. *)
Definition float_m (b : Z) : Z :=
  if float_exponent b =? 0 then float_fraction b else 2 ^ 23 + float_fraction b.
Definition float_e (b : Z) : Z :=
  if float_exponent b =? 0 then -149 else float_exponent b - 150.

(** Every finite float is a multiple of 2^-149, here as a multiple of 2^-1074 like
    the doubles. *)
Definition float_n (b : Z) : Z := float_m b * 2 ^ (float_e b + 1074).
Definition float_distance (d q b : Z) : Z := Z.abs (d * pos_pow 10 (- q) * 2 ^ 1074 - float_n b * pos_pow 10 q).
(** A correct conversion of the decimal [d * 10^-q] to a float results in the float:
    no other one is nearer, if another one is as near then this one is even, and the
    decimal is below the limit (2^24 - 1/2) * 2^104 of overflow. *)
Definition reads_back_float (d q b : Z) : Prop :=
  (forall b', is_finite_float b' ->
     float_distance d q b <= float_distance d q b' /\
     (float_distance d q b = float_distance d q b' -> float_n b' = float_n b \/ Z.even (float_m b) = true)) /\
  d * pos_pow 10 (- q) < (2 ^ 128 - 2 ^ 103) * pos_pow 10 q.
