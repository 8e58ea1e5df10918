(** What doubles and digit strings denote, and rounding to even. *)
From Verif Require Import Base.

(** The number written with the decimal digits [ds] (characters). *)
Definition digits_value (ds : list Z) : Z := fold_left (fun n c => 10 * n + (c - 48)) ds 0.
Definition all_digits (ds : list Z) : Prop := Forall (fun c => 48 <= c <= 57) ds.

(** A finite double by its bits: sign, and magnitude [m * 2^e]; IEEE 754-2019, 3.4:
    one sign bit, 11 exponent bits, 52 fraction bits. *)
Definition bits_negative (bits : Z) : bool := Z.testbit bits 63.
Definition bits_exponent (bits : Z) : Z := (bits / 2 ^ 52) mod 2 ^ 11.
Definition bits_fraction (bits : Z) : Z := bits mod 2 ^ 52.
Definition is_double (bits : Z) : Prop := 0 <= bits < 2 ^ 64.
Definition is_finite_double (bits : Z) : Prop := is_double bits /\ bits_exponent bits <> 2047.
Definition is_infinity (bits : Z) : Prop := is_double bits /\ bits_exponent bits = 2047 /\ bits_fraction bits = 0.
Definition is_nan (bits : Z) : Prop := is_double bits /\ bits_exponent bits = 2047 /\ bits_fraction bits <> 0.
Definition double_m (bits : Z) : Z :=
  if bits_exponent bits =? 0 then bits_fraction bits else 2 ^ 52 + bits_fraction bits.
Definition double_e (bits : Z) : Z :=
  if bits_exponent bits =? 0 then -1074 else bits_exponent bits - 1075.

(** Comparison of [m * 2^e * 10^q] with [n], for numbers [m], [n] and any
    exponents: everything multiplied out. *)
Definition pos_pow (b e : Z) : Z := b ^ Z.max e 0.
(** [a * 2^e * 10^q] as a fraction [num / den]. *)
Definition scaled_num (a e q : Z) : Z := a * pos_pow 2 e * pos_pow 10 q.
Definition scaled_den (e q : Z) : Z := pos_pow 2 (- e) * pos_pow 10 (- q).

(** The integer nearest to [a / b] ([b > 0]), the even one of two. *)
Definition round_half_even (a b : Z) : Z :=
  let q := a / b in
  match 2 * (a mod b) ?= b with
  | Lt => q
  | Gt => q + 1
  | Eq => if Z.even q then q else q + 1
  end.

(** [x] between [lo] and [hi], which belong to the interval if [incl]. *)
Definition inside (incl : bool) (lo x hi : Z) : Prop := lo < x < hi \/ (incl = true /\ lo <= x <= hi).

(** The decimal [d * 10^-q] lies between [lo * 2^e] and [hi * 2^e]. *)
Definition decimal_inside (incl : bool) (lo hi e d q : Z) : Prop :=
  inside incl (scaled_num lo e q) (d * scaled_den e q) (scaled_num hi e q).

(** Every finite double is a multiple of 2^-1074. *)
Definition double_n (bits : Z) : Z := double_m bits * 2 ^ (double_e bits + 1074).
(** The distance between [d * 10^-q] and the magnitude of a double, multiplied by
    2^1074 * 10^(max q 0). *)
Definition distance (d q bits : Z) : Z := Z.abs (d * pos_pow 10 (- q) * 2 ^ 1074 - double_n bits * pos_pow 10 q).
(** A correct conversion of the decimal [d * 10^-q] to a double, rounding to the
    nearest and in case of a tie to the one with the even mantissa, results in the
    double: no other one is nearer, if another one is as near then this one is
    even, and the decimal is below the limit (2^53 - 1/2) * 2^971 of overflow. *)
Definition reads_back (d q bits : Z) : Prop :=
  (forall bits', is_finite_double bits' ->
     distance d q bits <= distance d q bits' /\
     (distance d q bits = distance d q bits' -> double_n bits' = double_n bits \/ Z.even (double_m bits) = true)) /\
  d * pos_pow 10 (- q) < (2 ^ 1024 - 2 ^ 970) * pos_pow 10 q.

(** The decimal exponent: 10^(k-1) <= m * 2^e < 10^k. *)
Definition magnitude (m e k : Z) : Prop :=
  scaled_den e (1 - k) <= scaled_num m e (1 - k) < 10 * scaled_den e (1 - k).
