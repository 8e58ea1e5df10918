(** Arguments of type float.

    detail/format/formatter.hpp:855-859 (unified_type) and 466-470
    convert a float to double; the conversion is the one of the language ([conv.fpprom]),
    for IEEE 754 binary32 and binary64 bit patterns as below.  A signalling NaN gets
    quiet. *)
From Verif Require Import Base Conversion Bignum Dragon Specs FormatArg FloatArg.

Definition float_to_double (b : Z) : Z :=
  let s := b / 2 ^ 31 in
  let e := (b / 2 ^ 23) mod 2 ^ 8 in
  let m := b mod 2 ^ 23 in
  s * 2 ^ 63 +
  (if e =? 255 then 2047 * 2 ^ 52 + (if m =? 0 then 0 else Z.lor m (2 ^ 22) * 2 ^ 29)
   else if e =? 0 then
     if m =? 0 then 0
     else (Z.log2 m + 874) * 2 ^ 52 + (m - 2 ^ Z.log2 m) * 2 ^ (52 - Z.log2 m)
   else (e + 896) * 2 ^ 52 + m * 2 ^ 29).

(** detail/format/formatter.hpp:855-859: the stored argument of a float *)
Definition AFloat (b : Z) : carg := ADouble (float_to_double b).
