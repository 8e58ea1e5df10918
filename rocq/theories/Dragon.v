(** Model of include/emio/detail/format/decode.hpp and
    include/emio/detail/format/dragon.hpp.  A double is its 64 bit pattern. *)
From Verif Require Import Base Conversion Bignum.

(** decode.hpp:20-26 *)
Record finite_result := mk_finite { f_mant : Z; f_minus : Z; f_plus : Z; f_exp : Z; f_inclusive : bool }.

(** decode.hpp:28 *)
Inductive category := cat_zero | cat_finite | cat_infinity | cat_nan.

(** decode.hpp:30-34 *)
Record decode_result := mk_decode { d_negative : bool; d_category : category; d_finite : finite_result }.

(** decode.hpp:36-74.  [value == 0] holds for the two zeros. *)
Definition decode (value : Z) : decode_result :=
  let negative := negb (value / 2 ^ 63 =? 0) in
  if (value =? 0) || (value =? 2 ^ 63) then mk_decode negative cat_zero (mk_finite 0 0 0 0 false)
  else
    let exp := wrap i16 (((value / 2 ^ 52) mod 2 ^ 11 - (1023 + 52)) mod 2 ^ 64) in
    let frac := value mod 2 ^ 52 in
    let mant := if exp =? -1075 then (frac * 2) mod 2 ^ 64 else frac in
    let inclusive := mant mod 2 =? 0 in
    if exp =? 972 then
      mk_decode negative (if mant =? 0 then cat_infinity else cat_nan) (mk_finite mant 0 0 exp inclusive)
    else if negb (exp =? -1075) then
      let mant := Z.lor mant (2 ^ 52) in
      if mant =? 2 ^ 52 then
        mk_decode negative cat_finite (mk_finite ((mant * 4) mod 2 ^ 64) 1 2 (wrap i16 (exp - 2)) inclusive)
      else
        mk_decode negative cat_finite (mk_finite ((mant * 2) mod 2 ^ 64) 1 1 (wrap i16 (exp - 1)) inclusive)
    else mk_decode negative cat_finite (mk_finite mant 1 1 exp inclusive).

(** dragon.hpp:27-33 *)
Definition estimate_scaling_factor (mant exp : Z) : Z :=
  let nbits := bit_width ((mant - 1) mod 2 ^ 64) in
  wrap i16 (((nbits + exp) * 1292913986) / 2 ^ 32).

(** dragon.hpp:35-58: the digits and the additional one.  [nines] is the number
    of nines at the end. *)
Fixpoint leading_nines (d : list Z) : nat :=
  match d with
  | c :: d => if c =? 57 then S (leading_nines d) else O
  | [] => O
  end.
Definition round_up (d : list Z) : list Z * option Z :=
  let nines := leading_nines (rev d) in
  if (nines <? length d)%nat then
    let i := (length d - nines - 1)%nat in
    (firstn i d ++ (nth i d 0 + 1) :: repeat 48 nines, None)
  else
    match d with
    | _ :: d => (49 :: repeat 48 (length d), Some 48)
    | [] => ([], Some 49)
    end.

(** dragon.hpp:65 *)
Inductive exact_mode := mode_significand | mode_decimal_point.

(** [a >= b] and [a > b] on bignums *)
Definition bn_ge (a b : bignum) : outcome bool :=
  do c <- bn_compare a b ;; Ok (match c with Lt => false | _ => true end).

(** dragon.hpp:151-167 and 312-328: one digit and the rest *)
Definition digit_step (s : bignum) (weight : Z) (md : bignum * Z) : outcome (bignum * Z) :=
  let (mant, d) := md in
  do ge <- bn_ge mant s ;;
  if ge : bool then do mant <- bn_sub mant s ;; Ok (mant, d + weight) else Ok (mant, d).
Definition gen_digit (scale scale2 scale4 scale8 mant : bignum) : outcome (bignum * Z) :=
  do md <- digit_step scale8 8 (mant, 0) ;;
  do md <- digit_step scale4 4 md ;;
  do md <- digit_step scale2 2 md ;;
  digit_step scale 1 md.

(** dragon.hpp:141-172: the loop; [done] are the digits stored so far, [n] more
    are to come.  The second component is [None] when the digits ended early
    with zeros. *)
Fixpoint exact_loop (n : nat) (scale scale2 scale4 scale8 mant : bignum) (done : list Z)
  : outcome (list Z * option bignum) :=
  match n with
  | O => Ok (done, Some mant)
  | S n' =>
    if bn_is_zero mant then Ok (done ++ repeat 48 n, None)
    else
      do md <- gen_digit scale scale2 scale4 scale8 mant ;;
      let (mant, d) := md : bignum * Z in
      do mant <- bn_mul_small mant 10 ;;
      exact_loop n' scale scale2 scale4 scale8 mant (done ++ [(48 + d) mod 256])
  end.

(** dragon.hpp:80-98 and 245-263: exponents of 2 and 5 of the scale and of the
    mantissa *)
Definition scale_exponents (exp k : Z) : nat * nat * nat * nat :=
  let s2 := if exp <? 0 then Z.to_nat (- exp) else 0%nat in
  let m2 := if exp <? 0 then 0%nat else Z.to_nat exp in
  if 0 <=? k then ((s2 + Z.to_nat k)%nat, Z.to_nat k, m2, 0%nat)
  else (s2, 0%nat, (m2 + Z.to_nat (- k))%nat, Z.to_nat (- k)).

Definition scaled (b : bignum) (e5 e2 : nat) : outcome bignum :=
  do b <- bn_mul_pow5 b e5 ;; bn_mul_pow2 b e2.

(** dragon.hpp:67-205.  The digits are stored in an area of the memory buffer
    [buf] of formatter.hpp:461, which always grants the request (C09); it is
    modelled by the list of its characters.  A negative number of significand
    digits would be a request of almost 2^64 characters: [Abort]. *)
Definition format_exact (dec : finite_result) (mode : exact_mode) (number_of_digits : Z)
  : outcome (list Z * Z) :=
  let k := estimate_scaling_factor (f_mant dec) (f_exp dec) in
  let '(s2, s5, m2, m5) := scale_exponents (f_exp dec) k in
  do scale <- scaled (bn_of_u32 1) s5 s2 ;;
  do mant <- scaled (bn_of_u64 (f_mant dec)) m5 m2 ;;
  let '(len, extra_len) :=
    match mode with
    | mode_significand => (number_of_digits, 0)
    | mode_decimal_point => if 0 <=? k + number_of_digits then (k + number_of_digits, 1) else (0, 0)
    end in
  do ge <- bn_ge mant scale ;;
  do kml <- (if ge : bool then Ok (wrap i16 (k + 1), mant, len + extra_len)
             else do mant <- bn_mul_small mant 10 ;; Ok (k, mant, len)) ;;
  let '(k, mant, len) := kml : Z * bignum * Z in
  if len <? 0 then Abort
  else
  do dm <- (if 0 <? len then
              do scale2 <- bn_mul_pow2 scale 1 ;;
              do scale4 <- bn_mul_pow2 scale 2 ;;
              do scale8 <- bn_mul_pow2 scale 3 ;;
              exact_loop (Z.to_nat len) scale scale2 scale4 scale8 mant []
            else Ok ([], Some mant)) ;;
  match dm : list Z * option bignum with
  | (dst, None) => Ok (dst, k)
  | (dst, Some mant) =>
    do scale5 <- bn_mul_small scale 5 ;;
    do order <- bn_compare mant scale5 ;;
    if match order with
       | Gt => true
       | Eq => (0 <? len) && (nth (Z.to_nat len - 1) dst 0 mod 2 =? 1)
       | Lt => false
       end
    then
      match round_up dst with
      | (dst, None) => Ok (dst, k)
      | (dst, Some c) =>
        let k := wrap i16 (k + 1) in
        if (- number_of_digits <? k) && (len =? 0) then Ok ([c], k) else Ok (dst, k)
      end
    else Ok (dst, k)
  end.

(** dragon.hpp:225-230: comparison with or without equality *)
Definition rounding (inclusive : bool) (c : comparison) : bool :=
  match c with Lt => true | Eq => inclusive | Gt => false end.

(** dragon.hpp:303-378: the loop.  [room] is the rest of the area of
    max_digits10 = 17 characters; a store behind it is undefined. *)
Fixpoint shortest_loop (room : nat) (inclusive : bool) (scale scale2 scale4 scale8 mant minus plus : bignum)
         (done : list Z) : outcome (list Z * bool * bool * bignum) :=
  match room with
  | O => Undef
  | S room =>
    do md <- gen_digit scale scale2 scale4 scale8 mant ;;
    let (mant, d) := md : bignum * Z in
    let done := done ++ [(48 + d) mod 256] in
    do cd <- bn_compare mant minus ;;
    do sum <- bn_add mant plus ;;
    do cu <- bn_compare scale sum ;;
    let down := rounding inclusive cd in
    let up := rounding inclusive cu in
    if down || up then Ok (done, down, up, mant)
    else
      do mant <- bn_mul_small mant 10 ;;
      do minus <- bn_mul_small minus 10 ;;
      do plus <- bn_mul_small plus 10 ;;
      shortest_loop room inclusive scale scale2 scale4 scale8 mant minus plus done
  end.

Definition max_digits10 : nat := 17.

(** dragon.hpp:207-395 *)
Definition format_shortest (dec : finite_result) : outcome (list Z * Z) :=
  let k := estimate_scaling_factor ((f_mant dec + f_plus dec) mod 2 ^ 64) (f_exp dec) in
  let '(s2, s5, m2, m5) := scale_exponents (f_exp dec) k in
  do scale <- scaled (bn_of_u32 1) s5 s2 ;;
  do mant <- scaled (bn_of_u64 (f_mant dec)) m5 m2 ;;
  do minus <- scaled (bn_of_u64 (f_minus dec)) m5 m2 ;;
  do plus <- scaled (bn_of_u64 (f_plus dec)) m5 m2 ;;
  do sum <- bn_add mant plus ;;
  do c <- bn_compare scale sum ;;
  do km <- (if rounding (f_inclusive dec) c then Ok (wrap i16 (k + 1), mant, minus, plus)
            else
              do mant <- bn_mul_small mant 10 ;;
              do minus <- bn_mul_small minus 10 ;;
              do plus <- bn_mul_small plus 10 ;;
              Ok (k, mant, minus, plus)) ;;
  let '(k, mant, minus, plus) := km : Z * bignum * bignum * bignum in
  do scale2 <- bn_mul_pow2 scale 1 ;;
  do scale4 <- bn_mul_pow2 scale 2 ;;
  do scale8 <- bn_mul_pow2 scale 3 ;;
  do r <- shortest_loop max_digits10 (f_inclusive dec) scale scale2 scale4 scale8 mant minus plus [] ;;
  let '(dst, down, up, mant) := r : list Z * bool * bool * bignum in
  do roundup <- (if up then
                   if negb down then Ok true
                   else do mant <- bn_mul_pow2 mant 1 ;; bn_ge mant scale
                 else Ok false) ;;
  if roundup : bool then
    match round_up dst with
    | (dst, None) => Ok (dst, k)
    | (dst, Some c) =>
      if (length dst <? max_digits10)%nat then Ok (dst ++ [c], wrap i16 (k + 1)) else Undef
    end
  else Ok (dst, k).
