(** Model of include/emio/detail/conversion.hpp. *)
From Verif Require Import Base.

(** conversion.hpp:21-23 *)
Definition isalpha (c : Z) : bool :=
  let c := schar c in
  ((65 <=? c) && (c <=? 90)) || ((97 <=? c) && (c <=? 122)).

(** conversion.hpp:25-27 *)
Definition isdigit (c : Z) : bool :=
  let c := schar c in (ch_0 <=? c) && (c <=? ch_9).

(** conversion.hpp:29-31 *)
Definition is_valid_number_base (base : Z) : bool := (2 <=? base) && (base <=? 36).

(** conversion.hpp:33-49 *)
Definition char_to_digit (c base : Z) : option Z :=
  let c := schar c in
  if c <? ch_0 then None
  else
    let res := if 97 <=? c then c - 97 + 10
               else if 65 <=? c then c - 65 + 10
               else c - ch_0 in
    if res <? base then Some res else None.

(** conversion.hpp:51-61 *)
Definition digit_to_char (digit : Z) (upper : bool) : Z :=
  if 10 <=? digit then (if upper then 65 + (digit - 10) else 97 + (digit - 10))
  else ch_0 + digit.

(** Number of loop iterations granted to the digit loops below. The integers
    have at most 64 bits and every iteration divides by at least 2, so this is
    never exhausted; [None] stands for exhaustion. *)
Definition digit_fuel : nat := 65%nat.

(** conversion.hpp:63-86 *)
Fixpoint count_digits_10 (fuel : nat) (number : Z) (count : nat) : option nat :=
  match fuel with
  | O => None
  | S fuel =>
    if number <? 10 then Some count
    else if number <? 100 then Some (count + 1)%nat
    else if number <? 1000 then Some (count + 2)%nat
    else if number <? 10000 then Some (count + 3)%nat
    else count_digits_10 fuel (number / 10000) (count + 4)%nat
  end.

(** std::bit_width (C++20): 0 for 0, else 1 + floor(log2). *)
Definition bit_width (n : Z) : Z := if n =? 0 then 0 else Z.log2 n + 1.

(** conversion.hpp:104-108 and 130-134, the generic loop
    [for (number /= base; number; number /= base) ++digit_cnt]. *)
Fixpoint count_digits_loop (fuel : nat) (base number : Z) (cnt : nat) : option nat :=
  match fuel with
  | O => None
  | S fuel =>
    if number =? 0 then Some cnt
    else count_digits_loop fuel base (number / base) (cnt + 1)%nat
  end.

(** conversion.hpp:88-110 [count_digits<Base>] for Base in 2, 8, 10, 16. *)
Definition count_digits (base number : Z) : option nat :=
  if number =? 0 then Some 1%nat
  else if base =? 10 then count_digits_10 digit_fuel number 1
  else if base =? 2 then Some (Z.to_nat (bit_width number))
  else if base =? 8 then Some (Z.to_nat ((bit_width number + 2) / 3))
  else if base =? 16 then Some (Z.to_nat ((bit_width number + 3) / 4))
  else count_digits_loop digit_fuel base (number / base) 1.

(** conversion.hpp:112-135 *)
Definition get_number_of_digits (number base : Z) : option nat :=
  if number =? 0 then Some 1%nat
  else if base =? 10 then count_digits 10 number
  else if base =? 16 then count_digits 16 number
  else if base =? 2 then count_digits 2 number
  else if base =? 8 then count_digits 8 number
  else count_digits_loop digit_fuel base (number / base) 1.

(** conversion.hpp:137-144 *)
Definition is_negative (t : ity) (v : Z) : bool := if signed t then v <? 0 else false.

(** conversion.hpp:146-158 [upcasted_int_t]: 32 bits suffice for
    [digits <= 32], 64 otherwise; signedness is kept. *)
Definition upcasted (t : ity) : ity :=
  {| bits := if bits t <=? 32 then 32 else 64; signed := signed t |}.

(** conversion.hpp:166-178: conversion to unsigned, negated modulo 2^n. *)
Definition to_absolute (t : ity) (v : Z) : Z :=
  let n := if bits t <=? 32 then 32 else 64 in
  if signed t then
    if v <? 0 then (0 - (v mod 2 ^ n)) mod 2 ^ n else v mod 2 ^ n
  else v.

(** conversion.hpp:191-198, the 200 character table, at [2 * value]. *)
Definition digits2_table : list Z :=
  str ("0001020304050607080910111213141516171819" ++
       "2021222324252627282930313233343536373839" ++
       "4041424344454647484950515253545556575859" ++
       "6061626364656667686970717273747576777879" ++
       "8081828384858687888990919293949596979899")%string.
Definition digits2 (v : Z) : list Z := firstn 2 (skipn (Z.to_nat (v * 2)) digits2_table).

(** A [char*] into a write area is an index into its cells. Moving it below the
    start of the area is undefined: [None]. *)
Definition back (next k : nat) : option nat :=
  if (k <=? next)%nat then Some (next - k)%nat else None.

(** conversion.hpp:211-227 (copy2 included: two bytes from [digits2]). *)
Fixpoint write_decimal (fuel : nat) (n : Z) (cells : list Z) (next : nat)
  : option (list Z * nat) :=
  match fuel with
  | O => None
  | S fuel =>
    if 100 <=? n then
      odo next <- back next 2 ;;
      odo cells <- store_list cells next (digits2 (n mod 100)) ;;
      write_decimal fuel (n / 100) cells next
    else if n <? 10 then
      odo next <- back next 1 ;;
      odo cells <- store cells next (ch_0 + n) ;;
      Some (cells, next)
    else
      odo next <- back next 2 ;;
      odo cells <- store_list cells next (digits2 n) ;;
      Some (cells, next)
  end.

Definition hex_digits (upper : bool) : list Z :=
  if upper then str "0123456789ABCDEF" else str "0123456789abcdef".

(** conversion.hpp:229-244 [write_uint<BaseBits>]. *)
Fixpoint write_uint (fuel : nat) (base_bits n : Z) (upper : bool) (cells : list Z) (next : nat)
  : option (list Z * nat) :=
  match fuel with
  | O => None
  | S fuel =>
    let digit := Z.land n (Z.shiftl 1 base_bits - 1) in
    let c := if base_bits <? 4 then ch_0 + digit else nth (Z.to_nat digit) (hex_digits upper) 0 in
    odo next <- back next 1 ;;
    odo cells <- store cells next c ;;
    let n := Z.shiftr n base_bits in
    if n =? 0 then Some (cells, next)
    else write_uint fuel base_bits n upper cells next
  end.

(** conversion.hpp:265-270, the generic loop. *)
Fixpoint write_number_loop (fuel : nat) (n base : Z) (upper : bool) (cells : list Z) (next : nat)
  : option (list Z * nat) :=
  match fuel with
  | O => None
  | S fuel =>
    if n =? 0 then Some (cells, next)
    else
      odo next <- back next 1 ;;
      odo cells <- store cells next (digit_to_char (n mod base) upper) ;;
      write_number_loop fuel (n / base) base upper cells next
  end.

(** conversion.hpp:246-271 *)
Definition write_number (n base : Z) (upper : bool) (cells : list Z) (next : nat)
  : option (list Z * nat) :=
  if base =? 10 then write_decimal digit_fuel n cells next
  else if base =? 16 then write_uint digit_fuel 4 n upper cells next
  else if base =? 2 then write_uint digit_fuel 1 n false cells next
  else if base =? 8 then write_uint digit_fuel 3 n false cells next
  else if n =? 0 then
    odo next <- back next 1 ;;
    odo cells <- store cells next ch_0 ;;
    Some (cells, next)
  else write_number_loop digit_fuel n base upper cells next.
