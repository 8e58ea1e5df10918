(** Model of include/emio/detail/bignum.hpp.  An access outside of the array of
    blocks is undefined. *)
From Verif Require Import Base.

Definition block : Z := 2 ^ 32.

(** bignum.hpp:30-36 *)
Definition carrying_add (a b : Z) (carry : bool) : Z * bool :=
  let v1 := (a + b) mod block in
  let carry1 := v1 <? a in
  let v2 := (v1 + if carry then 1 else 0) mod block in
  let carry2 := v2 <? v1 in
  (v2, carry1 || carry2).

(** bignum.hpp:46-52 *)
Definition borrowing_sub (a b : Z) (borrow : bool) : Z * bool :=
  let v1 := (a - b) mod block in
  let borrow1 := a <? v1 in
  let v2 := (v1 - if borrow then 1 else 0) mod block in
  let borrow2 := v1 <? v2 in
  (v2, borrow1 || borrow2).

(** bignum.hpp:62-67 *)
Definition carrying_mul (a b carry : Z) : Z * Z :=
  let v1 := (a * b + carry) mod 2 ^ 64 in
  (v1 mod block, (v1 / block) mod block).

(** bignum.hpp:70-72 and 327-331: size_ and base_ *)
Definition max_blocks : nat := 34.
Record bignum := mk_bn { bn_size : nat; bn_base : list Z }.

(** bignum.hpp:83-93 *)
Definition bn_of_u32 (v : Z) : bignum := mk_bn 1 (v :: repeat 0 (max_blocks - 1)).
Definition bn_of_u64 (v : Z) : bignum :=
  let hi := (v / block) mod block in
  mk_bn (1 + if 0 <? hi then 1 else 0) (v mod block :: hi :: repeat 0 (max_blocks - 2)).

Definition out_of_bounds {A} (o : option A) : outcome A :=
  match o with Some a => Ok a | None => Undef end.

(** bignum.hpp:112-116: all blocks are inspected *)
Definition bn_is_zero (b : bignum) : bool := forallb (fun v => v =? 0) (bn_base b).

(** bignum.hpp:138-150, the loop at index [i]; [fuel] covers the whole array *)
Fixpoint add_loop (fuel : nat) (base other : list Z) (osize i : nat) (carry : bool) : option (list Z * nat * bool) :=
  if (i <? osize)%nat || (carry && (i <? length base)%nat) then
    match fuel with
    | O => None
    | S fuel =>
      odo a <- nth_error base i ;;
      odo b <- nth_error other i ;;
      let (v, carry) := carrying_add a b carry in
      odo base <- store base i v ;;
      add_loop fuel base other osize (S i) carry
    end
  else Some (base, i, carry).
Definition bn_add (a b : bignum) : outcome bignum :=
  out_of_bounds
    (odo (base, i, _) <- add_loop (S (length (bn_base a))) (bn_base a) (bn_base b) (bn_size b) 0 false ;;
     Some (mk_bn (if (bn_size a <? i)%nat then i else bn_size a) base)).

(** bignum.hpp:124-136 *)
Fixpoint add_small_loop (fuel : nat) (base : list Z) (i : nat) (carry : bool) : option (list Z * nat) :=
  if carry && (i <? length base)%nat then
    match fuel with
    | O => None
    | S fuel =>
      odo a <- nth_error base i ;;
      let (v, carry) := carrying_add a 0 carry in
      odo base <- store base i v ;;
      add_small_loop fuel base (S i) carry
    end
  else Some (base, i).
Definition bn_add_small_at (a : bignum) (index : nat) (other : Z) : outcome bignum :=
  out_of_bounds
    (odo x <- nth_error (bn_base a) index ;;
     let (v, carry) := carrying_add x other false in
     odo base <- store (bn_base a) index v ;;
     odo (base, i) <- add_small_loop (S (length base)) base (S index) carry ;;
     Some (mk_bn i base)).
Definition bn_add_small (a : bignum) (other : Z) : outcome bignum := bn_add_small_at a 0 other.

(** bignum.hpp:180-184: the size without leading zero blocks *)
Fixpoint trim (size : nat) (base : list Z) : option nat :=
  match size with
  | O => Some O
  | S n => odo v <- nth_error base n ;; if v =? 0 then trim n base else Some size
  end.

(** bignum.hpp:169-186, the loop over [n] blocks from [i] *)
Fixpoint sub_loop (n : nat) (base other : list Z) (i : nat) (borrow : bool) : option (list Z) :=
  match n with
  | O => Some base
  | S n =>
    odo a <- nth_error base i ;;
    odo b <- nth_error other i ;;
    let (v, borrow) := borrowing_sub a b borrow in
    odo base <- store base i v ;;
    sub_loop n base other (S i) borrow
  end.
Definition bn_sub (a b : bignum) : outcome bignum :=
  if (bn_size a =? 0)%nat then Ok a
  else out_of_bounds
    (odo base <- sub_loop (bn_size a) (bn_base a) (bn_base b) 0 false ;;
     odo size <- trim (bn_size a) base ;;
     Some (mk_bn size base)).

(** bignum.hpp:153-166 *)
Fixpoint sub_small_loop (fuel : nat) (base : list Z) (i : nat) (borrow : bool) : option (list Z * nat) :=
  if borrow && (i <? length base)%nat then
    match fuel with
    | O => None
    | S fuel =>
      odo a <- nth_error base i ;;
      let (v, borrow) := borrowing_sub a 0 borrow in
      odo base <- store base i v ;;
      sub_small_loop fuel base (S i) borrow
    end
  else Some (base, i).
Definition bn_sub_small (a : bignum) (other : Z) : outcome bignum :=
  out_of_bounds
    (odo x <- nth_error (bn_base a) 0 ;;
     let (v, borrow) := borrowing_sub x other false in
     odo base <- store (bn_base a) 0 v ;;
     odo (base, i) <- sub_small_loop (S (length base)) base 1 borrow ;;
     Some (mk_bn (if (i =? bn_size a)%nat && negb (bn_size a =? 1)%nat then bn_size a - 1 else bn_size a) base)).

(** bignum.hpp:194-205 *)
Fixpoint mul_loop (n : nat) (base : list Z) (i : nat) (other carry : Z) : option (list Z * Z) :=
  match n with
  | O => Some (base, carry)
  | S n =>
    odo a <- nth_error base i ;;
    let (v, carry) := carrying_mul a other carry in
    odo base <- store base i v ;;
    mul_loop n base (S i) other carry
  end.
Definition bn_muladd_small (a : bignum) (other carry : Z) : outcome bignum :=
  out_of_bounds
    (odo (base, carry) <- mul_loop (bn_size a) (bn_base a) 0 other carry ;;
     if 0 <? carry then
       odo base <- store base (bn_size a) carry ;;
       Some (mk_bn (bn_size a + 1) base)
     else Some (mk_bn (bn_size a) base)).

(** bignum.hpp:190-192 *)
Definition bn_mul_small (a : bignum) (other : Z) : outcome bignum := bn_muladd_small a other 0.

(** bignum.hpp:245-261.  The first loop, [n] times; then the rest power. *)
Fixpoint mul_pow5_loop (n : nat) (a : bignum) : outcome bignum :=
  match n with
  | O => Ok a
  | S n => do a <- bn_mul_small a 1220703125 ;; mul_pow5_loop n a
  end.
Fixpoint rest_power (k : nat) : Z :=
  match k with O => 5 | S k => (rest_power k * 5) mod block end.
Definition bn_mul_pow5 (a : bignum) (k : nat) : outcome bignum :=
  do a <- mul_pow5_loop (k / 13) a ;;
  let k := (k mod 13)%nat in
  if (k =? 0)%nat then Ok a else bn_mul_small a (rest_power (k - 1)).

(** bignum.hpp:282-284: i = n, n-1, ..., 1 *)
Fixpoint shift_loop (n : nat) (base : list Z) (digits : nat) : option (list Z) :=
  match n with
  | O => Some base
  | S n =>
    odo v <- nth_error base n ;;
    odo base <- store base (n + digits) v ;;
    shift_loop n base digits
  end.
(** bignum.hpp:285-287 *)
Fixpoint zero_loop (n : nat) (base : list Z) (i : nat) : option (list Z) :=
  match n with
  | O => Some base
  | S n => odo base <- store base i 0 ;; zero_loop n base (S i)
  end.
(** bignum.hpp:290-296 *)
Fixpoint shl_loop (n : nat) (base : list Z) (i : nat) (bits overflow : Z) : option (list Z * Z) :=
  match n with
  | O => Some (base, overflow)
  | S n =>
    odo v <- nth_error base i ;;
    let res := (v * 2 ^ bits) mod 2 ^ 64 in
    odo base <- store base i ((res mod block + overflow) mod block) ;;
    shl_loop n base (S i) bits ((res / block) mod block)
  end.
(** bignum.hpp:277-304 *)
Definition bn_mul_pow2 (a : bignum) (exp : nat) : outcome bignum :=
  let digits := (exp / 32)%nat in
  let bits := Z.of_nat (exp mod 32) in
  out_of_bounds
    (odo a <- (if (0 <? digits)%nat then
                 odo base <- shift_loop (bn_size a) (bn_base a) digits ;;
                 odo base <- zero_loop digits base 0 ;;
                 Some (mk_bn (bn_size a + digits) base)
               else Some a) ;;
     if 0 <? bits then
       odo (base, overflow) <- shl_loop (bn_size a) (bn_base a) 0 bits 0 ;;
       if 0 <? overflow then
         odo base <- store base (bn_size a) overflow ;;
         Some (mk_bn (bn_size a + 1) base)
       else Some (mk_bn (bn_size a) base)
     else Some a).

(** bignum.hpp:265-274: i = n, ..., 1 *)
Fixpoint div_rem_loop (n : nat) (base : list Z) (other borrow : Z) : option (list Z * Z) :=
  match n with
  | O => Some (base, borrow)
  | S n =>
    odo b <- nth_error base n ;;
    let v := (b + (borrow * block) mod 2 ^ 64) mod 2 ^ 64 in
    let res := v / other in
    odo base <- store base n (res mod block) ;;
    div_rem_loop n base other ((v - res * other) mod 2 ^ 64)
  end.
Definition bn_div_rem_small (a : bignum) (other : Z) : outcome (Z * bignum) :=
  if other =? 0 then Undef
  else out_of_bounds
    (odo (base, borrow) <- div_rem_loop (bn_size a) (bn_base a) other 0 ;;
     Some (borrow mod block, mk_bn (bn_size a) base)).

(** bignum.hpp:225-242, mul_digits; the inner loop over the blocks of [other]
    from index [j], then the outer one over the blocks of the smaller number *)
Fixpoint mul_digits_inner (other : list Z) (i j : nat) (x carry : Z) (prod : bignum) : outcome (Z * bignum) :=
  match other with
  | [] => Ok (carry, prod)
  | y :: other =>
    let (v, carry) := carrying_mul x y carry in
    do prod <- bn_add_small_at prod (i + j) v ;;
    mul_digits_inner other i (S j) x carry prod
  end.
Fixpoint mul_digits_outer (small big : list Z) (i : nat) (prod : bignum) : outcome bignum :=
  match small with
  | [] => Ok prod
  | x :: small =>
    do cp <- mul_digits_inner big i 0 x 0 prod ;;
    let (carry, prod) := cp in
    do prod <- (if 0 <? carry then bn_add_small_at prod (i + length big) carry else Ok prod) ;;
    mul_digits_outer small big (S i) prod
  end.
Definition bn_mul_digits (a : bignum) (other : list Z) : outcome bignum :=
  let mine := firstn (bn_size a) (bn_base a) in
  if (length other <? bn_size a)%nat then mul_digits_outer other mine 0 (mk_bn 1 (repeat 0 max_blocks))
  else mul_digits_outer mine other 0 (mk_bn 1 (repeat 0 max_blocks)).

(** bignum.hpp:306-322 *)
Fixpoint compare_loop (n : nat) (a b : list Z) : option comparison :=
  match n with
  | O => Some Eq
  | S n =>
    odo x <- nth_error a n ;;
    odo y <- nth_error b n ;;
    if y <? x then Some Gt else if x <? y then Some Lt else compare_loop n a b
  end.
Definition bn_compare (a b : bignum) : outcome comparison :=
  if (bn_size b <? bn_size a)%nat then Ok Gt
  else if (bn_size a <? bn_size b)%nat then Ok Lt
  else out_of_bounds (compare_loop (bn_size a) (bn_base a) (bn_base b)).
