(** Model of include/emio/detail/bitset.hpp. *)
From Verif Require Import Base.

(** bitset.hpp:23-25 with a 64 bit size_t *)
Definition bits_per_word : nat := 64.
Definition word_max : Z := 2 ^ 64 - 1.
Definition number_of_words (nbits : nat) : nat :=
  (nbits / bits_per_word + if (nbits mod bits_per_word =? 0)%nat then 0 else 1)%nat.

Record bitset := mk_bitset { bs_bits : nat; bs_words : list Z }.

(** bitset.hpp:106: zero initialised *)
Definition bitset_new (nbits : nat) : bitset := mk_bitset nbits (repeat 0 (number_of_words nbits)).

(** bitset.hpp:98-104 *)
Definition high_word_mask (nbits : nat) : Z :=
  let m := ((1 * 2 ^ Z.of_nat (nbits mod bits_per_word)) mod 2 ^ 64 - 1) mod 2 ^ 64 in
  if m =? 0 then word_max else m.

(** bitset.hpp:32-44; an access outside the array is undefined *)
Fixpoint all_loop (words : list Z) (i : nat) (last : nat) (mask : Z) : outcome bool :=
  match words with
  | [] => Undef
  | w :: ws => if (i =? last)%nat then Ok (w =? mask)
               else if w =? word_max then all_loop ws (S i) last mask else Ok false
  end.
Definition bitset_all (b : bitset) : outcome bool :=
  if (bs_bits b =? 0)%nat then Ok true
  else all_loop (bs_words b) 0 (number_of_words (bs_bits b) - 1) (high_word_mask (bs_bits b)).

(** bitset.hpp:66-71 *)
Fixpoint low_bits_set (n : nat) (w : Z) : bool :=
  match n with
  | O => true
  | S n => if Z.land w 1 =? 1 then low_bits_set n (Z.shiftr w 1) else false
  end.

(** bitset.hpp:59-72 *)
Fixpoint all_first_loop (words : list Z) (n : nat) : outcome bool :=
  match words with
  | [] => Undef
  | w :: ws =>
    if (bits_per_word <? n)%nat then
      if w =? word_max then all_first_loop ws (n - bits_per_word) else Ok false
    else Ok (low_bits_set n w)
  end.

(** bitset.hpp:51-74 *)
Definition bitset_all_first (b : bitset) (n : nat) : outcome bool :=
  if (bs_bits b =? 0)%nat then Ok (n =? 0)%nat
  else if (bs_bits b <? n)%nat then Ok false
  else all_first_loop (bs_words b) n.

(** bitset.hpp:88-95 *)
Definition bitset_set (b : bitset) (pos : nat) : outcome bitset :=
  if (bs_bits b <=? pos)%nat then Abort
  else
    let i := (pos / bits_per_word)%nat in
    match nth_error (bs_words b) i with
    | Some w =>
      match store (bs_words b) i (Z.lor w (Z.shiftl 1 (Z.of_nat (pos mod bits_per_word)) mod 2 ^ 64)) with
      | Some ws => Ok (mk_bitset (bs_bits b) ws)
      | None => Undef
      end
    | None => Undef
    end.

(** Several calls of set. *)
Fixpoint bitset_set_all (b : bitset) (ps : list nat) : outcome bitset :=
  match ps with
  | [] => Ok b
  | p :: ps => do b <- bitset_set b p ;; bitset_set_all b ps
  end.
