(** What big numbers denote.  Only the fields of the record are used. *)
From Verif Require Import Base Bignum.

(** The number written with the digits [l], least significant first, in base 2^32. *)
Fixpoint num (l : list Z) : Z :=
  match l with [] => 0 | x :: l => x + 2 ^ 32 * num l end.

Definition bn_value (b : bignum) : Z := num (bn_base b).

(** 34 blocks of 32 bits, the significant ones below [bn_size]. *)
Definition bn_wf (b : bignum) : Prop :=
  length (bn_base b) = 34%nat /\ Forall (fun x => 0 <= x < 2 ^ 32) (bn_base b) /\
  (bn_size b <= 34)%nat /\ bn_value b < 2 ^ (32 * Z.of_nat (bn_size b)).

(** No leading zero block. *)
Definition bn_normal (b : bignum) : Prop :=
  bn_wf b /\ (bn_size b = O \/ 2 ^ (32 * (Z.of_nat (bn_size b) - 1)) <= bn_value b).

(** [b] stands for the number [v]. *)
Definition represents (b : bignum) (v : Z) : Prop := bn_normal b /\ bn_value b = v.

(** The numbers that fit. *)
Definition bn_fits (v : Z) : Prop := 0 <= v < 2 ^ 1088.
