(** C31: big number arithmetic. *)
From Verif Require Import Base Lib Bignum SpecBignum BignumProofs.

Theorem C31_construction : forall v,
  (0 < v < 2 ^ 32 -> represents (bn_of_u32 v) v) /\ (0 < v < 2 ^ 64 -> represents (bn_of_u64 v) v).
Proof. intros v. split; [apply bn_of_u32_correct|apply bn_of_u64_correct]. Qed.
Print Assumptions C31_construction.

Theorem C31_add_sub : forall a b x y, represents a x -> represents b y ->
  (bn_fits (x + y) -> exists c, bn_add a b = Ok c /\ represents c (x + y)) /\
  (y <= x -> exists c, bn_sub a b = Ok c /\ represents c (x - y)).
Proof. intros a b x y Ha Hb. split; intros H; [now apply bn_add_correct|now apply bn_sub_correct]. Qed.
Print Assumptions C31_add_sub.

Theorem C31_mul : forall a x, represents a x ->
  (forall m c, 0 < m < 2 ^ 32 -> 0 <= c < 2 ^ 32 -> bn_fits (x * m + c) ->
     exists b, bn_muladd_small a m c = Ok b /\ represents b (x * m + c)) /\
  (forall m, 0 < m < 2 ^ 32 -> bn_fits (x * m) -> exists b, bn_mul_small a m = Ok b /\ represents b (x * m)) /\
  (forall k, bn_fits (x * 5 ^ Z.of_nat k) -> exists b, bn_mul_pow5 a k = Ok b /\ represents b (x * 5 ^ Z.of_nat k)) /\
  (forall k, 0 < x -> bn_fits (x * 2 ^ Z.of_nat k) -> exists b, bn_mul_pow2 a k = Ok b /\ represents b (x * 2 ^ Z.of_nat k)).
Proof.
  intros a x Ha. split; [|split; [|split]]; intros.
  - now apply bn_muladd_small_correct.
  - now apply bn_mul_small_correct.
  - now apply bn_mul_pow5_correct.
  - now apply bn_mul_pow2_correct.
Qed.
Print Assumptions C31_mul.

Theorem C31_compare_is_zero : forall a b x y, represents a x -> represents b y ->
  bn_compare a b = Ok (x ?= y) /\ bn_is_zero a = (x =? 0).
Proof. intros a b x y Ha Hb. split; [now apply bn_compare_correct|now apply bn_is_zero_correct]. Qed.
Print Assumptions C31_compare_is_zero.

Theorem C31_div_rem : forall a x m, represents a x -> 0 < m < 2 ^ 32 ->
  exists b, bn_div_rem_small a m = Ok (x mod m, b) /\ bn_wf b /\ bn_value b = x / m.
Proof. intros. now apply bn_div_rem_small_correct. Qed.
Print Assumptions C31_div_rem.

(** The product of [a] and the number with the blocks [other]: all blocks are
    right.  (Missing: the size, see below.) *)
Theorem C31_mul_digits_partial : forall a x other, represents a x -> Forall (fun v => 0 <= v < 2 ^ 32) other ->
  (bn_size a + length other <= 35)%nat -> bn_fits (x * num other) ->
  exists b, bn_mul_digits a other = Ok b /\ length (bn_base b) = 34%nat /\ bn_value b = x * num other.
Proof. intros. now apply bn_mul_digits_value. Qed.
Print Assumptions C31_mul_digits_partial.

(** A representation is determined by the number. *)
Theorem C31_representation_unique : forall a b x, represents a x -> represents b x -> bn_size a = bn_size b.
Proof.
  intros a b x Ha Hb. destruct (represents_size a x Ha) as (U1 & D1 & _). destruct (represents_size b x Hb) as (U2 & D2 & _).
  eapply size_unique; try eassumption. destruct (represents_fits a x Ha). assumption.
Qed.
Print Assumptions C31_representation_unique.

Definition bn34 (l : list Z) (n : nat) : bignum := mk_bn n (l ++ repeat 0 (34 - length l)).

(** Concrete numbers, with carries and borrows over several blocks. *)
Lemma represents_dec size base :
  ((length base =? 34)%nat && forallb (fun x => (0 <=? x) && (x <? 2 ^ 32)) base && (size <=? 34)%nat &&
   (num base <? 2 ^ (32 * Z.of_nat size)) && ((size =? 0)%nat || (2 ^ (32 * (Z.of_nat size - 1)) <=? num base))) = true ->
  represents (mk_bn size base) (num base).
Proof.
  intros H. repeat (apply andb_true_iff in H; destruct H as [H ?]). split; [split|reflexivity].
  - split; [apply Nat.eqb_eq; assumption|]. split.
    + apply Forall_forall. intros x Hx. rewrite forallb_forall in *. specialize (H3 x Hx). lia.
    + split; [cbn; lia|]. unfold bn_value. cbn [bn_base bn_size]. lia.
  - cbn [bn_size]. unfold bn_value. cbn [bn_base]. lia.
Qed.
Example C31_case :
  let a := bn34 [2 ^ 32 - 1; 2 ^ 32 - 1; 2 ^ 32 - 1] 3 in
  let b := bn_of_u32 1 in
  represents a (2 ^ 96 - 1) /\ represents b 1 /\
  bn_add a b = Ok (bn34 [0; 0; 0; 1] 4) /\ represents (bn34 [0; 0; 0; 1] 4) (2 ^ 96) /\
  bn_sub (bn34 [0; 0; 0; 1] 4) b = Ok a /\
  bn_mul_pow2 a 65 = Ok (bn34 [0; 0; 2 ^ 32 - 2; 2 ^ 32 - 1; 2 ^ 32 - 1; 1] 6) /\
  bn_mul_pow5 b 27 = Ok (bn34 [2 ^ 32 * (5 ^ 27 / 2 ^ 32) * -1 + 5 ^ 27; 5 ^ 27 / 2 ^ 32] 2) /\
  bn_compare a (bn34 [0; 0; 0; 1] 4) = Ok Lt /\
  bn_div_rem_small a 10 = Ok ((2 ^ 96 - 1) mod 10, bn34 [2576980377; 2576980377; 429496729] 3).
Proof.
  cbv zeta. split; [apply (represents_dec 3); reflexivity|]. split; [apply (represents_dec 1); reflexivity|].
  split; [vm_compute; reflexivity|]. split; [apply (represents_dec 4); reflexivity|].
  repeat split; vm_compute; reflexivity.
Qed.

(** mul_digits (and mul, which has the same loops) leaves a size which hides the
    most significant block: the product, which fits easily, compares below a
    smaller number. *)
Theorem C31_mul_digits_refuted : exists a x other b, represents a x /\
  Forall (fun v => 0 <= v < 2 ^ 32) other /\ bn_fits (x * num other) /\
  bn_mul_digits a other = Ok b /\ bn_value b = x * num other /\ ~ bn_wf b /\
  exists c y, represents c y /\ y < x * num other /\ bn_compare b c = Ok Lt.
Proof.
  exists (bn34 [2 ^ 32 - 1; 2 ^ 32 - 1; 1] 3), (2 ^ 65 - 1), [2 ^ 32 - 1; 2 ^ 32 - 1; 2 ^ 32 - 1].
  eexists. split; [apply (represents_dec 3); reflexivity|]. split.
  { repeat (apply Forall_cons; [lia|]). apply Forall_nil. }
  split; [vm_compute; intuition discriminate|]. split; [vm_compute; reflexivity|]. split; [vm_compute; reflexivity|].
  split.
  { intros (_ & _ & _ & H). vm_compute in H. discriminate H. }
  exists (bn34 [0; 0; 2 ^ 32 - 1; 2 ^ 32 - 1; 2 ^ 32 - 1] 5), (2 ^ 160 - 2 ^ 64). split; [apply (represents_dec 5); reflexivity|].
  split; vm_compute; reflexivity.
Qed.
Print Assumptions C31_mul_digits_refuted.

(** add_small forgets the blocks it did not touch. *)
Theorem C31_add_small_refuted : exists a x m b, represents a x /\ 0 < m < 2 ^ 32 /\ bn_fits (x + m) /\
  bn_add_small a m = Ok b /\ bn_compare b a = Ok Lt.
Proof.
  exists (bn34 [7; 0; 5] 3), (7 + 5 * 2 ^ 64), 1. eexists. split; [apply (represents_dec 3); reflexivity|].
  split; [lia|]. split; [vm_compute; intuition discriminate|]. split; vm_compute; reflexivity.
Qed.
Print Assumptions C31_add_small_refuted.

(** sub_small forgets the top block when the borrow reaches it, although it is not zero. *)
Theorem C31_sub_small_refuted : exists a x m b, represents a x /\ 0 < m < 2 ^ 32 /\ m <= x /\
  bn_sub_small a m = Ok b /\ bn_compare b (bn_of_u64 (2 ^ 33)) = Ok Lt /\ 2 ^ 33 < x - m.
Proof.
  exists (bn34 [0; 5] 2), (5 * 2 ^ 32), 1. eexists. split; [apply (represents_dec 2); reflexivity|].
  repeat split; try lia; vm_compute; reflexivity || intuition discriminate.
Qed.
Print Assumptions C31_sub_small_refuted.

(** Two zeros need not compare equal: one made from 0, the other by subtraction.
    Likewise 0 * 2^32 compares above 1, and a quotient may compare above a larger
    number. *)
Theorem C31_compare_zero_refuted : exists z z1,
  bn_sub (bn_of_u32 1) (bn_of_u32 1) = Ok z /\ bn_value z = bn_value (bn_of_u32 0) /\
  bn_compare (bn_of_u32 0) z = Ok Gt /\
  bn_mul_pow2 (bn_of_u32 0) 32 = Ok z1 /\ bn_value z1 = 0 /\ bn_compare z1 (bn_of_u32 1) = Ok Gt.
Proof. eexists. eexists. split; [vm_compute; reflexivity|]. repeat split; vm_compute; reflexivity. Qed.
Print Assumptions C31_compare_zero_refuted.

Theorem C31_compare_quotient_refuted : exists a b, represents a (2 ^ 32) /\
  bn_div_rem_small a 2 = Ok (0, b) /\ bn_value b = 2 ^ 31 /\ bn_compare b (bn_of_u32 (2 ^ 31 + 1)) = Ok Gt.
Proof.
  exists (bn34 [0; 1] 2). eexists. split; [apply (represents_dec 2); reflexivity|].
  repeat split; vm_compute; reflexivity.
Qed.
Print Assumptions C31_compare_quotient_refuted.
