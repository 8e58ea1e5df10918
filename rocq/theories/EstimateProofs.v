(** estimate_scaling_factor never overestimates, and never by more than one. *)
From Verif Require Import Base Lib Conversion Dragon SpecFloat.

Definition est (L : Z) : Z := (L * 1292913986) / 2 ^ 32.

Lemma pos_pow_pos b e : 0 < b -> 0 < pos_pow b e.
Proof. intros H. unfold pos_pow. apply Z.pow_pos_nonneg; lia. Qed.
Lemma pos_pow_nonneg b e : 0 <= e -> pos_pow b e = b ^ e.
Proof. intros H. unfold pos_pow. f_equal. lia. Qed.
Lemma pos_pow_nonpos b e : e <= 0 -> pos_pow b e = 1.
Proof. intros H. unfold pos_pow. rewrite Z.max_r by lia. reflexivity. Qed.

(** 205/681 < log10 2 < 146/485 are neighbours: no fraction with a denominator
    below 681 + 485 lies between them. *)
Lemma pow_below k L : 0 <= k -> 0 < L -> 681 * k <= 205 * L -> 10 ^ k < 2 ^ L.
Proof.
  intros Hk HL H. destruct (Z_lt_le_dec (10 ^ k) (2 ^ L)) as [|G]; [assumption|exfalso].
  assert (P2 : 0 <= 2 ^ L) by (apply Z.pow_nonneg; lia).
  assert (G1 := Z.pow_le_mono_l (2 ^ L) (10 ^ k) 681 (conj P2 G)). rewrite <- !Z.pow_mul_r in G1 by lia.
  assert (G2 : 10 ^ (k * 681) <= 10 ^ (205 * L)) by (apply Z.pow_le_mono_r; lia).
  assert (G3 : (10 ^ 205) ^ L < (2 ^ 681) ^ L) by (apply Z.pow_lt_mono_l; [exact HL|split; [discriminate|reflexivity]]).
  rewrite <- !Z.pow_mul_r in G3 by lia. rewrite (Z.mul_comm 681 L) in G3. lia.
Qed.
Lemma pow_above k L : 0 < k -> 0 <= L -> 146 * L <= 485 * k -> 2 ^ L < 10 ^ k.
Proof.
  intros Hk HL H. destruct (Z_lt_le_dec (2 ^ L) (10 ^ k)) as [|G]; [assumption|exfalso].
  assert (P2 : 0 <= 10 ^ k) by (apply Z.pow_nonneg; lia).
  assert (G1 := Z.pow_le_mono_l (10 ^ k) (2 ^ L) 146 (conj P2 G)). rewrite <- !Z.pow_mul_r in G1 by lia.
  assert (G2 : 2 ^ (L * 146) <= 2 ^ (485 * k)) by (apply Z.pow_le_mono_r; lia).
  assert (G3 : (2 ^ 485) ^ k < (10 ^ 146) ^ k) by (apply Z.pow_lt_mono_l; [exact Hk|split; [discriminate|reflexivity]]).
  rewrite <- !Z.pow_mul_r in G3 by lia. rewrite (Z.mul_comm 146 k) in G3. lia.
Qed.

Lemma est_spec L : -1100 <= L < 1100 ->
  -400 <= est L <= 400 /\
  pos_pow 10 (est L) * pos_pow 2 (- L) <= pos_pow 2 L * pos_pow 10 (- est L) /\
  pos_pow 2 L * pos_pow 10 (- est L) < 10 * (pos_pow 10 (est L) * pos_pow 2 (- L)).
Proof.
  intros H. unfold est. change (2 ^ 32) with 4294967296. set (k := L * 1292913986 / 4294967296).
  assert (D : k * 4294967296 <= L * 1292913986 < (k + 1) * 4294967296) by (unfold k; lia). clearbody k.
  split; [lia|]. destruct (Z_le_gt_dec 0 L) as [G|G].
  - assert (K0 : 0 <= k) by lia. rewrite (pos_pow_nonneg 10 k), (pos_pow_nonneg 2 L), (pos_pow_nonpos 2 (- L)), (pos_pow_nonpos 10 (- k)) by lia.
    rewrite !Z.mul_1_r. destruct (Z.eq_dec L 0) as [-> |NE]; [assert (k = 0) by lia; subst k; change (10 ^ 0) with 1; change (2 ^ 0) with 1; lia|].
    assert (A := pow_below k L K0 ltac:(lia) ltac:(lia)). assert (B := pow_above (k + 1) L ltac:(lia) G ltac:(lia)).
    replace (10 ^ (k + 1)) with (10 * 10 ^ k) in B by (rewrite <- Z.pow_succ_r by lia; f_equal; lia). lia.
  - assert (K0 : k < 0) by lia. rewrite (pos_pow_nonpos 10 k), (pos_pow_nonpos 2 L), (pos_pow_nonneg 2 (- L)), (pos_pow_nonneg 10 (- k)) by lia.
    rewrite !Z.mul_1_l. assert (A := pow_above (- k) (- L) ltac:(lia) ltac:(lia) ltac:(lia)).
    assert (B := pow_below (- k - 1) (- L) ltac:(lia) ltac:(lia) ltac:(lia)).
    replace (10 ^ (- k)) with (10 * 10 ^ (- k - 1)) in * by (rewrite <- Z.pow_succ_r by lia; f_equal; lia). lia.
Qed.

Lemma wrap_i16 z : -32768 <= z < 32768 -> wrap i16 z = z.
Proof.
  intros H. unfold wrap. change (bits i16) with 16. change (signed i16) with true. cbn [andb].
  change (2 ^ (16 - 1)) with 32768. change (2 ^ 16) with 65536.
  destruct (32768 <=? z mod 65536) eqn:G; lia.
Qed.

Lemma bit_width_spec x : 0 < x -> 2 ^ (bit_width x - 1) <= x < 2 ^ bit_width x /\ 1 <= bit_width x.
Proof.
  intros H. unfold bit_width. replace (x =? 0) with false by lia.
  assert (L := Z.log2_spec x H). assert (N := Z.log2_nonneg x).
  replace (Z.log2 x + 1 - 1) with (Z.log2 x) by lia. replace (Z.log2 x + 1) with (Z.succ (Z.log2 x)) by lia. lia.
Qed.

Lemma bit_width_le x n : 0 < x < 2 ^ n -> 0 <= n -> bit_width x <= n.
Proof.
  intros H Hn. destruct (bit_width_spec x ltac:(lia)) as [[B _] B1].
  destruct (Z_le_gt_dec (bit_width x) n) as [|G]; [assumption|].
  assert (2 ^ n <= 2 ^ (bit_width x - 1)) by (apply Z.pow_le_mono_r; lia). lia.
Qed.

Lemma estimate_spec mant exp : 2 <= mant <= 2 ^ 55 -> -1077 <= exp <= 1000 ->
  exists nb, 1 <= nb <= 55 /\ 2 ^ (nb - 1) < mant <= 2 ^ nb /\
    estimate_scaling_factor mant exp = est (nb + exp).
Proof.
  intros Hm He. unfold estimate_scaling_factor. rewrite Z.mod_small by (assert (2 ^ 55 < 2 ^ 64) by reflexivity; lia).
  destruct (bit_width_spec (mant - 1) ltac:(lia)) as [B1 B2].
  assert (B3 := bit_width_le (mant - 1) 55 ltac:(lia) ltac:(lia)).
  exists (bit_width (mant - 1)). split; [lia|]. split; [lia|].
  set (L := bit_width (mant - 1) + exp). assert (HL : -1100 <= L < 1100) by (unfold L; lia).
  fold (est L). destruct (est_spec L HL) as [R _]. clearbody L.
  apply wrap_i16. lia.
Qed.

(** The scaling: [S] and [c] such that the value is [mant * c / S * 10^k]. *)
Lemma scale_spec mant exp : 2 <= mant <= 2 ^ 55 -> -1077 <= exp <= 1000 ->
  let k := estimate_scaling_factor mant exp in
  let S := pos_pow 10 k * pos_pow 2 (- exp) in
  let c := pos_pow 10 (- k) * pos_pow 2 exp in
  -400 <= k <= 400 /\ 0 < c /\ 0 < S <= 2 ^ 1077 /\ S < 2 * (mant * c) /\ mant * c < 10 * S.
Proof.
  intros Hm He. cbv zeta. destruct (estimate_spec mant exp Hm He) as (nb & HN & HM & ->).
  set (L := nb + exp). assert (HL : -1100 <= L < 1100) by (unfold L; lia).
  destruct (est_spec L HL) as (R & A & B). set (k := est L) in *.
  assert (E1 : pos_pow 2 (- exp) = pos_pow 2 (- L) * 2 ^ (nb + Z.max exp 0 - Z.max L 0)).
  { unfold pos_pow. rewrite <- Z.pow_add_r by lia. f_equal. lia. }
  assert (E2 : 2 ^ nb * pos_pow 2 exp = pos_pow 2 L * 2 ^ (nb + Z.max exp 0 - Z.max L 0)).
  { unfold pos_pow. rewrite <- !Z.pow_add_r by lia. f_equal. lia. }
  assert (T : 0 < 2 ^ (nb + Z.max exp 0 - Z.max L 0)) by (apply Z.pow_pos_nonneg; lia).
  assert (P1 := pos_pow_pos 10 k ltac:(lia)). assert (P2 := pos_pow_pos 10 (- k) ltac:(lia)).
  assert (P3 := pos_pow_pos 2 exp ltac:(lia)). assert (P4 := pos_pow_pos 2 (- exp) ltac:(lia)).
  set (t := 2 ^ (nb + Z.max exp 0 - Z.max L 0)) in *.
  assert (NB2 : 2 ^ nb = 2 * 2 ^ (nb - 1)) by (rewrite <- Z.pow_succ_r by lia; f_equal; lia).
  assert (A' : pos_pow 10 k * pos_pow 2 (- exp) <= 2 ^ nb * (pos_pow 10 (- k) * pos_pow 2 exp)).
  { rewrite E1. replace (2 ^ nb * (pos_pow 10 (- k) * pos_pow 2 exp)) with ((2 ^ nb * pos_pow 2 exp) * pos_pow 10 (- k)) by ring.
    rewrite E2. nia. }
  assert (B' : 2 ^ nb * (pos_pow 10 (- k) * pos_pow 2 exp) < 10 * (pos_pow 10 k * pos_pow 2 (- exp))).
  { rewrite E1. replace (2 ^ nb * (pos_pow 10 (- k) * pos_pow 2 exp)) with ((2 ^ nb * pos_pow 2 exp) * pos_pow 10 (- k)) by ring.
    rewrite E2. nia. }
  assert (PC : 0 < pos_pow 10 (- k) * pos_pow 2 exp) by nia. set (c := pos_pow 10 (- k) * pos_pow 2 exp) in *.
  assert (PS : 0 < pos_pow 10 k * pos_pow 2 (- exp)) by nia.
  assert (PN : 0 < 2 ^ (nb - 1)) by (apply Z.pow_pos_nonneg; lia).
  split; [lia|]. split; [lia|]. split; [split; [lia|]|split; [nia|nia]].
  destruct (Z_le_gt_dec k 0) as [K|K].
  - rewrite (pos_pow_nonpos 10 k) by lia. rewrite Z.mul_1_l. unfold pos_pow. apply Z.pow_le_mono_r; lia.
  - etransitivity; [exact A'|]. unfold c. rewrite (pos_pow_nonpos 10 (- k)) by lia. rewrite Z.mul_1_l. unfold pos_pow.
    rewrite <- Z.pow_add_r by lia. apply Z.pow_le_mono_r; lia.
Qed.
