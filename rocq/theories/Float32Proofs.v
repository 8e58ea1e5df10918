(** Floats: the conversion to double is exact; reading back as float. *)
From Verif Require Import Base Lib Conversion Bignum Dragon FloatArg SpecFloat SpecFloat32 Float32 ExactProofs ReadBack.

Lemma signed_fields s ex fr : 0 <= s <= 1 -> 0 <= ex < 2048 -> 0 <= fr < 2 ^ 52 ->
  is_double (s * 2 ^ 63 + (ex * 2 ^ 52 + fr)) /\ bits_exponent (s * 2 ^ 63 + (ex * 2 ^ 52 + fr)) = ex /\ bits_fraction (s * 2 ^ 63 + (ex * 2 ^ 52 + fr)) = fr /\
  bits_negative (s * 2 ^ 63 + (ex * 2 ^ 52 + fr)) = (s =? 1).
Proof.
  intros HS H1 H2. unfold is_double, bits_exponent, bits_fraction, bits_negative. change (2 ^ 52) with 4503599627370496 in *. change (2 ^ 63) with 9223372036854775808.
  change (2 ^ 64) with 18446744073709551616. change (2 ^ 11) with 2048. split; [lia|]. split; [lia|]. split; [lia|].
  rewrite Z.testbit_odd, Z.shiftr_div_pow2 by lia. change (2 ^ 63) with 9223372036854775808.
  replace ((s * 9223372036854775808 + (ex * 4503599627370496 + fr)) / 9223372036854775808) with s by lia.
  assert (s = 0 \/ s = 1) as [-> | ->] by lia; reflexivity.
Qed.

Lemma float_split b : is_float b -> exists s e m, b = s * 2 ^ 31 + (e * 2 ^ 23 + m) /\ 0 <= s <= 1 /\ 0 <= e < 256 /\ 0 <= m < 2 ^ 23 /\
  b / 2 ^ 31 = s /\ float_exponent b = e /\ float_fraction b = m /\ float_negative b = (s =? 1).
Proof.
  unfold is_float, float_exponent, float_fraction, float_negative. intros H. exists (b / 2 ^ 31), ((b / 2 ^ 23) mod 2 ^ 8), (b mod 2 ^ 23).
  rewrite Z.testbit_odd, Z.shiftr_div_pow2 by lia.
  change (2 ^ 32) with 4294967296 in *. change (2 ^ 31) with 2147483648. change (2 ^ 23) with 8388608. change (2 ^ 8) with 256.
  assert (HS : 0 <= b / 2147483648 <= 1) by lia. repeat (split; [lia|]).
  generalize dependent (b / 2147483648). intros s HS. assert (s = 0 \/ s = 1) as [-> | ->] by lia; reflexivity.
Qed.

Lemma log2_float m : 0 < m < 2 ^ 23 -> 0 <= Z.log2 m < 23 /\ 2 ^ Z.log2 m <= m < 2 * 2 ^ Z.log2 m.
Proof.
  intros H. assert (A := Z.log2_spec m ltac:(lia)). rewrite Z.pow_succ_r in A by apply Z.log2_nonneg. split; [|lia]. split; [apply Z.log2_nonneg|]. apply Z.log2_lt_pow2; lia.
Qed.

Theorem float_exact b : is_finite_float b ->
  is_finite_double (float_to_double b) /\ bits_negative (float_to_double b) = float_negative b /\ double_n (float_to_double b) = float_n b.
Proof.
  intros [HF HX]. destruct (float_split b HF) as (s & e & m & _ & Hs & He & Hm & E0 & E1 & E2 & E3).
  unfold float_to_double, float_n, float_m, float_e. cbv zeta. fold (float_exponent b) (float_fraction b). rewrite E0, E1, E2, E3. rewrite E1 in HX. clear E0 E1 E2 E3 HF.
  replace (e =? 255) with false by lia. destruct (e =? 0) eqn:Ge; [destruct (m =? 0) eqn:Gm|].
  - assert (m = 0) by lia. subst m. destruct (signed_fields s 0 0 Hs ltac:(lia) ltac:(lia)) as (F1 & F2 & F3 & F4). change (0 * 2 ^ 52 + 0) with 0 in *.
    split; [split; [exact F1|lia]|]. split; [exact F4|]. unfold double_n, double_m. rewrite F2, F3. reflexivity.
  - destruct (log2_float m ltac:(lia)) as [HL HP]. generalize dependent (Z.log2 m). intros k HL HP.
    assert (P52 : 2 ^ 52 = 2 ^ k * 2 ^ (52 - k)) by (rewrite <- Z.pow_add_r by lia; f_equal; lia).
    assert (HQ : 0 < 2 ^ (52 - k)) by (apply Z.pow_pos_nonneg; lia).
    assert (HFr : 0 <= (m - 2 ^ k) * 2 ^ (52 - k) < 2 ^ 52) by (rewrite P52; nia).
    destruct (signed_fields s (k + 874) ((m - 2 ^ k) * 2 ^ (52 - k)) Hs ltac:(lia) HFr) as (F1 & F2 & F3 & F4).
    split; [split; [exact F1|lia]|]. split; [exact F4|]. unfold double_n, double_m, double_e. rewrite F2, F3. replace (k + 874 =? 0) with false by lia.
    rewrite P52. replace (2 ^ k * 2 ^ (52 - k) + (m - 2 ^ k) * 2 ^ (52 - k)) with (m * 2 ^ (52 - k)) by ring. rewrite <- Z.mul_assoc, <- Z.pow_add_r by lia. f_equal. f_equal. lia.
  - assert (HFr : 0 <= m * 2 ^ 29 < 2 ^ 52) by (change (2 ^ 23) with 8388608 in Hm; change (2 ^ 29) with 536870912; change (2 ^ 52) with 4503599627370496; lia).
    destruct (signed_fields s (e + 896) (m * 2 ^ 29) Hs ltac:(lia) HFr) as (F1 & F2 & F3 & F4).
    split; [split; [exact F1|lia]|]. split; [exact F4|]. unfold double_n, double_m, double_e. rewrite F2, F3. replace (e + 896 =? 0) with false by lia.
    replace (2 ^ 52 + m * 2 ^ 29) with ((2 ^ 23 + m) * 2 ^ 29) by (change (2 ^ 52) with (2 ^ 23 * 2 ^ 29); ring). rewrite <- Z.mul_assoc, <- Z.pow_add_r by lia. f_equal. f_equal. lia.
Qed.

Theorem float_special b : (float_infinity b -> is_infinity (float_to_double b) /\ bits_negative (float_to_double b) = float_negative b) /\
  (float_nan b -> is_nan (float_to_double b) /\ bits_negative (float_to_double b) = float_negative b).
Proof.
  split; intros (HF & HX & HM); destruct (float_split b HF) as (s & e & m & _ & Hs & He & Hm & E0 & E1 & E2 & E3);
    unfold float_to_double; cbv zeta; fold (float_exponent b) (float_fraction b); rewrite HX, E0, E3; change (255 =? 255) with true; cbv iota.
  - rewrite HM. change (0 =? 0) with true. cbv iota. destruct (signed_fields s 2047 0 Hs ltac:(lia) ltac:(lia)) as (F1 & F2 & F3 & F4). split; [|exact F4]. split; [exact F1|]. auto.
  - rewrite E2 in *. replace (m =? 0) with false by lia.
    assert (HL : 0 < Z.lor m (2 ^ 22) < 2 ^ 23).
    { assert (0 <= Z.lor m (2 ^ 22)) by (apply Z.lor_nonneg; lia). assert (Z.lor m (2 ^ 22) <> 0) by (intros X; apply Z.lor_eq_0_iff in X; lia). split; [lia|].
      apply Z.log2_lt_cancel. rewrite Z.log2_lor by lia. change (Z.log2 (2 ^ 23)) with 23. change (Z.log2 (2 ^ 22)) with 22. assert (Z.log2 m < 23); [|lia]. destruct (log2_float m); lia. }
    generalize dependent (Z.lor m (2 ^ 22)). intros x HL.
    assert (HFr : 0 <= x * 2 ^ 29 < 2 ^ 52) by (change (2 ^ 23) with 8388608 in HL; change (2 ^ 29) with 536870912; change (2 ^ 52) with 4503599627370496; lia).
    destruct (signed_fields s 2047 (x * 2 ^ 29) Hs ltac:(lia) HFr) as (F1 & F2 & F3 & F4). split; [|exact F4]. split; [exact F1|]. split; [exact F2|]. rewrite F3. change (2 ^ 29) with 536870912. lia.
Qed.

(** ** Doubles with given values *)
Lemma double_exists m e : 0 < m < 2 ^ 52 -> -1000 <= e <= 900 -> exists bits, is_finite_double bits /\ double_n bits = m * 2 ^ (e + 1074).
Proof.
  intros Hm He. assert (A := Z.log2_spec m ltac:(lia)). rewrite Z.pow_succ_r in A by apply Z.log2_nonneg. assert (HL : 0 <= Z.log2 m < 52) by (split; [apply Z.log2_nonneg|apply Z.log2_lt_pow2; lia]).
  generalize dependent (Z.log2 m). intros k A HL.
  assert (P52 : 2 ^ 52 = 2 ^ k * 2 ^ (52 - k)) by (rewrite <- Z.pow_add_r by lia; f_equal; lia).
  assert (HQ : 0 < 2 ^ (52 - k)) by (apply Z.pow_pos_nonneg; lia).
  assert (HFr : 0 <= (m - 2 ^ k) * 2 ^ (52 - k) < 2 ^ 52) by (rewrite P52; nia).
  destruct (signed_fields 0 (e + k + 1023) ((m - 2 ^ k) * 2 ^ (52 - k)) ltac:(lia) ltac:(lia) HFr) as (F1 & F2 & F3 & F4).
  eexists. split; [split; [exact F1|rewrite F2; lia]|]. unfold double_n, double_m, double_e. rewrite F2, F3. replace (e + k + 1023 =? 0) with false by lia.
  rewrite P52. replace (2 ^ k * 2 ^ (52 - k) + (m - 2 ^ k) * 2 ^ (52 - k)) with (m * 2 ^ (52 - k)) by ring. rewrite <- Z.mul_assoc, <- Z.pow_add_r by lia. f_equal. f_equal. lia.
Qed.

Lemma float_range b : is_finite_float b -> 0 <= float_m b < 2 ^ 24 /\ -149 <= float_e b <= 104 /\ (float_m b < 2 ^ 23 -> float_e b = -149).
Proof.
  intros [HF HX]. destruct (float_split b HF) as (s & e & m & _ & Hs & He & Hm & _ & E1 & E2 & _). unfold float_m, float_e. rewrite E1, E2 in *. destruct (e =? 0) eqn:G; lia.
Qed.

(** The next float is a whole unit away. *)
Lemma float_gap b b' : is_finite_float b -> is_finite_float b' -> float_n b < float_n b' -> (float_m b + 1) * 2 ^ (float_e b + 1074) <= float_n b'.
Proof.
  intros H H'. destruct (float_range b H) as (M & E & C), (float_range b' H') as (M' & E' & C'). unfold float_n.
  generalize dependent (float_m b). generalize dependent (float_e b). generalize dependent (float_m b'). generalize dependent (float_e b'). intros e' E' m' M' C' e E m M C HL.
  destruct (Z_le_gt_dec e e') as [G|G].
  - assert (EQ : 2 ^ (e' + 1074) = 2 ^ (e' - e) * 2 ^ (e + 1074)) by (rewrite <- Z.pow_add_r by lia; f_equal; lia). rewrite EQ, Z.mul_assoc in HL |- *. assert (0 < 2 ^ (e + 1074)) by (apply Z.pow_pos_nonneg; lia). apply Z.mul_lt_mono_pos_r in HL; [|assumption]. apply Z.mul_le_mono_nonneg_r; lia.
  - exfalso. assert (2 ^ 23 <= m) by lia. assert (EQ : 2 ^ (e + 1074) = 2 ^ (e - e') * 2 ^ (e' + 1074)) by (rewrite <- Z.pow_add_r by lia; f_equal; lia). rewrite EQ, Z.mul_assoc in HL. assert (0 < 2 ^ (e' + 1074)) by (apply Z.pow_pos_nonneg; lia).
    assert (2 <= 2 ^ (e - e')) by (change 2 with (2 ^ 1) at 1; apply Z.pow_le_mono_r; lia). apply Z.mul_lt_mono_pos_r in HL; [|assumption]. change (2 ^ 24) with (2 ^ 23 * 2) in M'. assert (2 ^ 23 * 2 <= m * 2 ^ (e - e')) by (apply Z.mul_le_mono_nonneg; lia). lia.
Qed.

(** Between two floats there is a double. *)
Lemma between b b' : is_finite_float b -> is_finite_float b' -> float_n b < float_n b' -> exists bits, is_finite_double bits /\ float_n b < double_n bits < float_n b'.
Proof.
  intros H H' HL. assert (G := float_gap b b' H H' HL). destruct (float_range b H) as (M & E & _).
  destruct (double_exists (2 * float_m b + 1) (float_e b - 1) ltac:(lia) ltac:(lia)) as (bits & HB & N). exists bits. split; [exact HB|]. rewrite N. unfold float_n at 1.
  assert (EQ : 2 ^ (float_e b + 1074) = 2 * 2 ^ (float_e b - 1 + 1074)) by (rewrite <- (Z.pow_add_r 2 1) by lia; f_equal; lia). rewrite EQ in *. assert (0 < 2 ^ (float_e b - 1 + 1074)) by (apply Z.pow_pos_nonneg; lia). nia.
Qed.

Lemma pos_pow_pos b e : 0 < b -> 0 < pos_pow b e.
Proof. intros H. unfold pos_pow. apply Z.pow_pos_nonneg; lia. Qed.

(** What is read as the double is read as the float. *)
Theorem reads_back_narrow d q b : is_finite_float b -> reads_back d q (float_to_double b) -> reads_back_float d q b.
Proof.
  intros H [R _]. destruct (float_exact b H) as (HF & _ & HN). assert (D : forall c, is_finite_float c -> float_distance d q c = distance d q (float_to_double c)).
  { intros c HC. unfold float_distance, distance. destruct (float_exact c HC) as (_ & _ & ->). reflexivity. }
  assert (P := pos_pow_pos 10 q ltac:(lia)). split.
  - intros c HC. rewrite !D by assumption. destruct (float_exact c HC) as (HF' & _ & HN'). split; [apply R; exact HF'|]. intros E. left.
    destruct (Z.lt_trichotomy (float_n b) (float_n c)) as [L|[L|L]]; [exfalso|auto|exfalso].
    + destruct (between b c H HC L) as (x & HX & HL). destruct (R x HX) as [R1 _]. unfold distance in *. rewrite HN, HN' in *. generalize dependent (d * pos_pow 10 (- q) * 2 ^ 1074). intros v E R1. clear - E R1 HL P.
      generalize dependent (pos_pow 10 q). intros p E R1 P. assert (float_n b * p < double_n x * p < float_n c * p) by nia. lia.
    + destruct (between c b HC H L) as (x & HX & HL). destruct (R x HX) as [R1 _]. unfold distance in *. rewrite HN, HN' in *. generalize dependent (d * pos_pow 10 (- q) * 2 ^ 1074). intros v E R1. clear - E R1 HL P.
      generalize dependent (pos_pow 10 q). intros p E R1 P. assert (float_n c * p < double_n x * p < float_n b * p) by nia. lia.
  - destruct (Z_lt_ge_dec (d * pos_pow 10 (- q)) ((2 ^ 128 - 2 ^ 103) * pos_pow 10 q)) as [G|G]; [exact G|exfalso].
    destruct (double_exists (2 ^ 25 - 1) 103 ltac:(lia) ltac:(lia)) as (x & HX & NX). destruct (R x HX) as [R1 _]. unfold distance in R1. rewrite HN, NX in R1.
    destruct (float_range b H) as (M & E & _).
    assert (L : float_n b < (2 ^ 25 - 1) * 2 ^ (103 + 1074)).
    { unfold float_n. assert (2 ^ (float_e b + 1074) <= 2 ^ (104 + 1074)) by (apply Z.pow_le_mono_r; lia). assert (0 < 2 ^ (float_e b + 1074)) by (apply Z.pow_pos_nonneg; lia).
      assert (float_m b * 2 ^ (float_e b + 1074) <= (2 ^ 24 - 1) * 2 ^ (104 + 1074)) by nia. assert ((2 ^ 24 - 1) * 2 ^ (104 + 1074) < (2 ^ 25 - 1) * 2 ^ (103 + 1074)) by reflexivity. lia. }
    assert (G' : (2 ^ 25 - 1) * 2 ^ (103 + 1074) * pos_pow 10 q <= d * pos_pow 10 (- q) * 2 ^ 1074).
    { replace ((2 ^ 25 - 1) * 2 ^ (103 + 1074)) with ((2 ^ 128 - 2 ^ 103) * 2 ^ 1074) by reflexivity. assert (0 < 2 ^ 1074) by reflexivity. generalize dependent (2 ^ 1074). intros t _ Ht. clear - G Ht. nia. }
    generalize dependent (d * pos_pow 10 (- q) * 2 ^ 1074). generalize dependent ((2 ^ 25 - 1) * 2 ^ (103 + 1074)). intros t _ L v R1 G'. clear - L R1 G' P. assert (float_n b * pos_pow 10 q < t * pos_pow 10 q) by nia. lia.
Qed.

(** A decimal within a quarter of a unit is read as the float. *)
Lemma reads_back_near d q b : is_finite_float b -> float_m b < 2 ^ 24 - 1 ->
  4 * float_distance d q b < 2 ^ (float_e b + 1074) * pos_pow 10 q -> reads_back_float d q b.
Proof.
  intros H HM HD. assert (P := pos_pow_pos 10 q ltac:(lia)). destruct (float_range b H) as (M & E & C).
  assert (U : 0 < 2 ^ (float_e b + 1074)) by (apply Z.pow_pos_nonneg; lia).
  assert (GAP : forall c, is_finite_float c -> float_n c <> float_n b -> 2 ^ (float_e b + 1074) <= 2 * Z.abs (float_n c - float_n b)).
  { intros c HC HN. destruct (Z.lt_trichotomy (float_n b) (float_n c)) as [L|[L|L]]; [|congruence|].
    - assert (X := float_gap b c H HC L). rewrite Z.mul_add_distr_r in X. change (float_m b * 2 ^ (float_e b + 1074)) with (float_n b) in X. lia.
    - destruct (float_range c HC) as (M' & E' & C'). destruct (Z_le_gt_dec (float_e b) (float_e c)) as [G|G].
      + assert (X := float_gap c b HC H L). assert (2 ^ (float_e b + 1074) <= 2 ^ (float_e c + 1074)) by (apply Z.pow_le_mono_r; lia). rewrite Z.mul_add_distr_r in X. change (float_m c * 2 ^ (float_e c + 1074)) with (float_n c) in X. lia.
      + assert (2 ^ 23 <= float_m b) by lia. unfold float_n in *. assert (EQ : 2 ^ (float_e b + 1074) = 2 ^ (float_e b - float_e c - 1) * 2 * 2 ^ (float_e c + 1074)) by (change 2 with (2 ^ 1) at 3; rewrite <- !Z.pow_add_r by lia; f_equal; lia). rewrite EQ in *.
        assert (0 < 2 ^ (float_e c + 1074)) by (apply Z.pow_pos_nonneg; lia). assert (1 <= 2 ^ (float_e b - float_e c - 1)) by (assert (0 < 2 ^ (float_e b - float_e c - 1)) by (apply Z.pow_pos_nonneg; lia); lia).
        generalize dependent (2 ^ (float_e c + 1074)). generalize dependent (2 ^ (float_e b - float_e c - 1)). intros x Hx y HD L U Hy. assert (float_m c + 1 <= 2 ^ 24) by lia. change (2 ^ 24) with (2 * 2 ^ 23) in *. nia. }
  split.
  - intros c HC. destruct (Z.eq_dec (float_n c) (float_n b)) as [N|N]; [unfold float_distance; rewrite N; split; [lia|auto]|]. assert (X := GAP c HC N). clear GAP.
    unfold float_distance in *. generalize dependent (d * pos_pow 10 (- q) * 2 ^ 1074). intros v HD. assert (2 ^ (float_e b + 1074) * pos_pow 10 q <= 2 * Z.abs (float_n c * pos_pow 10 q - float_n b * pos_pow 10 q)).
    { rewrite <- Z.mul_sub_distr_r, Z.abs_mul, (Z.abs_eq (pos_pow 10 q)) by lia. nia. } lia.
  - assert (X : 4 * (d * pos_pow 10 (- q) * 2 ^ 1074) < (4 * float_n b + 2 ^ (float_e b + 1074)) * pos_pow 10 q) by (unfold float_distance in HD; lia).
    assert (B : 4 * float_n b + 2 ^ (float_e b + 1074) <= 4 * ((2 ^ 128 - 2 ^ 103) * 2 ^ 1074)).
    { unfold float_n. replace (4 * (float_m b * 2 ^ (float_e b + 1074)) + 2 ^ (float_e b + 1074)) with ((4 * float_m b + 1) * 2 ^ (float_e b + 1074)) by ring.
      assert (2 ^ (float_e b + 1074) <= 2 ^ (104 + 1074)) by (apply Z.pow_le_mono_r; lia). assert ((4 * float_m b + 1) * 2 ^ (float_e b + 1074) <= (2 ^ 26 - 7) * 2 ^ (104 + 1074)) by nia.
      assert ((2 ^ 26 - 7) * 2 ^ (104 + 1074) <= 4 * ((2 ^ 128 - 2 ^ 103) * 2 ^ 1074)) by (vm_compute; discriminate). lia. }
    assert (0 < 2 ^ 1074) by reflexivity. generalize dependent (2 ^ 1074). intros t X B Ht. clear - X B Ht P. apply (Z.mul_lt_mono_pos_r t); [exact Ht|].
    generalize dependent (4 * float_n b + 2 ^ (float_e b + 1074)). generalize (2 ^ 128 - 2 ^ 103). intros K S X B. apply (Z.mul_le_mono_nonneg_r _ _ (pos_pow 10 q)) in B; [|lia].
    replace (4 * (K * t) * pos_pow 10 q) with (4 * (K * pos_pow 10 q * t)) in B by ring. lia.
Qed.

(** ** A double is determined by its sign and value *)
Lemma canon_le m e m' e' : canon m e -> canon m' e' -> m * 2 ^ (e + 1074) = m' * 2 ^ (e' + 1074) -> e' <= e.
Proof.
  intros C C' E. destruct (Z_le_gt_dec e' e) as [G|G]; [exact G|exfalso]. assert (HM : 2 ^ 52 <= m') by (unfold canon in C, C'; lia). assert (HM' : m < 2 ^ 52 * 2) by (unfold canon in C; change (2 ^ 53) with (2 ^ 52 * 2) in C; lia).
  assert (HE : -1074 <= e) by (unfold canon in C; lia).
  assert (EQ : 2 ^ (e' + 1074) = 2 ^ (e' - e) * 2 ^ (e + 1074)) by (rewrite <- Z.pow_add_r by lia; f_equal; lia). rewrite EQ, Z.mul_assoc in E.
  assert (0 < 2 ^ (e + 1074)) by (apply Z.pow_pos_nonneg; lia). apply Z.mul_reg_r in E; [|lia].
  assert (2 <= 2 ^ (e' - e)) by (change 2 with (2 ^ 1) at 1; apply Z.pow_le_mono_r; lia). assert (2 ^ 52 * 2 <= m' * 2 ^ (e' - e)) by (apply Z.mul_le_mono_nonneg; lia). lia.
Qed.
Theorem double_determined x y : is_finite_double x -> is_finite_double y -> bits_negative x = bits_negative y -> double_n x = double_n y -> x = y.
Proof.
  intros HX HY HS HN. assert (CX := double_canon x HX). assert (CY := double_canon y HY). unfold double_n in HN.
  assert (E : double_e x = double_e y) by (apply Z.le_antisymm; [apply (canon_le _ _ _ _ CY CX); auto|apply (canon_le _ _ _ _ CX CY); auto]).
  rewrite E in HN. assert (0 < 2 ^ (double_e y + 1074)) by (apply Z.pow_pos_nonneg; [lia|]; unfold canon in CY; lia). apply Z.mul_reg_r in HN; [|lia].
  destruct HX as [DX FX], HY as [DY FY]. destruct (bits_split x DX) as (s & ex & fr & -> & Hs & Hex & Hfr & E1 & E2 & E3 & _). destruct (bits_split y DY) as (s' & ex' & fr' & -> & Hs' & Hex' & Hfr' & E1' & E2' & E3' & _).
  rewrite E3, E3' in HS. unfold double_m, double_e in *. rewrite E1, E1', E2, E2' in *. assert (s = s') as -> by lia. destruct (ex =? 0) eqn:G, (ex' =? 0) eqn:G'; f_equal; try lia; f_equal; lia.
Qed.
