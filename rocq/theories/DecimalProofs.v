(** Decimals with different exponents (SpecDecimal.v, SpecFloat.v): equality,
    reading back, and the nearest of the shortest decimals. *)
From Verif Require Import Base Lib Dragon SpecFloat SpecDecimal.
From Verif Require Import EstimateProofs DragonProofs ExactProofs ReadBack.

(** ** Equal decimals *)
Lemma same_decimal_iff d q d' q' M : q <= M -> q' <= M -> (same_decimal d q d' q' <-> d * 10 ^ (M - q) = d' * 10 ^ (M - q')).
Proof.
  intros H H'. unfold same_decimal, pos_pow. set (m := Z.max q q').
  assert (E1 : 10 ^ (M - q) = 10 ^ Z.max (q' - q) 0 * 10 ^ (M - m)) by (rewrite <- Z.pow_add_r by lia; f_equal; lia).
  assert (E2 : 10 ^ (M - q') = 10 ^ Z.max (q - q') 0 * 10 ^ (M - m)) by (rewrite <- Z.pow_add_r by lia; f_equal; lia).
  rewrite E1, E2. assert (P : 0 < 10 ^ (M - m)) by (apply Z.pow_pos_nonneg; lia).
  rewrite !Z.mul_assoc. split; [now intros ->|]. apply Z.mul_reg_r. lia.
Qed.

Lemma same_decimal_trans d1 q1 d2 q2 d3 q3 : same_decimal d1 q1 d2 q2 -> same_decimal d2 q2 d3 q3 -> same_decimal d1 q1 d3 q3.
Proof.
  set (M := Z.max q1 (Z.max q2 q3)). rewrite !(fun d q d' q' => same_decimal_iff d q d' q' M) by lia. intros -> ->. reflexivity.
Qed.
Lemma same_decimal_sym d1 q1 d2 q2 : same_decimal d1 q1 d2 q2 -> same_decimal d2 q2 d1 q1.
Proof. unfold same_decimal. now intros ->. Qed.

Lemma distance_scaled d q bits M : q <= M -> 0 <= M ->
  distance d q bits * 10 ^ (M - Z.max q 0) = Z.abs (d * 10 ^ (M - q) * 2 ^ 1074 - double_n bits * 10 ^ M).
Proof.
  intros H HM. unfold distance, pos_pow. set (T := 2 ^ 1074). clearbody T.
  assert (P : 0 < 10 ^ (M - Z.max q 0)) by (apply Z.pow_pos_nonneg; lia).
  rewrite <- (Z.abs_eq (10 ^ (M - Z.max q 0))) by lia. rewrite <- Z.abs_mul. f_equal.
  assert (E1 : 10 ^ (M - q) = 10 ^ Z.max (- q) 0 * 10 ^ (M - Z.max q 0)) by (rewrite <- Z.pow_add_r by lia; f_equal; lia).
  assert (E2 : 10 ^ M = 10 ^ Z.max q 0 * 10 ^ (M - Z.max q 0)) by (rewrite <- Z.pow_add_r by lia; f_equal; lia).
  rewrite E1, E2. ring.
Qed.

Lemma reads_back_same d q d' q' bits : same_decimal d q d' q' -> reads_back d q bits -> reads_back d' q' bits.
Proof.
  set (M := Z.max (Z.max q q') 0). intros HS [R1 R2]. rewrite (same_decimal_iff d q d' q' M) in HS by lia.
  assert (DE : forall b, distance d q b * 10 ^ (M - Z.max q 0) = distance d' q' b * 10 ^ (M - Z.max q' 0)).
  { intros b. rewrite !distance_scaled by lia. now rewrite HS. }
  assert (P : 0 < 10 ^ (M - Z.max q 0)) by (apply Z.pow_pos_nonneg; lia).
  assert (P' : 0 < 10 ^ (M - Z.max q' 0)) by (apply Z.pow_pos_nonneg; lia). split.
  - intros bits' HB. destruct (R1 bits' HB) as [L T]. assert (D1 := DE bits). assert (D2 := DE bits').
    set (u := 10 ^ (M - Z.max q 0)) in *. set (v := 10 ^ (M - Z.max q' 0)) in *. clearbody u v. split.
    + apply (Zmult_le_reg_r _ _ v); [lia|]. rewrite <- D1, <- D2. apply Z.mul_le_mono_nonneg_r; lia.
    + intros E. apply T. rewrite E in D1. rewrite <- D2 in D1. apply Z.mul_reg_r in D1; lia.
  - set (T := 2 ^ 1024 - 2 ^ 970) in *. clearbody T. unfold pos_pow in *. clear R1.
    assert (E1 : 10 ^ (M - q) = 10 ^ Z.max (- q) 0 * 10 ^ (M - Z.max q 0)) by (rewrite <- Z.pow_add_r by lia; f_equal; lia).
    assert (E2 : 10 ^ M = 10 ^ Z.max q 0 * 10 ^ (M - Z.max q 0)) by (rewrite <- Z.pow_add_r by lia; f_equal; lia).
    assert (E1' : 10 ^ (M - q') = 10 ^ Z.max (- q') 0 * 10 ^ (M - Z.max q' 0)) by (rewrite <- Z.pow_add_r by lia; f_equal; lia).
    assert (E2' : 10 ^ M = 10 ^ Z.max q' 0 * 10 ^ (M - Z.max q' 0)) by (rewrite <- Z.pow_add_r by lia; f_equal; lia).
    apply (Zmult_lt_reg_r _ _ (10 ^ (M - Z.max q' 0))); [lia|].
    rewrite <- !Z.mul_assoc, <- E1', <- E2', <- HS, E1, E2, !Z.mul_assoc. apply Zmult_lt_compat_r; lia.
Qed.

(** ** The nearest decimal *)
Definition gap (M d q bits : Z) : Z := Z.abs (d * 10 ^ (M - q) * 2 ^ 1074 - double_n bits * 10 ^ M).

Lemma gap_distance M d q q' bits : Z.abs q + Z.abs q' <= M ->
  gap M d q bits = distance d q bits * pos_pow 10 q' * 10 ^ (M - Z.max q 0 - Z.max q' 0).
Proof.
  intros HM. unfold gap. rewrite <- (distance_scaled d q bits M) by lia. rewrite <- Z.mul_assoc. f_equal. unfold pos_pow.
  rewrite <- Z.pow_add_r by lia. f_equal. lia.
Qed.

Lemma nearest_iff M d q d' q' bits : Z.abs q + Z.abs q' <= M ->
  nearest d q d' q' bits <->
  gap M d q bits < gap M d' q' bits \/ (gap M d q bits = gap M d' q' bits /\ d' * 10 ^ (M - q') <= d * 10 ^ (M - q)).
Proof.
  intros HM. unfold nearest. rewrite (gap_distance M d q q' bits HM), (gap_distance M d' q' q bits) by lia.
  replace (M - Z.max q' 0 - Z.max q 0) with (M - Z.max q 0 - Z.max q' 0) by lia.
  assert (P : 0 < 10 ^ (M - Z.max q 0 - Z.max q' 0)) by (apply Z.pow_pos_nonneg; lia).
  set (w := 10 ^ (M - Z.max q 0 - Z.max q' 0)) in *. clearbody w.
  set (a := distance d q bits * pos_pow 10 q'). set (b := distance d' q' bits * pos_pow 10 q). clearbody a b.
  assert (E1 : 10 ^ (M - q) = pos_pow 10 (q' - q) * 10 ^ (M - Z.max q q')) by (unfold pos_pow; rewrite <- Z.pow_add_r by lia; f_equal; lia).
  assert (E2 : 10 ^ (M - q') = pos_pow 10 (q - q') * 10 ^ (M - Z.max q q')) by (unfold pos_pow; rewrite <- Z.pow_add_r by lia; f_equal; lia).
  rewrite E1, E2, !Z.mul_assoc. assert (P' : 0 < 10 ^ (M - Z.max q q')) by (apply Z.pow_pos_nonneg; lia).
  set (v := 10 ^ (M - Z.max q q')) in *. clearbody v.
  rewrite <- Z.mul_lt_mono_pos_r, <- Z.mul_le_mono_pos_r by assumption. rewrite Z.mul_cancel_r by lia. reflexivity.
Qed.

(** Between two decimals that are read back. *)
Lemma reads_back_gap M d q bits : Z.abs q <= M -> reads_back d q bits <->
  (forall bits', is_finite_double bits' -> gap M d q bits <= gap M d q bits' /\
     (gap M d q bits = gap M d q bits' -> double_n bits' = double_n bits \/ Z.even (double_m bits) = true)) /\
  d * 10 ^ (M - q) < (2 ^ 1024 - 2 ^ 970) * 10 ^ M.
Proof.
  intros HM. unfold reads_back.
  assert (G : forall b, gap M d q b = distance d q b * 10 ^ (M - Z.max q 0)).
  { intros b. rewrite (gap_distance M d q 0 b) by lia. change (pos_pow 10 0) with 1. rewrite Z.mul_1_r. f_equal. f_equal. lia. }
  assert (P : 0 < 10 ^ (M - Z.max q 0)) by (apply Z.pow_pos_nonneg; lia).
  assert (E1 : 10 ^ (M - q) = pos_pow 10 (- q) * 10 ^ (M - Z.max q 0)) by (unfold pos_pow; rewrite <- Z.pow_add_r by lia; f_equal; lia).
  assert (E2 : 10 ^ M = pos_pow 10 q * 10 ^ (M - Z.max q 0)) by (unfold pos_pow; rewrite <- Z.pow_add_r by lia; f_equal; lia).
  rewrite E1, E2, !Z.mul_assoc. set (K := 2 ^ 1024 - 2 ^ 970). clearbody K.
  set (w := 10 ^ (M - Z.max q 0)) in *. clearbody w. rewrite <- Z.mul_lt_mono_pos_r by assumption.
  split; (intros [H HO]; split; [|exact HO]); intros bits' HF; specialize (H bits' HF); rewrite !G in *;
    rewrite <- Z.mul_le_mono_pos_r, Z.mul_cancel_r in * by lia; exact H.
Qed.

Lemma reads_back_between M d q d1 q1 d2 q2 bits : Z.abs q <= M -> Z.abs q1 <= M -> Z.abs q2 <= M ->
  d1 * 10 ^ (M - q1) <= d * 10 ^ (M - q) <= d2 * 10 ^ (M - q2) ->
  reads_back d1 q1 bits -> reads_back d2 q2 bits -> reads_back d q bits.
Proof.
  intros HM HM1 HM2 HB. rewrite !(reads_back_gap M) by assumption. unfold gap. intros [R1 O1] [R2 O2]. split; [|lia].
  set (x := d * 10 ^ (M - q)) in *. set (x1 := d1 * 10 ^ (M - q1)) in *. set (x2 := d2 * 10 ^ (M - q2)) in *. clearbody x x1 x2.
  intros bits' HF. specialize (R1 bits' HF). specialize (R2 bits' HF).
  assert (P : 0 < 10 ^ M) by (apply Z.pow_pos_nonneg; lia). assert (P2 : 0 < 2 ^ 1074) by reflexivity.
  set (T := 2 ^ 1074) in *. clearbody T. set (c := double_n bits * 10 ^ M) in *. set (c' := double_n bits' * 10 ^ M) in *.
  assert (EC : double_n bits' = double_n bits <-> c = c').
  { unfold c, c'. split; [now intros ->|]. intros E. symmetry. apply Z.mul_reg_r in E; [exact E|clear - P; lia]. }
  clearbody c c'.
  assert (HX : x1 * T <= x * T <= x2 * T) by (split; apply Z.mul_le_mono_nonneg_r; clear - HB P2; lia). destruct R1 as [R1 S1], R2 as [R2 S2].
  set (y := x * T) in *. set (y1 := x1 * T) in *. set (y2 := x2 * T) in *. clearbody y y1 y2.
  clear - R1 R2 S1 S2 HX EC. split; [clear S1 S2 EC; lia|].
  intros E. destruct (Z.lt_trichotomy c c') as [G|[G|G]]; [|left; tauto|].
  - destruct S2 as [S2|S2]; [lia| |now right]. apply EC in S2. lia.
  - destruct S1 as [S1|S1]; [lia| |now right]. apply EC in S1. lia.
Qed.

Lemma small_shortest bits q : is_finite_double bits -> double_m bits <> 0 -> (double_m bits = 2 ^ 52 -> double_e bits <> -1074) ->
  reads_back 1 q bits -> reads_back 9 (q + 1) bits -> q = 323 /\ double_n bits = 2.
Proof.
  intros HF HM HMIN R1 R9. destruct (decode_units bits HF HM) as (D & _).
  apply reads_back_inside in R1, R9; try assumption. unfold dec_inside in R1, R9. apply inside_units in R1, R9; try apply D.
  destruct D as (D1 & D2 & D3 & D4). set (dd := d_finite (decode bits)) in *. rewrite D2 in *.
  assert (PU : 0 < 2 ^ (f_exp dd + 1076)) by (apply pow2_pos; lia). set (M := Z.abs q + 1).
  assert (PM : 0 < 10 ^ M) by (apply Z.pow_pos_nonneg; lia). assert (P1 : 0 < 10 ^ (M - q - 1)) by (apply Z.pow_pos_nonneg; lia).
  assert (I1 : 2 ^ 1076 * (10 * 10 ^ (M - q - 1)) <= (f_mant dd + f_plus dd) * 2 ^ (f_exp dd + 1076) * 10 ^ M).
  { assert (X : 1 * 2 ^ 1076 * pos_pow 10 (- q) <= (f_mant dd + f_plus dd) * 2 ^ (f_exp dd + 1076) * pos_pow 10 q) by (unfold inside in R1; lia).
    replace (10 * 10 ^ (M - q - 1)) with (pos_pow 10 (- q) * 10 ^ (M - Z.max q 0))
      by (unfold pos_pow; change 10 with (10 ^ 1) at 3; rewrite <- !Z.pow_add_r by lia; f_equal; lia).
    replace (10 ^ M) with (pos_pow 10 q * 10 ^ (M - Z.max q 0)) by (unfold pos_pow; rewrite <- !Z.pow_add_r by lia; f_equal; lia).
    assert (P : 0 < 10 ^ (M - Z.max q 0)) by (apply Z.pow_pos_nonneg; lia). rewrite !Z.mul_assoc. apply Z.mul_le_mono_nonneg_r; lia. }
  assert (I9 : (f_mant dd - 1) * 2 ^ (f_exp dd + 1076) * 10 ^ M <= 2 ^ 1076 * (9 * 10 ^ (M - q - 1))).
  { assert (X : (f_mant dd - 1) * 2 ^ (f_exp dd + 1076) * pos_pow 10 (q + 1) <= 9 * 2 ^ 1076 * pos_pow 10 (- (q + 1))) by (unfold inside in R9; lia).
    replace (10 ^ (M - q - 1)) with (pos_pow 10 (- (q + 1)) * 10 ^ (M - Z.max (q + 1) 0)) by (unfold pos_pow; rewrite <- !Z.pow_add_r by lia; f_equal; lia).
    replace (10 ^ M) with (pos_pow 10 (q + 1) * 10 ^ (M - Z.max (q + 1) 0)) by (unfold pos_pow; rewrite <- !Z.pow_add_r by lia; f_equal; lia).
    assert (P : 0 < 10 ^ (M - Z.max (q + 1) 0)) by (apply Z.pow_pos_nonneg; lia).
    rewrite !Z.mul_assoc. replace (2 ^ 1076 * 9) with (9 * 2 ^ 1076) by reflexivity. apply Z.mul_le_mono_nonneg_r; lia. }
  assert (SM : f_mant dd <= 28 /\ f_mant dd < 2 ^ 52).
  { set (W := 2 ^ 1076) in *. clearbody W. set (u := 2 ^ (f_exp dd + 1076)) in *. clearbody u. set (w := 10 ^ M) in *. set (z := 10 ^ (M - q - 1)) in *. clearbody w z M.
    assert (X : 10 * ((f_mant dd - 1) * (u * w)) <= 9 * ((f_mant dd + f_plus dd) * (u * w))) by lia.
    assert (0 < u * w) by nia. set (y := u * w) in *. clearbody y. assert (f_mant dd <= 28); [|split; [assumption|]; change (2 ^ 52) with 4503599627370496; lia].
    assert (10 * (f_mant dd - 1) <= 9 * (f_mant dd + f_plus dd)) by nia. lia. }
  assert (D3' : f_plus dd = 1) by (destruct D3 as [D3|[_ D3]]; [exact D3|exfalso; rewrite D3 in SM; destruct SM as [SM _]; vm_compute in SM; now apply SM]).
  assert (SUB : double_m bits < 2 ^ 52).
  { destruct (Z_lt_ge_dec (double_m bits) (2 ^ 52)) as [L|L]; [exact L|]. exfalso.
    destruct (decode_units bits HF HM) as (_ & _ & EN & _). fold dd in EN. unfold units in EN. assert (C := double_canon bits HF). unfold canon in C.
    destruct (decode_ok bits (proj1 HF)) as (_ & _ & HFIN & _ & _ & H). specialize (H (proj2 HFIN (conj HF HM))). cbv zeta in H.
    destruct H as (_ & T & EM & _). fold dd in EM, T. assert (PT : 1 <= 2 ^ (double_e bits - f_exp dd)) by (assert (P := pow2_pos (double_e bits - f_exp dd) ltac:(lia)); lia). nia. }
  destruct (decode_sub bits HF HM SUB) as (S1 & S2 & S3). fold dd in S1, S2, S3. rewrite S1, S2, S3 in *. change (-1075 + 1076) with 1 in *. change (2 ^ 1) with 2 in *.
  assert (NN : double_n bits = double_m bits).
  { assert (C := double_canon bits HF). unfold canon in C. unfold double_n. replace (double_e bits) with (-1074) by lia. change (2 ^ (-1074 + 1074)) with 1. lia. }
  rewrite NN. assert (M1 : 1 <= double_m bits) by lia. set (m := double_m bits) in *. clearbody m. clear NN SUB S1 S2 S3 D1 D2 D3 D3' D4 R1 R9 HMIN HF.
  assert (Q0 : 0 <= q).
  { destruct (Z_lt_ge_dec q 0) as [L|L]; [|lia]. exfalso. unfold M in *. replace (Z.abs q + 1 - q - 1) with (Z.abs q + (- q)) in I1 by lia.
    rewrite !Z.pow_add_r in I1 by lia. change (10 ^ 1) with 10 in I1. assert (A1 : 0 < 10 ^ (- q)) by (apply Z.pow_pos_nonneg; lia). assert (A2 : 0 < 10 ^ Z.abs q) by (apply Z.pow_pos_nonneg; lia).
    assert (BIG : 100 <= 2 ^ 1076) by (vm_compute; discriminate). set (W := 2 ^ 1076) in *. clearbody W. set (a := 10 ^ Z.abs q) in *. set (b := 10 ^ (- q)) in *. clearbody a b.
    assert (W * (10 * (a * b)) <= 58 * (a * 10) * 2) by nia. assert (100 * (10 * (a * b)) <= W * (10 * (a * b))) by (apply Z.mul_le_mono_nonneg_r; nia). nia. }
  unfold M in *. replace (Z.abs q + 1 - q - 1) with 0 in * by lia. change (10 ^ 0) with 1 in *. rewrite !Z.mul_1_r in *.
  replace (Z.abs q + 1) with (1 + q) in * by lia. rewrite Z.pow_add_r in * by lia. change (10 ^ 1) with 10 in *. clear M PM P1 PU.
  assert (HQ : q = 323).
  { destruct (Z.lt_trichotomy q 323) as [L|[L|L]]; [exfalso|exact L|exfalso].
    - assert (A : 10 ^ q <= 10 ^ 322) by (apply Z.pow_le_mono_r; lia). assert (B : 2 ^ 1076 > 38 * 10 ^ 322) by reflexivity.
      set (W := 2 ^ 1076) in *. set (t := 10 ^ 322) in *. assert (0 < 10 ^ q) by (apply Z.pow_pos_nonneg; lia). set (r := 10 ^ q) in *. clearbody W t r. 
      assert (X : 200 * ((2 * m - 1) * r) <= 180 * ((2 * m + 1) * r)) by lia. assert (m <= 9) by nia. assert ((2 * m + 1) * r <= 19 * r) by nia. lia.
    - assert (A : 10 ^ 324 <= 10 ^ q) by (apply Z.pow_le_mono_r; lia). assert (B : 2 ^ 1076 * 9 < 20 * 10 ^ 324) by reflexivity.
      set (W := 2 ^ 1076) in *. set (t := 10 ^ 324) in *. set (r := 10 ^ q) in *. assert (0 < t) by reflexivity. clearbody W t r. assert (1 * r <= (2 * m - 1) * r) by nia. lia. }
  split; [exact HQ|]. subst q. assert (B1 : 2 ^ 1076 > 2 * (4 * 10 ^ 323)) by reflexivity. assert (B2 : 2 ^ 1076 < 2 * (5 * 10 ^ 323)) by reflexivity.
  set (W := 2 ^ 1076) in *. set (r := 10 ^ 323) in *. assert (0 < r) by reflexivity. clearbody W r. nia.
Qed.

Theorem closest_double bits ds k : is_finite_double bits -> double_m bits <> 0 -> format_shortest (d_finite (decode bits)) = Ok (ds, k) ->
  let q := Z.of_nat (length ds) - k in
  forall d' q', 0 < d' < 10 ^ Z.of_nat (length ds) -> reads_back d' q' bits -> nearest (digits_value ds) q d' q' bits.
Proof.
  intros HF HM ES. cbv zeta. destruct (shortest_double bits HF HM) as (ds0 & k0 & ES0 & A & L & _ & F & RB & SH & CL).
  rewrite ES in ES0. injection ES0 as <- <-. set (n := Z.of_nat (length ds)) in *. set (q := n - k) in *. set (d := digits_value ds) in *.
  assert (HN : 1 <= n) by (unfold n; lia). assert (LN : n = Z.of_nat (length ds)) by reflexivity. clearbody q n. intros d' q' Hd R.
  set (M := Z.abs q + Z.abs q' + 1). rewrite (nearest_iff M) by lia. unfold gap.
  assert (P2 : 0 < 2 ^ 1074) by reflexivity.
  destruct (Z_le_gt_dec q' q) as [G|G].
  - (* a multiple of 10^-q *)
    assert (R' : reads_back (d' * 10 ^ (q - q')) q bits).
    { eapply reads_back_same; [|exact R]. rewrite (same_decimal_iff _ _ _ _ q) by lia. rewrite Z.sub_diag. change (10 ^ 0) with 1. lia. }
    destruct (CL _ R') as [C1 C2]. assert (S1 := distance_scaled d q bits M ltac:(lia) ltac:(lia)).
    assert (S2 := distance_scaled (d' * 10 ^ (q - q')) q bits M ltac:(lia) ltac:(lia)).
    replace (d' * 10 ^ (q - q') * 10 ^ (M - q)) with (d' * 10 ^ (M - q')) in S2
      by (replace (M - q') with (q - q' + (M - q)) by lia; rewrite Z.pow_add_r by lia; ring).
    rewrite <- S1, <- S2.
    assert (P : 0 < 10 ^ (M - Z.max q 0)) by (apply Z.pow_pos_nonneg; lia).
    rewrite <- Z.mul_lt_mono_pos_r, Z.mul_cancel_r by lia.
    destruct (Z_lt_ge_dec d (d' * 10 ^ (q - q'))) as [GD|GD]; [left; now apply C2|].
    assert (d' * 10 ^ (M - q') <= d * 10 ^ (M - q)); [|lia].
    replace (M - q') with (q - q' + (M - q)) by lia. rewrite Z.pow_add_r, Z.mul_assoc by lia. apply Z.mul_le_mono_nonneg_r; [apply Z.pow_nonneg; lia|lia].
  - assert (XB : d' * 10 ^ (M - q') < 10 ^ (n - 1) * 10 ^ (M - q)).
    { eapply Z.lt_le_trans; [apply Zmult_lt_compat_r; [apply Z.pow_pos_nonneg; lia|apply Hd]|]. rewrite <- !Z.pow_add_r by lia. apply Z.pow_le_mono_r; lia. }
    assert (PQ : 0 < 10 ^ (M - q)) by (apply Z.pow_pos_nonneg; lia).
    destruct (Z_lt_ge_dec (10 ^ (n - 1)) d) as [GD|GD].
    + assert (R' : reads_back (d - 1) q bits).
      { apply (reads_back_between M _ _ d' q' d q); try lia; try assumption. split; [|apply Z.mul_le_mono_nonneg_r; lia].
        assert (10 ^ (n - 1) * 10 ^ (M - q) <= (d - 1) * 10 ^ (M - q)) by (apply Z.mul_le_mono_nonneg_r; lia). lia. }
      destruct (CL _ R') as [C1 _]. assert (S1 := distance_scaled d q bits M ltac:(lia) ltac:(lia)).
      assert (S2 := distance_scaled (d - 1) q bits M ltac:(lia) ltac:(lia)). assert (P : 0 < 10 ^ (M - Z.max q 0)) by (apply Z.pow_pos_nonneg; lia).
      assert (C3 : distance d q bits * 10 ^ (M - Z.max q 0) <= distance (d - 1) q bits * 10 ^ (M - Z.max q 0)) by (apply Z.mul_le_mono_nonneg_r; lia).
      rewrite S1, S2 in C3. clear S1 S2 C1 CL SH. left. set (T := 2 ^ 1074) in *. clearbody T. set (c := double_n bits * 10 ^ M) in *. clearbody c.
      assert (Y : 10 ^ (n - 1) * 10 ^ (M - q) <= (d - 1) * 10 ^ (M - q)) by (apply Z.mul_le_mono_nonneg_r; lia).
      replace (d * 10 ^ (M - q)) with ((d - 1) * 10 ^ (M - q) + 10 ^ (M - q)) in * by ring.
      set (y := (d - 1) * 10 ^ (M - q)) in *. set (w := 10 ^ (M - q)) in *. set (x := d' * 10 ^ (M - q')) in *. clearbody x y.
      assert (X1 : x * T < y * T) by nia. assert (X2 : 0 < w * T) by nia. rewrite Z.mul_add_distr_r in *. lia.
    + (* a power of ten *)
      assert (ED : d = 10 ^ (n - 1)) by lia.
      assert (R1 : reads_back 1 (q - (n - 1)) bits).
      { eapply reads_back_same; [|exact RB]. rewrite (same_decimal_iff _ _ _ _ q) by lia. rewrite Z.sub_diag. replace (q - (q - (n - 1))) with (n - 1) by lia. rewrite ED. change (10 ^ 0) with 1. lia. }
      assert (N1 : n = 1).
      { destruct (Z.eq_dec n 1) as [E|E]; [exact E|]. exfalso. apply (SH 1 (q - (n - 1))); [|exact R1].
        split; [lia|]. apply (Z.pow_gt_1 10); lia. }
      rewrite N1 in *. change (1 - 1) with 0 in *. change (10 ^ 0) with 1 in *. change (10 ^ 1) with 10 in *. rewrite ED in *. rewrite Z.sub_0_r in R1.
      assert (XB9 : d' * 10 ^ (M - q') <= 9 * 10 ^ (M - (q + 1))).
      { assert (10 ^ (M - q') <= 10 ^ (M - (q + 1))) by (apply Z.pow_le_mono_r; lia). assert (0 < 10 ^ (M - q')) by (apply Z.pow_pos_nonneg; lia). nia. }
      assert (E10 : 10 ^ (M - q) = 10 * 10 ^ (M - (q + 1))) by (replace (M - q) with (1 + (M - (q + 1))) by lia; rewrite Z.pow_add_r by lia; reflexivity).
      assert (R9 : reads_back 9 (q + 1) bits).
      { apply (reads_back_between M _ _ d' q' 1 q); try lia; try assumption. }
      assert (MIN : double_m bits = 2 ^ 52 -> double_e bits <> -1074).
      { intros M1 M2. assert (HB := min_normal bits HF M1 M2). destruct (min_normal_decode bits HB) as [EX _]. rewrite EX, min_normal_shortest in ES.
        injection ES as <- <-. discriminate LN. }
      destruct (small_shortest bits q HF HM MIN R1 R9) as [-> EN]. rewrite EN. left.
      replace M with ((M - (323 + 1)) + 324) at 2 4 by lia. rewrite !(Z.pow_add_r 10 (M - (323 + 1))) by lia. rewrite E10.
      assert (PW : 0 < 10 ^ (M - (323 + 1))) by (apply Z.pow_pos_nonneg; lia). set (w := 10 ^ (M - (323 + 1))) in *.
      set (x := d' * 10 ^ (M - q')) in *. clear SH CL RB R R1 R9 ED XB E10 PQ. clearbody x w.
      assert (B1 : 10 * 2 ^ 1074 - 2 * 10 ^ 324 < 2 * 10 ^ 324 - 9 * 2 ^ 1074) by reflexivity.
      assert (B2 : 0 < 10 * 2 ^ 1074 - 2 * 10 ^ 324) by reflexivity. set (T := 2 ^ 1074) in *. set (t := 10 ^ 324) in *. clearbody T t.
      rewrite !Z.mul_1_l. assert (x * T <= 9 * w * T) by nia.
      assert ((10 * T - 2 * t) * w < (2 * t - 9 * T) * w) by (apply Zmult_lt_compat_r; lia). assert (0 < (10 * T - 2 * t) * w) by nia. lia.
Qed.

Lemma nearest_same d q d1 q1 d' q' bits : same_decimal d q d1 q1 -> nearest d1 q1 d' q' bits -> nearest d q d' q' bits.
Proof.
  set (M := Z.abs q + Z.abs q1 + Z.abs q'). rewrite (same_decimal_iff d q d1 q1 M), !(nearest_iff M) by lia. unfold gap. intros ->. auto.
Qed.
Lemma nearest_both d q d' q' bits : nearest d q d' q' bits -> nearest d' q' d q bits -> same_decimal d q d' q'.
Proof. set (M := Z.abs q + Z.abs q'). rewrite (same_decimal_iff d q d' q' M), !(nearest_iff M) by lia. lia. Qed.
Lemma reads_back_nonzero d q bits : double_m bits <> 0 -> is_finite_double bits -> reads_back d q bits -> d <> 0.
Proof.
  intros HM HF [R _] ->. destruct (R 0) as [L _]; [split; [unfold is_double; lia|vm_compute; discriminate]|].
  unfold distance in L. rewrite Z.mul_0_l in L. change (double_n 0) with 0 in L. assert (P : 0 < pos_pow 10 q) by (apply pos_pow_pos; lia).
  assert (N : 0 < double_n bits); [|nia]. assert (C := double_canon bits HF). unfold canon in C. unfold double_n.
  assert (0 < 2 ^ (double_e bits + 1074)) by (apply Z.pow_pos_nonneg; lia). nia.
Qed.
