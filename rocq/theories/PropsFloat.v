(** C30, C32, C33, C34, C35: digits of floating-point numbers. *)
From Verif Require Import Base Lib Conversion Bignum Dragon SpecFloat SpecDecimal EstimateProofs DragonProofs ExactProofs ReadBack DecimalProofs.

(** The doubles used in the examples. *)
Definition d_0_1 : Z := 4591870180066957722.              (* 0.1 *)
Definition d_pi : Z := 4614256656552045848.               (* 3.141592653589793 *)
Definition d_max : Z := 9218868437227405311.              (* the largest *)
Definition d_min_normal : Z := 4503599627370496.
Definition d_min : Z := 1.                                (* the smallest, subnormal *)
Definition d_2_5 : Z := 4612811918334230528.              (* 2.5 *)

Lemma finite_dec bits : (0 <=? bits) && (bits <? 2 ^ 64) && negb (bits_exponent bits =? 2047) = true -> is_finite_double bits.
Proof. intros H. unfold is_finite_double, is_double. lia. Qed.

(** ** C30: decode *)
Theorem C30_sign_and_category : forall bits, is_double bits ->
  d_negative (decode bits) = bits_negative bits /\
  (d_category (decode bits) = cat_zero <-> is_finite_double bits /\ double_m bits = 0) /\
  (d_category (decode bits) = cat_finite <-> is_finite_double bits /\ double_m bits <> 0) /\
  (d_category (decode bits) = cat_infinity <-> is_infinity bits) /\
  (d_category (decode bits) = cat_nan <-> is_nan bits).
Proof. intros bits H. destruct (decode_ok bits H) as (H1 & H2 & H3 & H4 & H5 & _). auto. Qed.
Print Assumptions C30_sign_and_category.

(** The value is [f_mant * 2^f_exp]; in units of [2^f_exp]. *)
Theorem C30_value : forall bits, is_finite_double bits -> double_m bits <> 0 ->
  let d := d_finite (decode bits) in
  f_exp d <= double_e bits /\ f_mant d = double_m bits * 2 ^ (double_e bits - f_exp d).
Proof.
  intros bits HF HM. destruct (decode_ok bits (proj1 HF)) as (_ & _ & H3 & _ & _ & H). specialize (H (proj2 H3 (conj HF HM))).
  cbv zeta in H |- *. destruct H as (_ & T & E & _). split; [lia|exact E].
Qed.
Print Assumptions C30_value.

(** No other double lies nearer than twice [f_plus] above and twice [f_minus]
    below, in units of 2^-1076. *)
Theorem C30_neighbours : forall bits bits', is_finite_double bits -> double_m bits <> 0 -> is_finite_double bits' ->
  let d := d_finite (decode bits) in let u := 2 ^ (f_exp d + 1076) in
  let n := 4 * double_n bits in let n' := 4 * double_n bits' in
  n = f_mant d * u /\ (n' = n \/ n + 2 * f_plus d * u <= n' \/ n' <= n - 2 * f_minus d * u).
Proof.
  intros bits bits' HF HM HF'. cbv zeta.
  assert (EU : forall b, is_finite_double b -> 4 * double_n b = units (double_m b) (double_e b)).
  { intros b Hb. assert (C := double_canon b Hb). unfold double_n, units.
    replace (double_e b + 1076) with (2 + (double_e b + 1074)) by lia. rewrite (Z.pow_add_r 2 2) by (unfold canon in C; lia). change (2 ^ 2) with 4. ring. }
  rewrite !EU by assumption. destruct (decode_units bits HF HM) as (_ & _ & EN & NB & _). rewrite EN. split; [reflexivity|].
  specialize (NB bits' HF'). cbv zeta in NB. lia.
Qed.
Print Assumptions C30_neighbours.

(** A decimal in the interval between the half distances (with its ends if the
    mantissa is marked inclusive) is read back as the double, and all decimals which
    are read back lie in it; only for the smallest normal number it is smaller. *)
Theorem C30_interval : forall bits d q, is_finite_double bits -> double_m bits <> 0 ->
  let dec := d_finite (decode bits) in
  let inside := decimal_inside (f_inclusive dec) (f_mant dec - f_minus dec) (f_mant dec + f_plus dec) (f_exp dec) d q in
  (q < 1075 -> inside -> reads_back d q bits) /\
  (bits mod 2 ^ 63 <> 2 ^ 52 -> reads_back d q bits -> inside).
Proof.
  intros bits d q HF HM. cbv zeta. split.
  - intros Hq HI. now apply inside_reads_back.
  - intros HN R. apply reads_back_inside; try assumption. intros H1 H2. apply HN.
    destruct (min_normal bits HF H1 H2) as [-> | ->]; reflexivity.
Qed.
Print Assumptions C30_interval.

Example C30_case : is_finite_double d_0_1 /\ double_m d_0_1 <> 0 /\
  decode d_0_1 = mk_decode false cat_finite (mk_finite 14411518807585588 1 1 (-57) true) /\
  decode (2 ^ 63) = mk_decode true cat_zero (mk_finite 0 0 0 0 false) /\
  d_category (decode 9218868437227405312) = cat_infinity /\ d_category (decode 18446744073709551615) = cat_nan.
Proof. split; [apply finite_dec; reflexivity|]. vm_compute. repeat split; discriminate. Qed.

(** ** C32: no overflow *)
Theorem C32_shortest_total : forall bits, is_finite_double bits -> double_m bits <> 0 ->
  exists r, format_shortest (d_finite (decode bits)) = Ok r.
Proof. intros bits HF HM. destruct (shortest_double bits HF HM) as (ds & k & E & _). now exists (ds, k). Qed.
Print Assumptions C32_shortest_total.

Theorem C32_exact_total : forall bits N, is_finite_double bits -> double_m bits <> 0 ->
  (1 <= N -> exists r, format_exact (d_finite (decode bits)) mode_significand N = Ok r) /\
  (0 <= N -> exists r, format_exact (d_finite (decode bits)) mode_decimal_point N = Ok r).
Proof.
  intros bits N HF HM. split; intros HN.
  - destruct (significand_double bits N HF HM HN) as (ds & k & k1 & E & _). now exists (ds, k).
  - destruct (decimal_double bits N HF HM HN) as (ds & k & E & _). now exists (ds, k).
Qed.
Print Assumptions C32_exact_total.

Example C32_case : is_finite_double d_max /\ double_m d_max <> 0 /\ is_finite_double d_min /\ double_m d_min <> 0 /\
  format_shortest (d_finite (decode d_max)) = Ok (str "17976931348623157", 309) /\
  format_shortest (d_finite (decode d_min)) = Ok (str "5", -323) /\
  format_exact (d_finite (decode d_max)) mode_significand 20 = Ok (str "17976931348623157081", 309) /\
  (exists ds, format_exact (d_finite (decode d_min)) mode_significand 40 = Ok (ds, -323) /\ length ds = 40%nat).
Proof.
  split; [apply finite_dec; reflexivity|]. split; [discriminate|]. split; [apply finite_dec; reflexivity|]. split; [discriminate|].
  split; [vm_compute; reflexivity|]. split; [vm_compute; reflexivity|]. split; [vm_compute; reflexivity|]. eexists; split; vm_compute; reflexivity.
Qed.

(** ** C33: the shortest digits are read back as the same double *)
Theorem C33_reads_back : forall bits, is_finite_double bits -> double_m bits <> 0 ->
  exists ds k, format_shortest (d_finite (decode bits)) = Ok (ds, k) /\ all_digits ds /\
    reads_back (digits_value ds) (Z.of_nat (length ds) - k) bits.
Proof.
  intros bits HF HM. destruct (shortest_double bits HF HM) as (ds & k & E & A & _ & _ & _ & R & _). exists ds, k. auto.
Qed.
Print Assumptions C33_reads_back.

(** At most one magnitude is read. *)
Theorem C33_unique : forall bits bits' d q, is_finite_double bits -> is_finite_double bits' ->
  reads_back d q bits -> reads_back d q bits' -> double_n bits = double_n bits'.
Proof. exact reads_back_unique. Qed.
Print Assumptions C33_unique.

(** Hence different magnitudes have different digits or exponents. *)
Theorem C33_injective : forall bits bits', is_finite_double bits -> double_m bits <> 0 -> is_finite_double bits' -> double_m bits' <> 0 ->
  format_shortest (d_finite (decode bits)) = format_shortest (d_finite (decode bits')) -> double_n bits = double_n bits'.
Proof.
  intros bits bits' HF HM HF' HM' E.
  destruct (shortest_double bits HF HM) as (ds & k & E1 & A & _ & _ & _ & R & _).
  destruct (shortest_double bits' HF' HM') as (ds' & k' & E1' & A' & _ & _ & _ & R' & _).
  rewrite E1, E1' in E. injection E as <- <-. exact (reads_back_unique _ _ _ _ HF HF' R R').
Qed.
Print Assumptions C33_injective.

Example C33_case : is_finite_double d_pi /\ double_m d_pi <> 0 /\ is_finite_double d_0_1 /\ double_m d_0_1 <> 0 /\
  format_shortest (d_finite (decode d_pi)) = Ok (str "3141592653589793", 1) /\
  format_shortest (d_finite (decode d_0_1)) = Ok (str "1", 0).
Proof.
  split; [apply finite_dec; reflexivity|]. split; [discriminate|]. split; [apply finite_dec; reflexivity|]. split; [discriminate|].
  split; vm_compute; reflexivity.
Qed.

(** ** C34: no shorter decimal is read back *)
Theorem C34_digits : forall bits, is_finite_double bits -> double_m bits <> 0 ->
  exists c ds k, format_shortest (d_finite (decode bits)) = Ok (c :: ds, k) /\
    (length ds <= 16)%nat /\ 49 <= c <= 57 /\ all_digits ds.
Proof.
  intros bits HF HM. destruct (shortest_double bits HF HM) as (ds & k & E & A & L & _ & F & _).
  destruct ds as [|c ds]; [cbn in L; lia|]. exists c, ds, k. inversion A as [|? ? A1 A2]; subst. split; [exact E|]. cbn [length] in *.
  split; [lia|]. split; [|exact A2]. assert (c <> 48); [|lia]. apply (digits_value_first c ds A). replace (Z.of_nat (length ds)) with (Z.of_nat (S (length ds)) - 1) by lia. exact F.
Qed.
Print Assumptions C34_digits.

Theorem C34_shortest : forall bits ds k, is_finite_double bits -> double_m bits <> 0 ->
  format_shortest (d_finite (decode bits)) = Ok (ds, k) ->
  forall d q, 0 < d < 10 ^ (Z.of_nat (length ds) - 1) -> ~ reads_back d q bits.
Proof.
  intros bits ds k HF HM E. destruct (shortest_double bits HF HM) as (ds' & k' & E' & _ & _ & _ & _ & _ & H & _).
  rewrite E in E'. injection E' as <- <-. exact H.
Qed.
Print Assumptions C34_shortest.

(** Of the decimals with that many digits the nearest one is taken. *)
Theorem C34_closest : forall bits ds k, is_finite_double bits -> double_m bits <> 0 ->
  format_shortest (d_finite (decode bits)) = Ok (ds, k) ->
  let q := Z.of_nat (length ds) - k in
  forall d, reads_back d q bits -> distance (digits_value ds) q bits <= distance d q bits.
Proof.
  intros bits ds k HF HM E. destruct (shortest_double bits HF HM) as (ds' & k' & E' & _ & _ & _ & _ & _ & _ & H).
  rewrite E in E'. injection E' as <- <-. intros q d R. apply H, R.
Qed.
Print Assumptions C34_closest.

(** Of all decimals with as few digits none is nearer, whatever its exponent; of
    two as near it is the greater one. *)
Theorem C34_nearest : forall bits ds k, is_finite_double bits -> double_m bits <> 0 ->
  format_shortest (d_finite (decode bits)) = Ok (ds, k) ->
  forall d q, 0 < d < 10 ^ Z.of_nat (length ds) -> reads_back d q bits -> nearest (digits_value ds) (Z.of_nat (length ds) - k) d q bits.
Proof. intros bits ds k HF HM E. exact (closest_double bits ds k HF HM E). Qed.
Print Assumptions C34_nearest.
(** 2^50 + 1/4 is half-way between ...24.2 and ...24.3, which both are read back. *)
Example C34_nearest_case : let bits := 1073 * 2 ^ 52 + 1 in
  is_finite_double bits /\ double_m bits <> 0 /\ format_shortest (d_finite (decode bits)) = Ok (str "11258999068426243", 16) /\
  distance 11258999068426242 1 bits = distance 11258999068426243 1 bits.
Proof. cbv zeta. split; [apply finite_dec; reflexivity|]. split; [discriminate|]. split; vm_compute; reflexivity. Qed.

Example C34_case : is_finite_double d_min_normal /\ double_m d_min_normal <> 0 /\
  format_shortest (d_finite (decode d_min_normal)) = Ok (str "22250738585072014", -307) /\
  reads_back 22250738585072014 (17 - -307) d_min_normal.
Proof.
  split; [apply finite_dec; reflexivity|]. split; [discriminate|]. assert (E : format_shortest (d_finite (decode d_min_normal)) = Ok (str "22250738585072014", -307)) by (vm_compute; reflexivity).
  split; [exact E|]. destruct (C33_reads_back d_min_normal) as (ds & k & E' & _ & R); [apply finite_dec; reflexivity|discriminate|].
  rewrite E in E'. injection E' as <- <-. exact R.
Qed.

(** ** C35: correctly rounded digits *)
Theorem C35_significand : forall bits N, is_finite_double bits -> double_m bits <> 0 -> 1 <= N ->
  exists ds k k1, format_exact (d_finite (decode bits)) mode_significand N = Ok (ds, k) /\
    all_digits ds /\ Z.of_nat (length ds) = N /\ 10 ^ (N - 1) <= digits_value ds /\
    (* k1 is the number of digits before the point of the value itself *)
    magnitude (double_m bits) (double_e bits) k1 /\ k1 <= k <= k1 + 1 /\
    (* the digits are the value times 10^(N-k1), rounded *)
    digits_value ds * 10 ^ (k - k1) =
      round_half_even (scaled_num (double_m bits) (double_e bits) (N - k1)) (scaled_den (double_e bits) (N - k1)).
Proof.
  intros bits N HF HM HN. destruct (significand_double bits N HF HM HN) as (ds & k & k1 & E & A & L & F & _ & M & K & V).
  exists ds, k, k1. repeat match goal with |- _ /\ _ => split end; try assumption; lia.
Qed.
Print Assumptions C35_significand.

(** What rounding means: a nearest number, the even one of two. *)
Theorem C35_rounding : forall a b r, 0 < b ->
  round_half_even a b = r <-> (2 * Z.abs (a - r * b) <= b /\ (2 * Z.abs (a - r * b) = b -> Z.even r = true)).
Proof. exact round_half_even_spec. Qed.
Print Assumptions C35_rounding.

Example C35_case : is_finite_double d_2_5 /\ double_m d_2_5 <> 0 /\
  format_exact (d_finite (decode d_2_5)) mode_significand 1 = Ok (str "2", 1) /\
  format_exact (d_finite (decode 4615063718147915776)) mode_significand 1 = Ok (str "4", 1) /\ (* 3.5 *)
  format_exact (d_finite (decode 4621814053780649509)) mode_significand 2 = Ok (str "10", 2) /\ (* 9.9600000000000008 *)
  format_exact (d_finite (decode d_0_1)) mode_significand 55 = Ok (str "1000000000000000055511151231257827021181583404541015625", 0).
Proof. split; [apply finite_dec; reflexivity|]. split; [discriminate|]. vm_compute. repeat split. Qed.
