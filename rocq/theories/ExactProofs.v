(** The exact modes of the digit generation on numbers. *)
From Verif Require Import Base Lib Conversion Bignum Dragon SpecBignum BignumProofs SpecFloat EstimateProofs DragonProofs.

Ltac conjs := repeat match goal with |- _ /\ _ => split end.

(** ** Rounding depends on the quotient only *)
Lemma rhe_scale a b t : 0 < b -> 0 < t -> round_half_even (a * t) (b * t) = round_half_even a b.
Proof.
  intros HB HT. unfold round_half_even. rewrite Z.div_mul_cancel_r, Z.mul_mod_distr_r by lia.
  replace (2 * (a mod b * t) ?= b * t) with (2 * (a mod b) ?= b); [reflexivity|].
  rewrite Z.mul_assoc. apply Zmult_compare_compat_r. lia.
Qed.
Lemma rhe_ratio a b a' b' : 0 < b -> 0 < b' -> a * b' = a' * b -> round_half_even a b = round_half_even a' b'.
Proof.
  intros H1 H2 E. rewrite <- (rhe_scale a b b'), <- (rhe_scale a' b' b) by assumption. rewrite E. f_equal. ring.
Qed.

(** ** The loop *)
Lemma exact_loop_ok scale scale2 scale4 scale8 S :
  represents scale S -> represents scale2 (S * 2) -> represents scale4 (S * 4) -> represents scale8 (S * 8) ->
  0 < S <= 2 ^ 1077 ->
  forall n mant M done, represents mant M -> 0 <= M < 10 * S ->
  exists ds om, exact_loop n scale scale2 scale4 scale8 mant done = Ok (done ++ ds, om) /\
    length ds = n /\ all_digits ds /\ digits_value ds = M * pow10 n / (10 * S) /\
    match om with
    | None => (1 <= n)%nat /\ (M * pow10 n) mod (10 * S) = 0
    | Some m' => represents m' ((M * pow10 n) mod (10 * S))
    end.
Proof.
  intros R1 R2 R4 R8 HS. induction n as [|n IH]; intros mant M done RM HM.
  - cbn [exact_loop]. exists [], (Some mant). rewrite app_nil_r, pow10_0, Z.mul_1_r, Z.div_small, Z.mod_small by lia.
    conjs; try (assumption || reflexivity). constructor.
  - cbn [exact_loop]. rewrite (bn_is_zero_correct mant M RM). destruct (M =? 0) eqn:G0.
    + apply Z.eqb_eq in G0. subst M. exists (repeat 48 (Datatypes.S n)), None. rewrite repeat_length, digits_value_zeros.
      rewrite Z.mul_0_l, Z.div_0_l, Z.mod_0_l by lia. conjs; try (lia || reflexivity). apply all_digits_zeros.
    + destruct (gen_digit_ok scale scale2 scale4 scale8 S mant M R1 R2 R4 R8 RM) as (m1 & E1 & Q1); [lia|lia|].
      rewrite E1. cbn [bind].
      assert (DM := Z.div_mod M S ltac:(lia)). assert (MB := Z.mod_pos_bound M S ltac:(lia)).
      assert (DB : 0 <= M / S <= 9) by (split; [apply Z.div_pos; lia|assert (M / S < 10) by (apply Z.div_lt_upper_bound; lia); lia]).
      set (d := M / S) in *. set (r := M mod S) in *. clearbody d r.
      destruct (bn_mul_small_correct m1 r 10 Q1) as (m2 & E2 & Q2); [lia|apply fits_small; lia|].
      rewrite E2. cbn [bind]. destruct (IH m2 (r * 10) (done ++ [(48 + d) mod 256]) Q2) as (ds & om & E & L & A & V & O); [lia|].
      rewrite E. exists (48 + d :: ds), om. rewrite Z.mod_small by lia. rewrite <- app_assoc. cbn [app length].
      assert (PP := pow10_pos n).
      assert (EQ : M * pow10 (Datatypes.S n) = r * 10 * pow10 n + d * pow10 n * (10 * S)) by (rewrite pow10_S; rewrite DM at 1; ring).
      split; [reflexivity|]. split; [lia|]. split; [constructor; [lia|exact A]|]. rewrite EQ, Z.div_add, Z.mod_add by lia. split.
      * rewrite digits_value_cons, V, L. fold (pow10 n). lia.
      * destruct om; [exact O|]. split; [lia|apply O].
Qed.


Lemma digits_value_1zeros n : digits_value (49 :: repeat 48 n) = 10 ^ Z.of_nat n.
Proof. rewrite digits_value_cons, digits_value_zeros, repeat_length. lia. Qed.

Lemma parity_last ds c : all_digits (ds ++ [c]) -> Z.even (digits_value (ds ++ [c])) = (c mod 2 =? 0).
Proof.
  intros H. rewrite digits_value_snoc. rewrite Z.even_add, Z.even_mul. change (Z.even 10) with true. cbn [orb].
  rewrite Z.even_sub. change (Z.even 48) with true. rewrite (Zmod_even c).
  destruct (Z.even c) eqn:E; reflexivity.
Qed.


(** Everything but the choice of the length. *)
Lemma format_exact_core dec mode N : dec_ok dec ->
  exists k0 k (n0 n : Z) c0, -400 <= k0 <= 400 /\ k0 <= k <= k0 + 1 /\ magnitude (f_mant dec) (f_exp dec) k /\
    n0 = match mode with mode_significand => N | mode_decimal_point => if 0 <=? k0 + N then k0 + N else 0 end /\
    n = (if k =? k0 then n0 else n0 + match mode with mode_significand => 0 | mode_decimal_point => if 0 <=? k0 + N then 1 else 0 end) /\
    (n < 0 -> format_exact dec mode N = Abort) /\
    (0 <= n ->
      let r := round_half_even (scaled_num (f_mant dec) (f_exp dec) (n - k)) (scaled_den (f_exp dec) (n - k)) in
      exists ds, all_digits ds /\ Z.of_nat (length ds) = n /\ (1 <= n -> 10 ^ (n - 1) <= digits_value ds) /\
      ((r < 10 ^ n /\ (n = 0 -> r = 0) /\ digits_value ds = r /\ format_exact dec mode N = Ok (ds, k)) \/
       (r = 10 ^ n /\ (1 <= n -> ds = 49 :: repeat 48 (Z.to_nat n - 1)) /\ (n = 0 -> c0 = 49) /\
        format_exact dec mode N = if (- N <? k + 1) && (n =? 0) then Ok ([c0], k + 1) else Ok (ds, k + 1)))).
Proof.
  destruct dec as [mant minus plus e incl]. unfold dec_ok. cbn [f_mant f_minus f_plus f_exp f_inclusive].
  intros (HM & _ & _ & HE).
  assert (HM55 : mant <= 2 ^ 55) by (assert (2 ^ 54 < 2 ^ 55) by reflexivity; lia).
  unfold format_exact. cbn [f_mant f_minus f_plus f_exp f_inclusive].
  assert (SC := scale_spec mant e ltac:(lia) ltac:(lia)). cbv zeta in SC.
  set (k0 := estimate_scaling_factor mant e) in *. clearbody k0.
  destruct (scale_exponents e k0) as [[[s2 s5] m2] m5] eqn:ESE. destruct (scale_exponents_spec _ _ _ _ _ _ ESE) as [ES EC].
  destruct SC as (HK & HC & HS & HLO & HHI).
  set (S := pos_pow 10 k0 * pos_pow 2 (- e)) in *. set (c := pos_pow 10 (- k0) * pos_pow 2 e) in *.
  assert (ED1 : forall k j, k0 <= k <= k0 + 1 ->
     (c * 10 ^ (k0 + 1 - k)) * pow10 j * scaled_den e (Z.of_nat j + 1 - k) = S * scaled_num 1 e (Z.of_nat j + 1 - k)).
  { intros k j Hk. unfold c, S. apply fraction_eq; [exact Hk|reflexivity]. }
  assert (FITS : forall v, 0 <= v <= 100 * S -> bn_fits v) by (intros v Hv; apply fits_small; lia).
  clearbody S c.
  destruct (scaled_correct (bn_of_u32 1) 1 s5 s2) as (scale & E1 & R1); [apply bn_of_u32_correct; lia|lia|rewrite Z.mul_1_l, ES; apply FITS; lia|].
  rewrite Z.mul_1_l, ES in R1. rewrite E1. cbn [bind].
  destruct (scaled_correct (bn_of_u64 mant) mant m5 m2) as (bm & E2 & R2);
    [apply bn_of_u64_correct; assert (2 ^ 54 < 2 ^ 64) by reflexivity; lia|lia|rewrite <- Z.mul_assoc, EC; apply FITS; nia|].
  rewrite <- Z.mul_assoc, EC in R2. rewrite E2. cbn [bind].
  set (le := match mode with mode_significand => (N, 0) | mode_decimal_point => if 0 <=? k0 + N then (k0 + N, 1) else (0, 0) end).
  set (n0 := fst le). set (x := snd le). assert (ELE : le = (n0, x)) by (unfold n0, x; now destruct le). rewrite ELE.
  rewrite (bn_ge_correct bm scale _ _ R2 R1). cbn [bind].
  assert (FIX : exists k M b1,
    (if S <=? mant * c then Ok (wrap i16 (k0 + 1), bm, n0 + x)
     else do m <- bn_mul_small bm 10 ;; Ok (k0, m, n0)) = Ok (k, b1, if k =? k0 then n0 else n0 + x) /\
    represents b1 M /\ k0 <= k <= k0 + 1 /\ M = mant * (c * 10 ^ (k0 + 1 - k)) /\ S <= M < 10 * S).
  { destruct (S <=? mant * c) eqn:G.
    - exists (k0 + 1), (mant * c), bm. rewrite wrap_i16 by lia. replace (k0 + 1 =? k0) with false by lia.
      replace (k0 + 1 - (k0 + 1)) with 0 by lia. change (10 ^ 0) with 1. rewrite Z.mul_1_r.
      conjs; try (assumption || reflexivity || lia).
    - destruct (bn_mul_small_correct bm _ 10 R2) as (b1 & F1 & Q1); [lia|apply FITS; nia|].
      rewrite F1. cbn [bind]. exists k0, (mant * c * 10), b1. rewrite Z.eqb_refl. replace (k0 + 1 - k0) with 1 by lia. change (10 ^ 1) with 10.
      conjs; try (assumption || reflexivity || lia). }
  destruct FIX as (k & M & b1 & EF & RM & Hk & EM & HMS). rewrite EF. cbn [bind]. clear EF.
  set (n := if k =? k0 then n0 else n0 + x).
  set (c' := c * 10 ^ (k0 + 1 - k)) in *. assert (HC' : 0 < c') by (unfold c'; assert (0 < 10 ^ (k0 + 1 - k)) by (apply Z.pow_pos_nonneg; lia); nia).
  assert (ED : forall j, c' * pow10 j * scaled_den e (Z.of_nat j + 1 - k) = S * scaled_num 1 e (Z.of_nat j + 1 - k)) by (intros j; apply ED1; exact Hk).
  clearbody c'. clear ED1.
  assert (EDN : forall j, c' * pow10 j * scaled_den e (Z.of_nat j - k) = 10 * S * scaled_num 1 e (Z.of_nat j - k)).
  { intros j. assert (D1 := ED j). assert (D2 := shift_frac e (Z.of_nat j - k) 1 ltac:(lia)). change (10 ^ 1) with 10 in D2.
    replace (Z.of_nat j - k + 1) with (Z.of_nat j + 1 - k) in D2 by lia.
    assert (P := scaled_den_pos e (Z.of_nat j + 1 - k)).
    apply (Z.mul_reg_r _ _ (scaled_den e (Z.of_nat j + 1 - k))); [lia|].
    transitivity (c' * pow10 j * scaled_den e (Z.of_nat j + 1 - k) * scaled_den e (Z.of_nat j - k)); [ring|]. rewrite D1.
    transitivity (S * (scaled_num 1 e (Z.of_nat j - k) * 10 * scaled_den e (Z.of_nat j + 1 - k))); [rewrite D2; ring|ring]. }
  exists k0, k, n0, n, 49. split; [exact HK|]. split; [exact Hk|]. split.
  { unfold magnitude. assert (D1 := ED 0%nat). rewrite pow10_0, Z.mul_1_r in D1. change (Z.of_nat 0 + 1) with 1 in D1.
    rewrite (scaled_num_1 mant). assert (HS1 : 0 < S) by lia. assert (P := scaled_den_pos e (1 - k)). split.
    - apply Z.le_ngt. intros H.
      assert (T := proj2 (frac_gt c' S _ _ 1 mant HS1 P D1)). lia.
    - assert (T := proj1 (frac_gt c' S _ _ 10 mant HS1 P D1)). lia. }
  split; [unfold n0, le; destruct mode; [reflexivity|]; destruct (0 <=? k0 + N); reflexivity|].
  split; [unfold n, n0, x, le; destruct mode; [reflexivity|]; destruct (0 <=? k0 + N); reflexivity|].
  clearbody n. clear ELE le n0 x. split; [intros Hn; replace (n <? 0) with true by lia; reflexivity|].
  intros Hn. replace (n <? 0) with false by lia. cbv zeta.
  assert (ER : round_half_even (scaled_num mant e (n - k)) (scaled_den e (n - k)) = round_half_even (M * pow10 (Z.to_nat n)) (10 * S)).
  { apply rhe_ratio; [apply scaled_den_pos|lia|]. assert (D := EDN (Z.to_nat n)). rewrite Z2Nat.id in D by lia.
    rewrite (scaled_num_1 mant). rewrite EM. transitivity (mant * (10 * S * scaled_num 1 e (n - k))); [ring|]. rewrite <- D. ring. }
  rewrite ER. clear ER ED EDN.
  (* the digits *)
  assert (LOOP : exists ds om,
     (if 0 <? n then
        do scale2 <- bn_mul_pow2 scale 1 ;; do scale4 <- bn_mul_pow2 scale 2 ;; do scale8 <- bn_mul_pow2 scale 3 ;;
        exact_loop (Z.to_nat n) scale scale2 scale4 scale8 b1 []
      else Ok ([], Some b1)) = Ok (ds, om) /\
     length ds = Z.to_nat n /\ all_digits ds /\ digits_value ds = M * pow10 (Z.to_nat n) / (10 * S) /\
     match om with
     | None => (1 <= Z.to_nat n)%nat /\ (M * pow10 (Z.to_nat n)) mod (10 * S) = 0
     | Some m' => represents m' ((M * pow10 (Z.to_nat n)) mod (10 * S))
     end).
  { destruct (0 <? n) eqn:GN.
    - destruct (bn_mul_pow2_correct scale S 1 R1) as (sc2 & F2 & Q2); [lia|apply FITS; change (2 ^ Z.of_nat 1) with 2; lia|].
      destruct (bn_mul_pow2_correct scale S 2 R1) as (sc4 & F4 & Q4); [lia|apply FITS; change (2 ^ Z.of_nat 2) with 4; lia|].
      destruct (bn_mul_pow2_correct scale S 3 R1) as (sc8 & F8 & Q8); [lia|apply FITS; change (2 ^ Z.of_nat 3) with 8; lia|].
      change (2 ^ Z.of_nat 1) with 2 in Q2. change (2 ^ Z.of_nat 2) with 4 in Q4. change (2 ^ Z.of_nat 3) with 8 in Q8.
      rewrite F2. cbn [bind]. rewrite F4. cbn [bind]. rewrite F8. cbn [bind].
      apply (exact_loop_ok scale sc2 sc4 sc8 S R1 Q2 Q4 Q8 HS (Z.to_nat n) b1 M [] RM). lia.
    - exists [], (Some b1). replace n with 0 by lia. change (Z.to_nat 0) with 0%nat.
      rewrite pow10_0, Z.mul_1_r, Z.div_small, Z.mod_small by lia. conjs; try (assumption || reflexivity). constructor. }
  destruct LOOP as (ds & om & EL & L & A & V & O). rewrite EL. cbn [bind]. clear EL.
  set (X := M * pow10 (Z.to_nat n)) in *. assert (DM := Z.div_mod X (10 * S) ltac:(lia)). assert (MB := Z.mod_pos_bound X (10 * S) ltac:(lia)).
  assert (PN : pow10 (Z.to_nat n) = 10 ^ n) by (unfold pow10; rewrite Z2Nat.id by lia; reflexivity).
  assert (LOWER : 1 <= n -> 10 ^ (n - 1) <= X / (10 * S)).
  { intros H1. apply Z.div_le_lower_bound; [lia|]. unfold X. rewrite PN. replace n with (Z.succ (n - 1)) at 2 by lia. rewrite Z.pow_succ_r by lia.
    assert (0 < 10 ^ (n - 1)) by (apply Z.pow_pos_nonneg; lia). rewrite Z.mul_assoc. apply Z.mul_le_mono_nonneg_r; lia. }
  assert (UPPER : X / (10 * S) < 10 ^ n).
  { apply Z.div_lt_upper_bound; [lia|]. unfold X. rewrite PN. apply Z.mul_lt_mono_pos_r; [apply Z.pow_pos_nonneg; lia|lia]. }
  assert (N0 : n = 0 -> X / (10 * S) = 0).
  { intros ->. change (10 ^ 0) with 1 in UPPER. assert (0 <= X / (10 * S)); [|lia]. apply Z.div_pos; [|lia]. unfold X. rewrite PN. change (10 ^ 0) with 1. lia. }
  clearbody X. set (Q := X / (10 * S)) in *. set (R := X mod (10 * S)) in *.
  assert (NUM : Z.of_nat (length ds) = n) by lia.
  destruct om as [m'|].
  2:{ destruct O as [O1 O2]. exists ds. split; [exact A|]. split; [exact NUM|]. split; [rewrite V; exact LOWER|].
      left. assert (ER : round_half_even X (10 * S) = Q).
      { unfold round_half_even. fold Q R. rewrite O2. replace (2 * 0 ?= 10 * S) with Lt; [reflexivity|]. symmetry. apply Z.compare_lt_iff. lia. }
      rewrite ER. conjs; try (assumption || reflexivity). }
  destruct (bn_mul_small_correct scale S 5 R1) as (sc5 & F5 & Q5); [lia|apply FITS; lia|]. rewrite F5. cbn [bind].
  rewrite (bn_compare_correct m' sc5 _ _ O Q5). cbn [bind].
  set (up := match R ?= S * 5 with Gt => true | Eq => (0 <? n) && (nth (Z.to_nat n - 1) ds 0 mod 2 =? 1) | Lt => false end).
  assert (ER : round_half_even X (10 * S) = if up then Q + 1 else Q).
  { unfold round_half_even. fold Q R. unfold up.
    replace (2 * R ?= 10 * S) with (R ?= S * 5) by (destruct (R ?= S * 5) eqn:C; symmetry;
      [apply Z.compare_eq_iff in C; apply Z.compare_eq_iff; lia|assert (R < S * 5) by exact C; apply Z.compare_lt_iff; lia
      |rewrite Z.compare_gt_iff in C; apply Z.compare_gt_iff; lia]).
    destruct (R ?= S * 5); try reflexivity.
    destruct (0 <? n) eqn:GN; cbn [andb].
    - destruct (@exists_last _ ds) as (d0 & cl & EDS); [intros ->; cbn in L; lia|].
      replace (nth (Z.to_nat n - 1) ds 0) with cl.
      2:{ rewrite <- L, EDS, app_length, app_nth2 by (cbn [length]; lia). cbn [length]. replace (length d0 + 1 - 1 - length d0)%nat with 0%nat by lia. reflexivity. }
      rewrite <- V. rewrite EDS at 1. rewrite (parity_last d0 cl) by (rewrite <- EDS; exact A).
      assert (BC := Z.mod_pos_bound cl 2 ltac:(lia)). destruct (cl mod 2 =? 0) eqn:G1; destruct (cl mod 2 =? 1) eqn:G2; try reflexivity; lia.
    - rewrite (N0 ltac:(lia)). reflexivity. }
  rewrite ER. clearbody up. clear ER. destruct up.
  - assert (RU := round_up_spec ds A). destruct (round_up ds) as [d' [c1|]].
    + destruct RU as (U1 & U2 & U3). rewrite NUM in U1. rewrite wrap_i16 by lia.
      exists d'. rewrite U2. destruct ds as [|c2 ds].
      * cbn [length] in *. assert (n = 0) by lia. subst n. destruct d'; [|discriminate U2]. split; [constructor|]. split; [reflexivity|].
        split; [lia|]. right. rewrite (N0 eq_refl). rewrite U3. split; [reflexivity|]. split; [lia|]. split; [reflexivity|].
        reflexivity.
      * destruct U3 as [-> ->]. split; [constructor; [lia|apply all_digits_zeros]|]. split; [exact NUM|]. split.
        { intros _. rewrite digits_value_1zeros. apply Z.pow_le_mono_r; [lia|]. cbn [length] in NUM |- *. lia. }
        right. split; [lia|]. split; [intros _; rewrite <- L; reflexivity|]. split; [reflexivity|].
        replace (n =? 0) with false by (cbn [length] in NUM; lia). rewrite !andb_false_r. reflexivity.
    + destruct RU as (U1 & U2 & U3). exists d'. split; [exact U2|]. split; [lia|]. split; [rewrite U3, V; intros H1; specialize (LOWER H1); lia|].
      left. assert (B := digits_value_bound d' U2). replace (Z.of_nat (length d')) with n in B by lia. rewrite U3, V in B.
      split; [lia|]. split; [|split; [lia|reflexivity]]. intros ->. change (10 ^ 0) with 1 in B. lia.
  - exists ds. split; [exact A|]. split; [exact NUM|]. split; [rewrite V; exact LOWER|]. left. conjs; try (assumption || reflexivity).
Qed.

(** ** The two modes *)
Theorem format_exact_significand dec N : dec_ok dec -> 1 <= N ->
  exists ds k k1, format_exact dec mode_significand N = Ok (ds, k) /\
    all_digits ds /\ Z.of_nat (length ds) = N /\ 10 ^ (N - 1) <= digits_value ds /\ -400 <= k <= 402 /\
    magnitude (f_mant dec) (f_exp dec) k1 /\ k1 <= k <= k1 + 1 /\
    digits_value ds * 10 ^ (k - k1) =
      round_half_even (scaled_num (f_mant dec) (f_exp dec) (N - k1)) (scaled_den (f_exp dec) (N - k1)).
Proof.
  intros HD HN. destruct (format_exact_core dec mode_significand N HD) as (k0 & k & n0 & n & c0 & HK & Hk & HM & E0 & E1 & _ & H).
  assert (EN : n = N) by (subst n n0; destruct (k =? k0); lia). clear E0 E1 n0. subst n. cbv zeta in H.
  destruct (H ltac:(lia)) as (ds & A & L & F & [(R1 & R2 & R3 & R4)|(R1 & R2 & R3 & R4)]).
  - exists ds, k, k. rewrite R4. rewrite Z.sub_diag. change (10 ^ 0) with 1. conjs; try (assumption || reflexivity || lia).
  - exists ds, (k + 1), k. replace (N =? 0) with false in R4 by lia. rewrite andb_false_r in R4. rewrite R4.
    replace (k + 1 - k) with 1 by lia. change (10 ^ 1) with 10.
    conjs; try (assumption || reflexivity || lia).
    rewrite R1, (R2 HN), digits_value_1zeros. replace N with (Z.succ (Z.of_nat (Z.to_nat N - 1))) at 2 by lia.
    rewrite Z.pow_succ_r by lia. lia.
Qed.

Lemma round_to_zero e m k N : 0 <= m -> magnitude m e k -> k + N < 0 ->
  round_half_even (scaled_num m e N) (scaled_den e N) = 0.
Proof.
  intros Hm [_ HM] HN.
  (* m 2^e 10^N < 10^(k+N) <= 1/10 *)
  assert (SH := shift_frac e N (1 - k - N) ltac:(lia)). replace (N + (1 - k - N)) with (1 - k) in SH by lia.
  rewrite (scaled_num_1 m) in HM |- *.
  assert (P1 := scaled_den_pos e (1 - k)). assert (P2 := scaled_den_pos e N). assert (P3 := scaled_num_pos e N).
  assert (T := proj2 (frac_gt _ _ _ _ 10 m P2 P1 SH) HM).
  assert (P10 : 100 <= 10 ^ (1 - k - N)) by (change 100 with (10 ^ 2); apply Z.pow_le_mono_r; lia).
  assert (T2 : 10 * (m * scaled_num 1 e N) < scaled_den e N).
  { set (u := scaled_num 1 e N) in *. set (w := scaled_den e N) in *. set (t := 10 ^ (1 - k - N)) in *. clearbody u w t. clear - T P10 P2 P3 Hm. nia. }
  assert (T3 : 0 <= m * scaled_num 1 e N) by nia.
  unfold round_half_even. rewrite Z.div_small, Z.mod_small by lia.
  replace (2 * (m * scaled_num 1 e N) ?= scaled_den e N) with Lt; [reflexivity|]. symmetry. apply Z.compare_lt_iff. lia.
Qed.

Theorem format_exact_decimal dec N : dec_ok dec -> 0 <= N ->
  let r := round_half_even (scaled_num (f_mant dec) (f_exp dec) N) (scaled_den (f_exp dec) N) in
  exists ds k, format_exact dec mode_decimal_point N = Ok (ds, k) /\ all_digits ds /\ -400 <= k <= 402 /\
    match ds with
    | [] => r = 0 /\ k <= - N
    | _ => let x := k - Z.of_nat (length ds) + N in
           10 ^ (Z.of_nat (length ds) - 1) <= digits_value ds /\ digits_value ds * 10 ^ x = r /\
           ((x = 0 /\ (magnitude (f_mant dec) (f_exp dec) k \/ length ds = 1%nat)) \/
            (x = 1 /\ ds = 49 :: repeat 48 (length ds - 1) /\ magnitude (f_mant dec) (f_exp dec) (k - 1)))
    end.
Proof.
  intros HD HN. cbv zeta. destruct (format_exact_core dec mode_decimal_point N HD) as (k0 & k & n0 & n & c0 & HK & Hk & HM & E0 & E1 & _ & H).
  assert (EN : n = Z.max 0 (k + N) /\ 0 <= n).
  { subst n n0. destruct (0 <=? k0 + N) eqn:G1; destruct (k =? k0) eqn:G2; lia. }
  clear E0 E1 n0. destruct EN as [EN Hn]. specialize (H Hn). cbv zeta in H.
  assert (Hm : 0 <= f_mant dec) by (destruct HD as [HD _]; lia).
  assert (Z0 := round_to_zero (f_exp dec) (f_mant dec) k N Hm HM).
  destruct H as (ds & A & L & F & [(R1 & R2 & R3 & R4)|(R1 & R2 & R3 & R4)]).
  - exists ds, k. split; [exact R4|]. split; [exact A|]. split; [lia|].
    destruct ds as [|c ds].
    + cbn [length] in L. split; [|lia]. destruct (Z_lt_ge_dec (k + N) 0) as [G|G]; [exact (Z0 G)|].
      replace N with (n - k) by lia. apply R2. lia.
    + assert (n = k + N) by (cbn [length] in L; lia). assert (1 <= n) by (cbn [length] in L; lia). cbv zeta. rewrite L.
      replace (k - n + N) with 0 by lia. change (10 ^ 0) with 1. rewrite Z.mul_1_r, R3.
      split; [rewrite <- R3; apply F; lia|]. split; [f_equal; f_equal; lia|left; split; [reflexivity|now left]].
  - destruct (n =? 0) eqn:GN.
    + assert (N0 : n = 0) by lia. rewrite N0 in *. clear GN. rewrite (R3 ltac:(lia)) in R4. rewrite andb_true_r in R4. destruct (- N <? k + 1) eqn:GK.
      * exists [49], (k + 1). split; [exact R4|]. split; [constructor; [lia|constructor]|]. split; [lia|]. cbn [length]. cbv zeta.
        replace (k + 1 - Z.of_nat 1 + N) with 0 by lia. change (10 ^ 0) with 1. change (10 ^ (Z.of_nat 1 - 1)) with 1. change (digits_value [49]) with 1.
        split; [lia|]. split; [|left; split; [reflexivity|now right]]. replace N with (0 - k) by lia. rewrite R1. reflexivity.
      * exists [], (k + 1). destruct ds; [|discriminate L]. split; [exact R4|]. split; [constructor|]. split; [lia|]. split; [apply Z0; lia|lia].
    + rewrite andb_false_r in R4. exists ds, (k + 1). split; [exact R4|]. split; [exact A|]. split; [lia|].
      assert (R5 := R2 ltac:(lia)). destruct ds as [|c ds]; [discriminate R5|]. cbv zeta. rewrite L.
      replace (k + 1 - n + N) with 1 by lia. change (10 ^ 1) with 10. split; [apply F; lia|]. split.
      * replace N with (n - k) by lia. rewrite R1, R5, digits_value_1zeros. replace n with (Z.succ (Z.of_nat (Z.to_nat n - 1))) at 2 by lia.
        rewrite Z.pow_succ_r by lia. lia.
      * right. split; [reflexivity|]. replace (k + 1 - 1) with k by lia. split; [|exact HM]. rewrite R5 at 1. f_equal. f_equal. lia.
Qed.

(** ** decode *)
Lemma bits_split bits : is_double bits ->
  exists s ex fr, bits = s * 2 ^ 63 + ex * 2 ^ 52 + fr /\ 0 <= s <= 1 /\ 0 <= ex < 2048 /\ 0 <= fr < 2 ^ 52 /\
    bits_exponent bits = ex /\ bits_fraction bits = fr /\ bits_negative bits = (s =? 1) /\ negb (bits / 2 ^ 63 =? 0) = (s =? 1).
Proof.
  intros H. unfold is_double in H. exists (bits / 2 ^ 63), ((bits / 2 ^ 52) mod 2 ^ 11), (bits mod 2 ^ 52).
  unfold bits_exponent, bits_fraction, bits_negative.
  change (2 ^ 63) with 9223372036854775808. change (2 ^ 52) with 4503599627370496. change (2 ^ 64) with 18446744073709551616 in H. change (2 ^ 11) with 2048.
  assert (T : Z.testbit bits 63 = (bits / 9223372036854775808 =? 1)).
  { rewrite Z.testbit_eqb by lia. change (2 ^ 63) with 9223372036854775808.
    assert (0 <= bits / 9223372036854775808 <= 1) by lia. f_equal. lia. }
  rewrite T. split; [lia|]. split; [lia|]. split; [lia|]. split; [lia|]. split; [reflexivity|]. split; [reflexivity|]. split; [reflexivity|]. 
  assert (0 <= bits / 9223372036854775808 <= 1) by lia. lia.
Qed.

Lemma lor_bit52 fr : 0 <= fr < 2 ^ 52 -> Z.lor fr (2 ^ 52) = 2 ^ 52 + fr.
Proof.
  intros H. rewrite Z.add_comm. assert (E : Z.land fr (2 ^ 52) = 0).
  { apply Z.bits_inj'. intros i Hi. rewrite Z.land_spec, Z.bits_0, Z.pow2_bits_eqb by lia. destruct (52 =? i) eqn:G; [|apply andb_false_r].
    assert (i = 52) by lia. subst i. rewrite Z.testbit_eqb by lia. rewrite Z.div_small by lia. reflexivity. }
  rewrite <- Z.lxor_lor by exact E. symmetry. apply Z.add_nocarry_lxor. exact E.
Qed.

Theorem decode_ok bits : is_double bits ->
  d_negative (decode bits) = bits_negative bits /\
  (d_category (decode bits) = cat_zero <-> is_finite_double bits /\ double_m bits = 0) /\
  (d_category (decode bits) = cat_finite <-> is_finite_double bits /\ double_m bits <> 0) /\
  (d_category (decode bits) = cat_infinity <-> is_infinity bits) /\
  (d_category (decode bits) = cat_nan <-> is_nan bits) /\
  (d_category (decode bits) = cat_finite ->
     let d := d_finite (decode bits) in
     let t := double_e bits - f_exp d in
     dec_ok d /\ 1 <= t <= 2 /\ f_mant d = double_m bits * 2 ^ t /\
     (* half the distance to the next double, and to the previous one or less *)
     2 * f_plus d = 2 ^ t /\ 2 * f_minus d <= 2 ^ t /\
     (double_m bits <> 2 ^ 52 -> 2 * f_minus d = 2 ^ t) /\ (double_m bits = 2 ^ 52 -> t = 2) /\
     (f_inclusive d = false -> Z.odd (double_m bits) = true) /\
     (2 ^ 52 <= double_m bits -> f_inclusive d = Z.even (double_m bits))).
Proof.
  intros HD. destruct (bits_split bits HD) as (s & ex & fr & EB & Hs & Hex & Hfr & E1 & E2 & E3 & E4).
  unfold decode. rewrite E4, E3. fold (bits_fraction bits). fold (bits_exponent bits). rewrite E1, E2.
  unfold is_finite_double, is_infinity, is_nan, double_m, double_e. rewrite E1, E2. clear E1 E2 E3 E4.
  change (2 ^ 63) with 9223372036854775808 in *. change (2 ^ 52) with 4503599627370496 in *.
  destruct ((bits =? 0) || (bits =? 9223372036854775808)) eqn:G0.
  - cbn [d_negative d_category d_finite]. assert (ex = 0 /\ fr = 0) as [-> ->] by lia. cbn. repeat split; intros; try discriminate; try tauto; try lia.
  - assert (NZ : ex <> 0 \/ fr <> 0).
    { assert (~ (bits = 0 \/ bits = 9223372036854775808)) by lia. assert (s = 0 \/ s = 1) by lia. lia. }
    cbv zeta. change (1023 + 52) with 1075.
    assert (W : wrap i16 ((ex - 1075) mod 2 ^ 64) = ex - 1075).
    { unfold wrap. cbn [Base.bits signed i16 andb]. change (2 ^ 64) with 18446744073709551616. change (2 ^ 16) with 65536.
      change (2 ^ (16 - 1)) with 32768. destruct (32768 <=? ((ex - 1075) mod 18446744073709551616) mod 65536) eqn:G; lia. }
    rewrite W. destruct (ex - 1075 =? 972) eqn:GI.
    + assert (ex = 2047) by lia. subst ex. replace (2047 - 1075 =? -1075) with false by reflexivity.
      destruct (fr =? 0) eqn:GF; cbn [d_negative d_category d_finite];
        (split; [reflexivity|]; split; [split; [discriminate|lia]|]; split; [split; [discriminate|lia]|];
         split; [split; [|]|split; [split; [|]|discriminate]]); intros; try discriminate; try (repeat split; lia); try reflexivity; lia.
    + destruct (ex - 1075 =? -1075) eqn:GS; cbn [negb].
      * assert (ex = 0) by lia. subst ex. cbn [d_negative d_category d_finite f_mant f_minus f_plus f_exp f_inclusive].
        change (0 =? 0) with true. cbv iota. change (2 ^ 64) with 18446744073709551616. rewrite Z.mod_small by lia.
        split; [reflexivity|]. split; [split; [discriminate|lia]|]. split; [split; [intros _; split; [split; [exact HD|lia]|lia]|reflexivity]|]. split; [split; [discriminate|lia]|].
        split; [split; [discriminate|lia]|]. intros _. change (-1074 - (0 - 1075)) with 1. change (2 ^ 1) with 2.
        unfold dec_ok. cbn [f_mant f_minus f_plus f_exp f_inclusive]. change (2 ^ 54) with 18014398509481984.
        split; [lia|]. split; [lia|]. split; [lia|]. split; [lia|]. split; [lia|]. split; [lia|]. split; [lia|]. split; [lia|lia].
      * rewrite lor_bit52 by exact Hfr. change (2 ^ 52) with 4503599627370496. replace (ex =? 0) with false by lia. cbv iota.
        change (2 ^ 64) with 18446744073709551616.
        assert (PAR : (fr mod 2 =? 0) = Z.even (4503599627370496 + fr)).
        { rewrite Z.even_add. change (Z.even 4503599627370496) with true. rewrite Zmod_even. destruct (Z.even fr); reflexivity. }
        assert (ODD : (fr mod 2 =? 0) = false -> Z.odd (4503599627370496 + fr) = true).
        { rewrite PAR, <- Z.negb_even. now intros ->. }
        destruct (4503599627370496 + fr =? 4503599627370496) eqn:GM; cbn [d_negative d_category d_finite f_mant f_minus f_plus f_exp f_inclusive];
          rewrite wrap_i16 by lia; rewrite Z.mod_small by lia; (split; [reflexivity|]; split; [split; [discriminate|lia]|];
            split; [split; [intros _; split; [split; [exact HD|lia]|lia]|reflexivity]|]; split; [split; [discriminate|lia]|]; split; [split; [discriminate|lia]|]; intros _).
        -- assert (fr = 0) by lia. subst fr. replace (ex - 1075 - (ex - 1075 - 2)) with 2 by lia. change (2 ^ 2) with 4.
           unfold dec_ok. cbn [f_mant f_minus f_plus f_exp f_inclusive]. change (2 ^ 54) with 18014398509481984.
           split; [lia|]. split; [lia|]. split; [lia|]. split; [lia|]. split; [lia|]. split; [lia|]. split; [lia|]. split; [exact ODD|intros _; exact PAR].
        -- replace (ex - 1075 - (ex - 1075 - 1)) with 1 by lia. change (2 ^ 1) with 2.
           unfold dec_ok. cbn [f_mant f_minus f_plus f_exp f_inclusive]. change (2 ^ 54) with 18014398509481984.
           split; [lia|]. split; [lia|]. split; [lia|]. split; [lia|]. split; [lia|]. split; [lia|]. split; [lia|]. split; [exact ODD|intros _; exact PAR].
Qed.

Lemma round_half_even_spec a b r : 0 < b ->
  round_half_even a b = r <-> (2 * Z.abs (a - r * b) <= b /\ (2 * Z.abs (a - r * b) = b -> Z.even r = true)).
Proof.
  intros HB. unfold round_half_even. assert (DM := Z.div_mod a b ltac:(lia)). assert (MB := Z.mod_pos_bound a b HB).
  set (q := a / b) in *. set (m := a mod b) in *. clearbody q m.
  assert (D : forall x, a - x * b = m + (q - x) * b) by (intros x; rewrite DM; ring).
  assert (E1 : Z.even (q + 1) = negb (Z.even q)) by (rewrite Z.even_add; destruct (Z.even q); reflexivity).
  assert (FAR : forall x, 2 * Z.abs (m + (q - x) * b) <= b -> x = q \/ x = q + 1).
  { intros x H. assert (x < q \/ x = q \/ x = q + 1 \/ q + 1 < x) by lia. destruct H0 as [H0|[H0|[H0|H0]]]; try tauto; exfalso.
    - assert (b <= (q - x) * b) by nia. lia.
    - assert ((q - x) * b <= -2 * b) by nia. lia. }
  destruct (2 * m ?= b) eqn:C.
  - apply Z.compare_eq_iff in C. destruct (Z.even q) eqn:EQ; split.
    + intros <-. rewrite D. replace (q - q) with 0 by lia. split; [lia|]. intros _. exact EQ.
    + rewrite D. intros [H1 H2]. destruct (FAR r H1) as [-> | ->]; [reflexivity|]. exfalso. replace (q - (q + 1)) with (-1) in H2 by lia.
      rewrite E1 in H2. assert (X := H2 ltac:(lia)). discriminate X.
    + intros <-. rewrite D. replace (q - (q + 1)) with (-1) by lia. split; [lia|]. intros _. rewrite E1. reflexivity.
    + rewrite D. intros [H1 H2]. destruct (FAR r H1) as [-> | ->]; [|reflexivity]. exfalso. replace (q - q) with 0 in H2 by lia.
      assert (X := H2 ltac:(lia)). congruence.
  - assert (C' : 2 * m < b) by exact C. split.
    + intros <-. rewrite D. replace (q - q) with 0 by lia. lia.
    + rewrite D. intros [H1 _]. destruct (FAR r H1) as [-> | ->]; [reflexivity|]. replace (q - (q + 1)) with (-1) in H1 by lia. lia.
  - rewrite Z.compare_gt_iff in C. split.
    + intros <-. rewrite D. replace (q - (q + 1)) with (-1) by lia. lia.
    + rewrite D. intros [H1 _]. destruct (FAR r H1) as [-> | ->]; [|reflexivity]. replace (q - q) with 0 in H1 by lia. lia.
Qed.
