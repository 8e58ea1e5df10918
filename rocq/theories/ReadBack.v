(** The interval of the shortest mode is the set of decimals which are read back
    as the same double. *)
From Verif Require Import Base Lib Conversion Bignum Dragon SpecBignum BignumProofs SpecFloat EstimateProofs DragonProofs ExactProofs.

Lemma pow2_pos n : 0 <= n -> 0 < 2 ^ n.
Proof. intros H. apply Z.pow_pos_nonneg; lia. Qed.
Lemma pow2_split a b : 0 <= a <= b -> 2 ^ b = 2 ^ a * 2 ^ (b - a).
Proof. intros H. rewrite <- Z.pow_add_r by lia. f_equal. lia. Qed.

(** ** Canonical mantissas and exponents *)
Definition canon (m e : Z) : Prop :=
  (2 ^ 52 <= m < 2 ^ 53 /\ -1074 <= e <= 971) \/ (0 <= m < 2 ^ 52 /\ e = -1074).

Lemma double_canon bits : is_finite_double bits -> canon (double_m bits) (double_e bits).
Proof.
  intros [HD HF]. destruct (bits_split bits HD) as (s & ex & fr & EB & Hs & Hex & Hfr & E1 & E2 & E3 & E4).
  unfold canon, double_m, double_e. rewrite E1, E2 in *. change (2 ^ 53) with (2 * 2 ^ 52).
  destruct (ex =? 0) eqn:G; [right|left]; lia.
Qed.

(** Units of 2^-1076. *)
Definition units (m e : Z) : Z := m * 2 ^ (e + 1076).

Lemma next_units m e m' e' : canon m e -> canon m' e' -> units m e < units m' e' -> units (m + 1) e <= units m' e'.
Proof.
  unfold units. intros C C' H.
  destruct (Z_le_gt_dec e e') as [G|G].
  - assert (0 <= e + 1076) by (unfold canon in C; lia).
    rewrite (pow2_split (e + 1076) (e' + 1076)) in * by lia. assert (P := pow2_pos (e + 1076) ltac:(lia)).
    set (u := 2 ^ (e + 1076)) in *. set (w := 2 ^ (e' + 1076 - (e + 1076))) in *. clearbody u w.
    replace (m' * (u * w)) with (m' * w * u) in * by ring. apply Zmult_lt_reg_r in H; [|exact P]. apply Z.mul_le_mono_nonneg_r; lia.
  - exfalso. assert (0 <= e' + 1076) by (unfold canon in C'; lia).
    assert (HM : 2 ^ 52 <= m) by (unfold canon in C, C'; lia). assert (HM' : m' < 2 * 2 ^ 52) by (unfold canon in C'; change (2 ^ 53) with (2 * 2 ^ 52) in C'; lia).
    rewrite (pow2_split (e' + 1076) (e + 1076)) in * by lia. assert (P := pow2_pos (e' + 1076) ltac:(lia)).
    assert (W : 2 <= 2 ^ (e + 1076 - (e' + 1076))) by (change 2 with (2 ^ 1) at 1; apply Z.pow_le_mono_r; lia).
    set (u := 2 ^ (e' + 1076)) in *. set (w := 2 ^ (e + 1076 - (e' + 1076))) in *. set (B := 2 ^ 52) in *. assert (HB : 0 < B) by reflexivity. clearbody u w B.
    replace (m * (u * w)) with (m * w * u) in H by ring. apply Zmult_lt_reg_r in H; [|exact P]. nia.
Qed.

Lemma prev_units m e m' e' : canon m e -> canon m' e' -> units m' e' < units m e ->
  (units m' e' <= units (m - 1) e) \/ (m = 2 ^ 52 /\ 2 * units m' e' <= units (2 * m - 1) e).
Proof.
  unfold units. intros C C' H.
  destruct (Z_le_gt_dec e e') as [G|G].
  - left. assert (0 <= e + 1076) by (unfold canon in C; lia).
    rewrite (pow2_split (e + 1076) (e' + 1076)) in * by lia. assert (P := pow2_pos (e + 1076) ltac:(lia)).
    set (u := 2 ^ (e + 1076)) in *. set (w := 2 ^ (e' + 1076 - (e + 1076))) in *. clearbody u w.
    replace (m' * (u * w)) with (m' * w * u) in * by ring. apply Zmult_lt_reg_r in H; [|exact P]. apply Z.mul_le_mono_nonneg_r; lia.
  - assert (0 <= e' + 1076) by (unfold canon in C'; lia).
    assert (HM : 2 ^ 52 <= m) by (unfold canon in C, C'; lia). assert (HM' : m' < 2 * 2 ^ 52) by (unfold canon in C'; change (2 ^ 53) with (2 * 2 ^ 52) in C'; lia).
    rewrite (pow2_split (e' + 1076) (e + 1076)) in * by lia. assert (P := pow2_pos (e' + 1076) ltac:(lia)).
    assert (W : 2 <= 2 ^ (e + 1076 - (e' + 1076))) by (change 2 with (2 ^ 1) at 1; apply Z.pow_le_mono_r; lia).
    set (u := 2 ^ (e' + 1076)) in *. set (w := 2 ^ (e + 1076 - (e' + 1076))) in *. set (B := 2 ^ 52) in *. assert (HB : 0 < B) by reflexivity. clearbody u w B.
    destruct (Z.eq_dec m B) as [E|E].
    + right. split; [exact E|]. subst m. assert (H1 : m' + 1 <= 2 * B) by lia.
      assert (X : (2 * B - 1) * (u * w) - 2 * (m' * u) = u * ((2 * B - 1) * w - 2 * m')) by ring.
      assert (2 * m' <= (2 * B - 1) * w) by nia. nia.
    + left. assert (H1 : m' <= 2 * B - 1) by lia. assert (H2 : B <= m - 1) by lia.
      assert (H3 : m' <= (m - 1) * w) by nia.
      replace ((m - 1) * (u * w)) with ((m - 1) * w * u) by ring. apply Z.mul_le_mono_nonneg_r; lia.
Qed.

(** ** Decimals in these units *)
Lemma inside_units incl lo hi e d q : -1076 <= e ->
  decimal_inside incl lo hi e d q <->
  inside incl (lo * 2 ^ (e + 1076) * pos_pow 10 q) (d * 2 ^ 1076 * pos_pow 10 (- q)) (hi * 2 ^ (e + 1076) * pos_pow 10 q).
Proof.
  intros HE. unfold decimal_inside, scaled_num, scaled_den.
  rewrite (inside_scale incl _ _ _ (2 ^ 1076)) by reflexivity.
  assert (P : 0 < pos_pow 2 (- e)) by (apply pos_pow_pos; lia).
  rewrite (inside_scale incl (lo * 2 ^ (e + 1076) * pos_pow 10 q) _ _ (pos_pow 2 (- e)) P).
  assert (E : pos_pow 2 e * 2 ^ 1076 = 2 ^ (e + 1076) * pos_pow 2 (- e)).
  { unfold pos_pow. rewrite <- !Z.pow_add_r by lia. f_equal. lia. }
  replace (lo * pos_pow 2 e * pos_pow 10 q * 2 ^ 1076) with (lo * 2 ^ (e + 1076) * pos_pow 10 q * pos_pow 2 (- e))
    by (transitivity (lo * (2 ^ (e + 1076) * pos_pow 2 (- e)) * pos_pow 10 q); [ring|]; rewrite <- E; ring).
  replace (hi * pos_pow 2 e * pos_pow 10 q * 2 ^ 1076) with (hi * 2 ^ (e + 1076) * pos_pow 10 q * pos_pow 2 (- e))
    by (transitivity (hi * (2 ^ (e + 1076) * pos_pow 2 (- e)) * pos_pow 10 q); [ring|]; rewrite <- E; ring).
  replace (d * (pos_pow 2 (- e) * pos_pow 10 (- q)) * 2 ^ 1076) with (d * 2 ^ 1076 * pos_pow 10 (- q) * pos_pow 2 (- e)) by ring.
  reflexivity.
Qed.

Lemma distance_units d q bits : is_finite_double bits ->
  4 * distance d q bits = Z.abs (d * 2 ^ 1076 * pos_pow 10 (- q) - units (double_m bits) (double_e bits) * pos_pow 10 q).
Proof.
  intros HF. assert (C := double_canon bits HF). unfold distance, double_n, units.
  replace (2 ^ 1076) with (4 * 2 ^ 1074) by reflexivity.
  replace (2 ^ (double_e bits + 1076)) with (4 * 2 ^ (double_e bits + 1074)).
  2:{ replace (double_e bits + 1076) with (2 + (double_e bits + 1074)) by lia. rewrite (Z.pow_add_r 2 2) by (unfold canon in C; lia). reflexivity. }
  rewrite <- (Z.abs_eq 4) at 1 by lia. rewrite <- Z.abs_mul. f_equal. ring.
Qed.

Lemma double_n_units bits bits' : is_finite_double bits -> is_finite_double bits' ->
  (double_n bits = double_n bits' <-> units (double_m bits) (double_e bits) = units (double_m bits') (double_e bits')).
Proof.
  intros HF HF'. assert (C := double_canon bits HF). assert (C' := double_canon bits' HF'). unfold double_n, units.
  replace (double_e bits + 1076) with (2 + (double_e bits + 1074)) by lia.
  replace (double_e bits' + 1076) with (2 + (double_e bits' + 1074)) by lia.
  rewrite !(Z.pow_add_r 2 2) by (unfold canon in C, C'; lia). change (2 ^ 2) with 4. split; intros H; lia.
Qed.

(** ** Ties of subnormal numbers do not occur *)
Lemma no_tie (d q x : Z) : q < 1075 -> Z.odd x = true -> 0 < x < 2 ^ 53 -> d * 2 ^ 1075 * pos_pow 10 (- q) = x * pos_pow 10 q -> False.
Proof.
  intros Hq HX HB E. destruct (Z_le_gt_dec q 0) as [G|G].
  - unfold pos_pow in E. rewrite (Z.max_r q) in E by lia. change (10 ^ 0) with 1 in E. rewrite Z.mul_1_r in E.
    assert (P : 0 < 10 ^ Z.max (- q) 0) by (apply Z.pow_pos_nonneg; lia).
    assert (H53 : 2 ^ 53 < 2 ^ 1075) by reflexivity. set (t := 10 ^ Z.max (- q) 0) in *. set (w := 2 ^ 1075) in *. clearbody t w.
    assert (D : 0 < d) by nia. nia.
  - unfold pos_pow in E. rewrite (Z.max_r (- q)) in E by lia. change (10 ^ 0) with 1 in E. rewrite Z.mul_1_r, Z.max_l in E by lia.
    change 10 with (5 * 2) in E. rewrite Z.pow_mul_l in E. rewrite (pow2_split q 1075) in E by lia.
    assert (P := pow2_pos q ltac:(lia)).
    assert (E2 : d * 2 ^ (1075 - q) = x * 5 ^ q).
    { apply (Z.mul_reg_r _ _ (2 ^ q)); [lia|]. transitivity (d * (2 ^ q * 2 ^ (1075 - q))); [ring|]. rewrite E. ring. }
    assert (O : Z.odd (x * 5 ^ q) = true).
    { rewrite Z.odd_mul, HX. rewrite Z.odd_pow by lia. reflexivity. }
    rewrite <- E2 in O. rewrite Z.odd_mul, Z.odd_pow in O by lia. cbn in O. rewrite andb_false_r in O. discriminate O.
Qed.

(** ** In the interval: read back *)
Lemma decode_units bits : is_finite_double bits -> double_m bits <> 0 ->
  let d := d_finite (decode bits) in let u := 2 ^ (f_exp d + 1076) in
  dec_ok d /\ 0 < u /\ units (double_m bits) (double_e bits) = f_mant d * u /\
  (forall bits', is_finite_double bits' -> let n' := units (double_m bits') (double_e bits') in
     n' = f_mant d * u \/ (f_mant d + 2 * f_plus d) * u <= n' \/ n' <= (f_mant d - 2 * f_minus d) * u) /\
  (f_inclusive d = false -> Z.odd (double_m bits) = true) /\
  (2 ^ 52 <= double_m bits -> f_inclusive d = Z.even (double_m bits)).
Proof.
  intros HF HM. assert (C := double_canon bits HF). assert (HD := proj1 HF).
  destruct (decode_ok bits HD) as (_ & _ & HFIN & _ & _ & H).
  specialize (H (proj2 HFIN (conj HF HM))). cbv zeta in H |- *. destruct H as (D & T & EM & P1 & P2 & P3 & P4 & I1 & I2).
  set (d := d_finite (decode bits)) in *. set (t := double_e bits - f_exp d) in *.
  assert (HEX : -1076 <= f_exp d) by apply D.
  assert (PU := pow2_pos (f_exp d + 1076) ltac:(lia)).
  assert (EU : 2 ^ (double_e bits + 1076) = 2 ^ t * 2 ^ (f_exp d + 1076)).
  { rewrite <- Z.pow_add_r by lia. f_equal. unfold t. lia. }
  split; [exact D|]. split; [exact PU|]. split; [unfold units; rewrite EU, EM; ring|]. split; [|now split].
  intros bits' HF'. assert (C' := double_canon bits' HF').
  assert (EN : units (double_m bits) (double_e bits) = f_mant d * 2 ^ (f_exp d + 1076)) by (unfold units; rewrite EU, EM; ring).
  destruct (Z.lt_trichotomy (units (double_m bits') (double_e bits')) (units (double_m bits) (double_e bits))) as [L|[L|L]].
  - right. right. assert (PT : 2 <= 2 ^ t) by (change 2 with (2 ^ 1) at 1; apply Z.pow_le_mono_r; lia).
    destruct (prev_units _ _ _ _ C C' L) as [Y|[Y1 Y2]]; unfold units at 2 in Y || unfold units at 2 in Y2.
    + rewrite EU in Y. rewrite EM. clearbody t. set (u := 2 ^ (f_exp d + 1076)) in *. set (w := 2 ^ t) in *. clearbody u w.
      assert ((double_m bits - 1) * (w * u) = (double_m bits * w - w) * u) by ring.
      assert ((double_m bits * w - w) * u <= (double_m bits * w - 2 * f_minus d) * u) by (apply Z.mul_le_mono_nonneg_r; lia). lia.
    + rewrite EU in Y2. rewrite EM. clearbody t. set (u := 2 ^ (f_exp d + 1076)) in *. set (w := 2 ^ t) in *. 
      set (n' := units (double_m bits') (double_e bits')) in *. assert (FM : f_minus d = 1) by apply D. 
      assert (FP : 2 * f_plus d = w) by exact P1. clear EN L.
      assert (W4 : w = 4).
      { unfold w. rewrite (P4 Y1). reflexivity. }
      rewrite W4 in *. clearbody u n'. lia.
  - left. lia.
  - right. left. assert (Y := next_units _ _ _ _ C C' L). unfold units at 1 in Y. rewrite EU in Y. rewrite EM, P1.
    replace ((double_m bits * 2 ^ t + 2 ^ t) * 2 ^ (f_exp d + 1076)) with ((double_m bits + 1) * (2 ^ t * 2 ^ (f_exp d + 1076))) by ring. exact Y.
Qed.

Lemma decode_sub bits : is_finite_double bits -> double_m bits <> 0 -> double_m bits < 2 ^ 52 ->
  let d := d_finite (decode bits) in f_mant d = 2 * double_m bits /\ f_exp d = -1075 /\ f_plus d = 1.
Proof.
  intros HF HM HS. assert (C := double_canon bits HF). assert (HD := proj1 HF).
  destruct (decode_ok bits HD) as (_ & _ & HFIN & _ & _ & H).
  specialize (H (proj2 HFIN (conj HF HM))). cbv zeta in H |- *. destruct H as (D & T & EM & P1 & P2 & P3 & P4 & I1 & I2).
  set (d := d_finite (decode bits)) in *. assert (T1 := P3 ltac:(lia)). assert (FM : f_minus d = 1) by apply D. rewrite FM in T1.
  assert (TT : double_e bits - f_exp d = 1 \/ double_e bits - f_exp d = 2) by lia.
  destruct TT as [TT|TT]; rewrite TT in *; [|discriminate T1]. unfold canon in C. change (2 ^ 1) with 2 in *. lia.
Qed.

Lemma odd_double_1 m : Z.odd (2 * m + 1) = true.
Proof. rewrite Z.odd_add, Z.odd_mul. reflexivity. Qed.

Theorem inside_reads_back bits d q : is_finite_double bits -> double_m bits <> 0 -> q < 1075 ->
  dec_inside (d_finite (decode bits)) d q -> reads_back d q bits.
Proof.
  intros HF HM HQ HI. destruct (decode_units bits HF HM) as (D & PU & EN & NB & I1 & I2).
  assert (SUB := decode_sub bits HF HM).
  unfold dec_inside in HI. apply inside_units in HI; [|apply D].
  assert (C := double_canon bits HF). assert (HFP : 1 <= f_plus (d_finite (decode bits)) <= 2) by (destruct D as (_ & _ & D & _); lia).
  assert (OVF : (f_mant (d_finite (decode bits)) + f_plus (d_finite (decode bits))) * 2 ^ (f_exp (d_finite (decode bits)) + 1076) <= (2 ^ 1024 - 2 ^ 970) * 2 ^ 1076 /\
     (f_inclusive (d_finite (decode bits)) = true ->
      (f_mant (d_finite (decode bits)) + f_plus (d_finite (decode bits))) * 2 ^ (f_exp (d_finite (decode bits)) + 1076) < (2 ^ 1024 - 2 ^ 970) * 2 ^ 1076)).
  { destruct (decode_ok bits (proj1 HF)) as (_ & _ & HFIN & _ & _ & H).
    specialize (H (proj2 HFIN (conj HF HM))). cbv zeta in H. destruct H as (_ & T & EM & P1 & P2 & P3 & P4 & _ & _).
    set (dd := d_finite (decode bits)) in *.
    assert (EK : (2 ^ 1024 - 2 ^ 970) * 2 ^ 1076 = (2 ^ 54 - 1) * 2 ^ 2046) by reflexivity. rewrite EK. clear EK.
    assert (HE := proj2 (proj2 (proj2 D))). assert (P0 := pow2_pos (f_exp dd + 1076) ltac:(lia)).
    rewrite (pow2_split (f_exp dd + 1076) 2046) by lia.
    assert (HMT : f_mant dd <= 2 ^ 54) by apply D.
    destruct (Z.eq_dec (f_exp dd) 970) as [E970|E970].
    - rewrite E970. change (2 ^ (2046 - (970 + 1076))) with 1. rewrite Z.mul_1_r.
      assert (TT : double_e bits - f_exp dd = 1) by (unfold canon in C; lia). rewrite TT in *. change (2 ^ 1) with 2 in *.
      assert (M53 : double_m bits <= 2 ^ 53 - 1) by (unfold canon in C; change (2 ^ 53) with (2 * 2 ^ 52) in *; lia).
      assert (M52 : 2 ^ 52 <= double_m bits) by (unfold canon in C; lia).
      set (v := 2 ^ (970 + 1076)). assert (V0 : 0 < v) by reflexivity. clearbody v. change (2 ^ 54) with (2 * 2 ^ 53).
      split; [apply Z.mul_le_mono_nonneg_r; lia|]. intros HIN. specialize (I2 M52). rewrite HIN in I2.
      assert (double_m bits <> 2 ^ 53 - 1) by (intros X; rewrite X in I2; discriminate I2).
      apply Zmult_lt_compat_r; lia.
    - assert (W : 2 <= 2 ^ (2046 - (f_exp dd + 1076))) by (change 2 with (2 ^ 1) at 1; apply Z.pow_le_mono_r; lia).
      set (v := 2 ^ (f_exp dd + 1076)) in *. set (w := 2 ^ (2046 - (f_exp dd + 1076))) in *. clearbody v w.
      change (2 ^ 54) with 18014398509481984 in *.
      assert (X : f_mant dd + f_plus dd < (18014398509481984 - 1) * w) by lia.
      replace ((18014398509481984 - 1) * (v * w)) with ((18014398509481984 - 1) * w * v) by ring.
      assert (Y := Zmult_lt_compat_r _ _ v P0 X). lia. }
  set (dd := d_finite (decode bits)) in *. set (u := 2 ^ (f_exp dd + 1076)) in *.
  assert (PT : 0 < pos_pow 10 q) by (apply pos_pow_pos; lia). assert (FM : f_minus dd = 1) by apply D.
  set (X := d * 2 ^ 1076 * pos_pow 10 (- q)) in *.
  (* everything linear *)
  assert (HI' : ((f_mant dd - f_minus dd) * u * pos_pow 10 q < X < (f_mant dd + f_plus dd) * u * pos_pow 10 q) \/
    (f_inclusive dd = true /\ (f_mant dd - f_minus dd) * u * pos_pow 10 q <= X <= (f_mant dd + f_plus dd) * u * pos_pow 10 q)) by exact HI.
  clear HI.
  split.
  - intros bits' HF'. specialize (NB bits' HF'). cbv zeta in NB.
    assert (E1 := distance_units d q bits HF). assert (E2 := distance_units d q bits' HF'). fold X in E1, E2.
    rewrite EN in E1. assert (EQN := double_n_units bits' bits HF' HF). rewrite EN in EQN.
    set (n' := units (double_m bits') (double_e bits')) in *.
    assert (TIE : (X = (f_mant dd + f_plus dd) * u * pos_pow 10 q \/ X = (f_mant dd - f_minus dd) * u * pos_pow 10 q) -> Z.even (double_m bits) = true).
    { intros TX. assert (HIN : f_inclusive dd = true).
      { destruct HI' as [HI'|HI']; [exfalso; lia|apply HI']. }
      destruct (Z_le_gt_dec (2 ^ 52) (double_m bits)) as [G|G]; [rewrite <- (I2 G); exact HIN|].
      destruct (SUB ltac:(lia)) as (S1 & S2 & S3). destruct (Z.even (double_m bits)) eqn:EV; [reflexivity|exfalso].
      assert (EU : u = 2) by (unfold u; rewrite S2; reflexivity). unfold X in TX. rewrite EU, S1, S3, FM in TX.
      assert (P76 : 2 ^ 1076 = 2 * 2 ^ 1075) by reflexivity. rewrite P76 in TX.
      assert (M0 : 0 < double_m bits < 2 ^ 52) by (unfold canon in C; change (2 ^ 53) with (2 * 2 ^ 52) in C; lia).
      destruct TX as [TX|TX].
      - apply (no_tie d q (2 * double_m bits + 1) HQ (odd_double_1 _)); [change (2 ^ 53) with (2 * 2 ^ 52); lia|].
        set (w := 2 ^ 1075) in *. clearbody w. lia.
      - apply (no_tie d q (2 * (double_m bits - 1) + 1) HQ (odd_double_1 _)); [change (2 ^ 53) with (2 * 2 ^ 52); lia|].
        set (w := 2 ^ 1075) in *. clearbody w. lia. }
    set (T := pos_pow 10 q) in *. clearbody X T.
    assert (R1 : f_mant dd * u * T - 1 * u * T = (f_mant dd - f_minus dd) * u * T) by (rewrite FM; ring).
    assert (R2 : f_mant dd * u * T + f_plus dd * u * T = (f_mant dd + f_plus dd) * u * T) by ring.
    set (A := f_mant dd * u * T) in *. set (p := f_plus dd * u * T) in *. set (r := 1 * u * T) in *.
    assert (Hr : 0 < r) by (unfold r; apply Z.mul_pos_pos; [rewrite Z.mul_1_l; exact PU|exact PT]). assert (Hp : 0 < p) by (unfold p; apply Z.mul_pos_pos; [apply Z.mul_pos_pos; lia|lia]).
    assert (EQ' : n' = f_mant dd * u -> n' * T = A) by (intros ->; reflexivity).
    assert (GE' : (f_mant dd + 2 * f_plus dd) * u <= n' -> A + 2 * p <= n' * T).
    { intros H. replace (A + 2 * p) with ((f_mant dd + 2 * f_plus dd) * u * T) by (unfold A, p; ring). apply Z.mul_le_mono_nonneg_r; lia. }
    assert (LE' : n' <= (f_mant dd - 2 * f_minus dd) * u -> n' * T <= A - 2 * r).
    { intros H. replace (A - 2 * r) with ((f_mant dd - 2 * f_minus dd) * u * T) by (rewrite FM; unfold A, r; ring). apply Z.mul_le_mono_nonneg_r; lia. }
    rewrite <- R1, <- R2 in *. clearbody A p r. clear - HI' NB E1 E2 EQ' GE' LE' Hr Hp TIE EQN R1 R2 PU. split.
    + clear TIE EQN. clearbody u n'. lia.
    + intros HEQ. destruct NB as [NB|[NB|NB]].
      * left. apply EQN. exact NB.
      * right. apply TIE. specialize (GE' NB). lia.
      * right. apply TIE. specialize (LE' NB). lia.
  - apply (Zmult_lt_reg_r _ _ (2 ^ 1076)); [reflexivity|]. replace (d * pos_pow 10 (- q) * 2 ^ 1076) with X by (unfold X; ring).
    replace ((2 ^ 1024 - 2 ^ 970) * pos_pow 10 q * 2 ^ 1076) with ((2 ^ 1024 - 2 ^ 970) * 2 ^ 1076 * pos_pow 10 q) by ring.
    set (K := (2 ^ 1024 - 2 ^ 970) * 2 ^ 1076) in *. clearbody K. destruct OVF as [O1 O2].
    destruct HI' as [HI'|[HIN HI']].
    + eapply Z.lt_le_trans; [apply HI'|]. apply Z.mul_le_mono_nonneg_r; [lia|exact O1].
    + eapply Z.le_lt_trans; [apply HI'|]. apply Zmult_lt_compat_r; [lia|exact (O2 HIN)].
Qed.

(** ** The neighbours *)
Lemma fields ex fr : 0 <= ex < 2048 -> 0 <= fr < 2 ^ 52 ->
  is_double (ex * 2 ^ 52 + fr) /\ bits_exponent (ex * 2 ^ 52 + fr) = ex /\ bits_fraction (ex * 2 ^ 52 + fr) = fr.
Proof.
  intros H1 H2. unfold is_double, bits_exponent, bits_fraction. change (2 ^ 52) with 4503599627370496 in *.
  change (2 ^ 64) with 18446744073709551616. change (2 ^ 11) with 2048. lia.
Qed.

Lemma same_n bits ex fr : 0 <= ex < 2048 -> 0 <= fr < 2 ^ 52 -> bits_exponent bits = ex -> bits_fraction bits = fr ->
  double_m (ex * 2 ^ 52 + fr) = double_m bits /\ double_e (ex * 2 ^ 52 + fr) = double_e bits.
Proof.
  intros H1 H2 E1 E2. destruct (fields ex fr H1 H2) as (_ & F1 & F2). unfold double_m, double_e. rewrite F1, F2, E1, E2. now split.
Qed.

Lemma above bits : is_finite_double bits ->
  (double_m bits = 2 ^ 53 - 1 /\ double_e bits = 971) \/
  exists bits', is_finite_double bits' /\ units (double_m bits') (double_e bits') = units (double_m bits + 1) (double_e bits).
Proof.
  intros [HD HF]. destruct (bits_split bits HD) as (s & ex & fr & EB & Hs & Hex & Hfr & E1 & E2 & E3 & E4).
  rewrite E1 in HF. unfold double_m, double_e. rewrite E1, E2. clear E1 E2.
  destruct (Z.eq_dec fr (2 ^ 52 - 1)) as [GF|GF].
  - destruct (Z.eq_dec ex 2046) as [GE|GE].
    + left. subst ex fr. change (2046 =? 0) with false. cbv iota. split; reflexivity.
    + right. exists ((ex + 1) * 2 ^ 52 + 0). destruct (fields (ex + 1) 0 ltac:(lia) ltac:(lia)) as (A1 & A2 & A3).
      split; [split; [exact A1|lia]|]. rewrite A2, A3. replace (ex + 1 =? 0) with false by lia. rewrite Z.add_0_r.
      unfold units. subst fr. destruct (ex =? 0) eqn:G0.
      * assert (ex = 0) by lia. subst ex. reflexivity.
      * replace (ex + 1 - 1075 + 1076) with (1 + (ex - 1075 + 1076)) by lia. rewrite (Z.pow_add_r 2 1) by lia.
        replace (2 ^ 52 + (2 ^ 52 - 1) + 1) with (2 ^ 52 * 2) by reflexivity. ring.
  - right. exists (ex * 2 ^ 52 + (fr + 1)). destruct (fields ex (fr + 1) ltac:(lia) ltac:(lia)) as (A1 & A2 & A3).
    split; [split; [exact A1|lia]|]. rewrite A2, A3. destruct (ex =? 0); [reflexivity|]. f_equal. lia.
Qed.

Lemma below bits : is_finite_double bits -> double_m bits <> 0 -> (double_m bits = 2 ^ 52 -> double_e bits <> -1074) ->
  exists bits', is_finite_double bits' /\
  ((double_m bits <> 2 ^ 52 /\ units (double_m bits') (double_e bits') = units (double_m bits - 1) (double_e bits)) \/
   (double_m bits = 2 ^ 52 /\ 2 * units (double_m bits') (double_e bits') = units (2 * double_m bits - 1) (double_e bits))).
Proof.
  intros [HD HF] HM HMIN. destruct (bits_split bits HD) as (s & ex & fr & EB & Hs & Hex & Hfr & E1 & E2 & E3 & E4).
  rewrite E1 in HF. unfold double_m, double_e in *. rewrite E1, E2 in *. clear E1 E2.
  destruct (Z.eq_dec fr 0) as [GF|GF].
  - assert (GE : ex <> 0) by (intros ->; change (0 =? 0) with true in HM; cbv iota in HM; lia).
    replace (ex =? 0) with false in * by lia.
    assert (GE1 : ex <> 1) by lia.
    exists ((ex - 1) * 2 ^ 52 + (2 ^ 52 - 1)). destruct (fields (ex - 1) (2 ^ 52 - 1) ltac:(lia) ltac:(lia)) as (A1 & A2 & A3).
    split; [split; [exact A1|lia]|]. right. split; [lia|]. rewrite A2, A3. replace (ex - 1 =? 0) with false by lia. subst fr.
    unfold units. replace (ex - 1075 + 1076) with (1 + (ex - 1 - 1075 + 1076)) by lia. rewrite (Z.pow_add_r 2 1) by lia.
    change (2 * (2 ^ 52 + 0) - 1) with (2 ^ 52 + (2 ^ 52 - 1)). change (2 ^ 1) with 2. ring.
  - exists (ex * 2 ^ 52 + (fr - 1)). destruct (fields ex (fr - 1) ltac:(lia) ltac:(lia)) as (A1 & A2 & A3).
    split; [split; [exact A1|lia]|]. left. split; [destruct (ex =? 0); lia|]. rewrite A2, A3. destruct (ex =? 0); [reflexivity|]. f_equal. lia.
Qed.

(** ** Read back: in the interval *)
Theorem reads_back_inside bits d q : is_finite_double bits -> double_m bits <> 0 -> (double_m bits = 2 ^ 52 -> double_e bits <> -1074) ->
  reads_back d q bits -> dec_inside (d_finite (decode bits)) d q.
Proof.
  intros HF HM HMIN [RB OV]. assert (C := double_canon bits HF).
  destruct (decode_ok bits (proj1 HF)) as (_ & _ & HFIN & _ & _ & H).
  specialize (H (proj2 HFIN (conj HF HM))). cbv zeta in H. destruct H as (D & T & EM & P1 & P2 & P3 & P4 & I1 & I2).
  set (dd := d_finite (decode bits)) in *. set (t := double_e bits - f_exp dd) in *.
  assert (HEX : -1076 <= f_exp dd <= 970) by apply D. assert (FM : f_minus dd = 1) by apply D.
  unfold dec_inside. apply inside_units; [lia|]. set (u := 2 ^ (f_exp dd + 1076)) in *.
  assert (PU : 0 < u) by (apply pow2_pos; lia).
  assert (EU : 2 ^ (double_e bits + 1076) = 2 ^ t * u) by (unfold u; rewrite <- Z.pow_add_r by lia; f_equal; unfold t; lia).
  assert (PT : 0 < pos_pow 10 q) by (apply pos_pow_pos; lia).
  set (X := d * 2 ^ 1076 * pos_pow 10 (- q)) in *. set (T10 := pos_pow 10 q) in *.
  assert (EN : units (double_m bits) (double_e bits) = f_mant dd * u) by (unfold units; rewrite EU, EM; ring).
  assert (E1 := distance_units d q bits HF). fold X T10 in E1. rewrite EN in E1.
  assert (HFP : 1 <= f_plus dd <= 2) by (destruct D as (_ & _ & D & _); lia).
  assert (UP : X <= (f_mant dd + f_plus dd) * u * T10 /\ (f_inclusive dd = false -> X < (f_mant dd + f_plus dd) * u * T10)).
  { destruct (above bits HF) as [[A1 A2]|(b' & HF' & EN')].
    - assert (X < (f_mant dd + f_plus dd) * u * T10); [|lia].
      assert (TT : t = 1) by (assert (t <> 2); [|lia]; intros X2; assert (W := P1); rewrite X2 in W; change (2 ^ 2) with 4 in W; destruct D as (_ & _ & D & _); destruct D as [D|[_ D]]; [lia|];
        rewrite EM, A1, X2 in D; discriminate D).
      assert (UX : u = 2 ^ 2046) by (unfold u; f_equal; unfold t in TT; lia).
      rewrite TT in *. change (2 ^ 1) with 2 in *. rewrite EM, A1, UX. replace (f_plus dd) with 1 by lia.
      assert (O := Zmult_lt_compat_r _ _ (2 ^ 1076) eq_refl OV).
      replace (d * pos_pow 10 (- q) * 2 ^ 1076) with X in O by (unfold X; ring).
      replace ((2 ^ 1024 - 2 ^ 970) * T10 * 2 ^ 1076) with (((2 ^ 53 - 1) * 2 + 1) * 2 ^ 2046 * T10) in O; [exact O|].
      assert (EK : ((2 ^ 53 - 1) * 2 + 1) * 2 ^ 2046 = (2 ^ 1024 - 2 ^ 970) * 2 ^ 1076) by reflexivity. rewrite EK. unfold T10. ring.
    - destruct (RB b' HF') as [R1 R2]. assert (E2 := distance_units d q b' HF'). fold X T10 in E2.
      assert (EN2 : units (double_m b') (double_e b') = (f_mant dd + 2 * f_plus dd) * u).
      { rewrite EN'. unfold units. rewrite EU, EM, P1. ring. }
      rewrite EN2 in E2. assert (EQN := double_n_units b' bits HF' HF). rewrite EN, EN2 in EQN.
      assert (NE : double_n b' <> double_n bits) by (intros X2; apply EQN in X2; clear - X2 PU HFP; clearbody u; nia).
      assert (EV : f_inclusive dd = false -> distance d q bits <> distance d q b').
      { intros HIN X2. destruct (R2 X2) as [X3|X3]; [contradiction|]. specialize (I1 HIN). rewrite <- Z.negb_even, X3 in I1. discriminate I1. }
      replace ((f_mant dd + 2 * f_plus dd) * u * T10) with (f_mant dd * u * T10 + 2 * (f_plus dd * u * T10)) in E2 by ring.
      replace ((f_mant dd + f_plus dd) * u * T10) with (f_mant dd * u * T10 + f_plus dd * u * T10) by ring.
      assert (Hp : 0 < f_plus dd * u * T10) by (apply Z.mul_pos_pos; [apply Z.mul_pos_pos; lia|lia]).
      set (A := f_mant dd * u * T10) in *. set (p := f_plus dd * u * T10) in *. clearbody A p X.
      clear - R1 E1 E2 Hp EV. split; [clear EV; lia|]. intros HIN. specialize (EV HIN). lia. }
  assert (LO : (f_mant dd - f_minus dd) * u * T10 <= X /\ (f_inclusive dd = false -> (f_mant dd - f_minus dd) * u * T10 < X)).
  { destruct (below bits HF HM HMIN) as (b' & HF' & EN').
    destruct (RB b' HF') as [R1 R2]. assert (E2 := distance_units d q b' HF'). fold X T10 in E2.
    assert (EN2 : units (double_m b') (double_e b') = (f_mant dd - 2 * f_minus dd) * u).
    { destruct EN' as [[N1 N2]|[N1 N2]].
      - rewrite N2. unfold units. rewrite EU, EM, (P3 N1). ring.
      - rewrite FM, EM. specialize (P4 N1). rewrite P4 in *. change (2 ^ 2) with 4 in *.
        unfold units at 2 in N2. rewrite EU in N2. lia. }
    rewrite EN2 in E2. assert (EQN := double_n_units b' bits HF' HF). rewrite EN, EN2 in EQN.
    assert (NE : double_n b' <> double_n bits) by (intros X2; apply EQN in X2; clear - X2 PU FM; clearbody u; nia).
    assert (EV : f_inclusive dd = false -> distance d q bits <> distance d q b').
    { intros HIN X2. destruct (R2 X2) as [X3|X3]; [contradiction|]. specialize (I1 HIN). rewrite <- Z.negb_even, X3 in I1. discriminate I1. }
    rewrite FM in *.
    replace ((f_mant dd - 2 * 1) * u * T10) with (f_mant dd * u * T10 - 2 * (u * T10)) in E2 by ring.
    replace ((f_mant dd - 1) * u * T10) with (f_mant dd * u * T10 - u * T10) by ring.
    assert (Hp : 0 < u * T10) by (apply Z.mul_pos_pos; lia).
    set (A := f_mant dd * u * T10) in *. set (p := u * T10) in *. clearbody A p X.
    clear - R1 E1 E2 Hp EV. split; [clear EV; lia|]. intros HIN. specialize (EV HIN). lia. }
  unfold inside. clear - UP LO. clearbody u T10 X. destruct (f_inclusive dd); [right|left]; [split; [reflexivity|]; lia|]. destruct UP as [_ UP]. destruct LO as [_ LO]. specialize (UP eq_refl). specialize (LO eq_refl). lia.
Qed.

(** ** Shortest output of a double *)
Lemma scaled_distance bits d q : is_finite_double bits -> double_m bits <> 0 ->
  let dd := d_finite (decode bits) in
  Z.abs (d * scaled_den (f_exp dd) q - scaled_num (f_mant dd) (f_exp dd) q) * 2 ^ 1074 =
  distance d q bits * pos_pow 2 (- f_exp dd).
Proof.
  intros HF HM. cbv zeta. destruct (decode_units bits HF HM) as (D & PU & EN & _).
  assert (E := distance_units d q bits HF). rewrite EN in E. clear EN. set (dd := d_finite (decode bits)) in *.
  set (e := f_exp dd) in *. assert (HE : -1076 <= e <= 970) by apply D.
  apply (Z.mul_reg_l _ _ 4); [lia|]. rewrite !Z.mul_assoc, E. clear E.
  assert (P : 0 <= pos_pow 2 (- e)) by (apply Z.lt_le_incl, pos_pow_pos; lia).
  rewrite <- (Z.abs_eq (pos_pow 2 (- e))) by exact P. rewrite <- Z.abs_mul.
  transitivity (Z.abs (d * scaled_den e q - scaled_num (f_mant dd) e q) * Z.abs (2 ^ 1076)).
  { replace (Z.abs (2 ^ 1076)) with (4 * 2 ^ 1074) by reflexivity. ring. }
  rewrite <- Z.abs_mul. f_equal. unfold scaled_den, scaled_num.
  assert (E : pos_pow 2 e * 2 ^ 1076 = 2 ^ (e + 1076) * pos_pow 2 (- e)).
  { unfold pos_pow. rewrite <- !Z.pow_add_r by lia. f_equal. lia. }
  rewrite !Z.mul_sub_distr_r. f_equal; [ring|].
  transitivity (f_mant dd * pos_pow 10 q * (pos_pow 2 e * 2 ^ 1076)); [ring|]. rewrite E. ring.
Qed.

(** The smallest normal number, where the interval used is smaller than necessary. *)
Lemma min_normal bits : is_finite_double bits -> double_m bits = 2 ^ 52 -> double_e bits = -1074 ->
  bits = 2 ^ 52 \/ bits = 2 ^ 63 + 2 ^ 52.
Proof.
  intros [HD HF] HM HE. destruct (bits_split bits HD) as (s & ex & fr & EB & Hs & Hex & Hfr & E1 & E2 & E3 & E4).
  unfold double_m, double_e in *. rewrite E1, E2 in *. destruct (ex =? 0) eqn:G; [lia|].
  assert (ex = 1) by lia. assert (fr = 0) by lia. assert (s = 0 \/ s = 1) by lia. lia.
Qed.

Lemma min_normal_decode bits : bits = 2 ^ 52 \/ bits = 2 ^ 63 + 2 ^ 52 ->
  d_finite (decode bits) = mk_finite (2 ^ 54) 1 2 (-1076) true /\ double_n bits = 2 ^ 52.
Proof. intros [->| ->]; vm_compute; now split. Qed.

Lemma min_normal_shortest : format_shortest (mk_finite (2 ^ 54) 1 2 (-1076) true) = Ok (str "22250738585072014", -307).
Proof. vm_compute. reflexivity. Qed.

Lemma min_normal_bounds bits d q : bits = 2 ^ 52 \/ bits = 2 ^ 63 + 2 ^ 52 -> reads_back d q bits ->
  (2 ^ 53 - 1) * pos_pow 10 q <= d * pos_pow 10 (- q) * 2 ^ 1075 <= (2 ^ 53 + 1) * pos_pow 10 q.
Proof.
  intros HB [RB _]. assert (F1 : is_finite_double (2 ^ 52 - 1)) by (split; [split; [discriminate|reflexivity]|discriminate]).
  assert (F2 : is_finite_double (2 ^ 52 + 1)) by (split; [split; [discriminate|reflexivity]|discriminate]).
  destruct (RB _ F1) as [R1 _]. destruct (RB _ F2) as [R2 _]. clear RB.
  destruct (min_normal_decode bits HB) as [_ EN].
  unfold distance in R1, R2. rewrite EN in R1, R2.
  change (double_n (2 ^ 52 - 1)) with (2 ^ 52 - 1) in R1. change (double_n (2 ^ 52 + 1)) with (2 ^ 52 + 1) in R2.
  change (2 ^ 1075) with (2 * 2 ^ 1074). change (2 ^ 53) with (2 * 2 ^ 52). rewrite Z.mul_assoc, (Z.mul_comm _ 2), <- Z.mul_assoc.
  set (X := d * pos_pow 10 (- q) * 2 ^ 1074) in *. replace (2 * (d * pos_pow 10 (- q)) * 2 ^ 1074) with (2 * X) by (unfold X; ring). clearbody X.
  assert (PT : 0 < pos_pow 10 q) by (apply pos_pow_pos; lia). set (T := pos_pow 10 q) in *. clearbody T.
  replace ((2 ^ 52 - 1) * T) with (2 ^ 52 * T - T) in R1 by ring. replace ((2 ^ 52 + 1) * T) with (2 ^ 52 * T + T) in R2 by ring.
  replace ((2 * 2 ^ 52 - 1) * T) with (2 * (2 ^ 52 * T) - T) by ring. replace ((2 * 2 ^ 52 + 1) * T) with (2 * (2 ^ 52 * T) + T) by ring.
  set (A := 2 ^ 52 * T) in *. clearbody A. lia.
Qed.

Lemma min_normal_no_shorter bits d q : bits = 2 ^ 52 \/ bits = 2 ^ 63 + 2 ^ 52 -> 0 < d < 10 ^ 16 -> ~ reads_back d q bits.
Proof.
  intros HB Hd RB. assert (H := min_normal_bounds bits d q HB RB). clear RB.
  destruct (Z_le_gt_dec q 323) as [G|G].
  - set (t := 10 ^ (323 - Z.max q 0)). assert (PT : 0 < t) by (apply Z.pow_pos_nonneg; lia).
    assert (E1 : pos_pow 10 q * t = 10 ^ 323) by (unfold pos_pow, t; rewrite <- Z.pow_add_r by lia; f_equal; lia).
    assert (E2 : d * pos_pow 10 (- q) * 2 ^ 1075 * t = d * 10 ^ (323 - q) * 2 ^ 1075).
    { transitivity (d * (pos_pow 10 (- q) * t) * 2 ^ 1075); [ring|]. f_equal. f_equal. unfold pos_pow, t. rewrite <- Z.pow_add_r by lia. f_equal. lia. }
    destruct H as [H1 H2]. apply (Z.mul_le_mono_nonneg_r _ _ t) in H1; [|clear - PT; lia]. apply (Z.mul_le_mono_nonneg_r _ _ t) in H2; [|clear - PT; lia].
    rewrite <- Z.mul_assoc, E1, E2 in H1. rewrite <- (Z.mul_assoc (2 ^ 53 + 1)), E1, E2 in H2.
    set (D := d * 10 ^ (323 - q)) in *. clearbody D.
    assert (C1 : 2225073858507201 * 2 ^ 1075 < (2 ^ 53 - 1) * 10 ^ 323) by reflexivity.
    assert (C2 : (2 ^ 53 + 1) * 10 ^ 323 < 2225073858507202 * 2 ^ 1075) by reflexivity.
    assert (P75 : 0 < 2 ^ 1075) by reflexivity. set (W := 2 ^ 1075) in *. set (U := (2 ^ 53 - 1) * 10 ^ 323) in *. set (V := (2 ^ 53 + 1) * 10 ^ 323) in *. clearbody W U V.
    assert (D1 : 2225073858507201 < D) by (apply (Zmult_lt_reg_r _ _ W); lia). assert (D2 : D < 2225073858507202) by (apply (Zmult_lt_reg_r _ _ W); lia). lia.
  - destruct H as [H _]. unfold pos_pow in H. rewrite (Z.max_l q), (Z.max_r (- q)) in H by lia. change (10 ^ 0) with 1 in H. rewrite Z.mul_1_r in H.
    assert (P : 10 ^ 324 <= 10 ^ q) by (apply Z.pow_le_mono_r; lia).
    assert (C1 : 10 ^ 16 * 2 ^ 1075 < (2 ^ 53 - 1) * 10 ^ 324) by reflexivity.
    assert (C2 : 0 < 2 ^ 1075) by reflexivity. assert (C3 : 0 < 2 ^ 53 - 1) by reflexivity. set (W := 2 ^ 1075) in *. set (B := 2 ^ 53 - 1) in *. set (Q := 10 ^ q) in *. set (Q0 := 10 ^ 324) in *. clearbody W B Q Q0.
    assert (B * Q0 <= B * Q) by (apply Z.mul_le_mono_nonneg_l; lia). assert (d * W < 10 ^ 16 * W) by (apply Zmult_lt_compat_r; lia). lia.
Qed.

Lemma min_normal_closest bits d : bits = 2 ^ 52 \/ bits = 2 ^ 63 + 2 ^ 52 ->
  distance 22250738585072014 324 bits <= distance d 324 bits /\
  (22250738585072014 < d -> distance 22250738585072014 324 bits < distance d 324 bits).
Proof.
  intros HB. destruct (min_normal_decode bits HB) as [_ EN]. unfold distance. rewrite EN.
  unfold pos_pow. change (Z.max (- (324)) 0) with 0. change (Z.max 324 0) with 324. change (10 ^ 0) with 1. rewrite !Z.mul_1_r.
  assert (C : 2 * Z.abs (22250738585072014 * 2 ^ 1074 - 2 ^ 52 * 10 ^ 324) < 2 ^ 1074) by (vm_compute; reflexivity).
  assert (P : 0 < 2 ^ 1074) by reflexivity.
  set (W := 2 ^ 1074) in *. set (V := 2 ^ 52 * 10 ^ 324) in *. clearbody W V.
  destruct (Z.eq_dec d 22250738585072014) as [->|NE]; [lia|].
  assert (X : W <= Z.abs ((d - 22250738585072014) * W)) by (rewrite Z.abs_mul; assert (1 <= Z.abs (d - 22250738585072014)) by lia; nia).
  replace ((d - 22250738585072014) * W) with (d * W - 22250738585072014 * W) in X by ring. lia.
Qed.

Theorem shortest_double bits : is_finite_double bits -> double_m bits <> 0 ->
  exists ds k, format_shortest (d_finite (decode bits)) = Ok (ds, k) /\
    all_digits ds /\ (1 <= length ds <= 17)%nat /\ -400 <= k <= 401 /\
    let q := Z.of_nat (length ds) - k in
    10 ^ (Z.of_nat (length ds) - 1) <= digits_value ds /\
    reads_back (digits_value ds) q bits /\
    (forall d' q', 0 < d' < 10 ^ (Z.of_nat (length ds) - 1) -> ~ reads_back d' q' bits) /\
    (forall d', reads_back d' q bits -> distance (digits_value ds) q bits <= distance d' q bits /\
       (digits_value ds < d' -> distance (digits_value ds) q bits < distance d' q bits)).
Proof.
  intros HF HM. destruct (decode_units bits HF HM) as (D & _).
  destruct (format_shortest_ok _ D) as (ds & k & E & A & L & K & H). cbv zeta in H. destruct H as (H1 & H2 & H3 & H4 & H5).
  assert (RB := inside_reads_back bits (digits_value ds) (Z.of_nat (length ds) - k) HF HM ltac:(lia) H2).
  exists ds, k. split; [exact E|]. split; [exact A|]. split; [exact L|]. split; [exact K|]. cbv zeta. split; [exact H1|]. split; [exact RB|].
  assert (MIN : (double_m bits = 2 ^ 52 /\ double_e bits = -1074) \/ (double_m bits = 2 ^ 52 -> double_e bits <> -1074)) by lia.
  destruct MIN as [[M1 M2]|MIN].
  - assert (HB := min_normal bits HF M1 M2). destruct (min_normal_decode bits HB) as [ED _]. rewrite ED, min_normal_shortest in E.
    injection E as <- <-. cbn [length str]. split.
    + intros d' q' Hd. apply min_normal_no_shorter; [exact HB|]. exact Hd.
    + intros d' _. exact (min_normal_closest bits d' HB).
  - split.
    + intros d' q' Hd R. apply (H3 d' q' Hd). apply reads_back_inside; assumption.
    + intros d' R. assert (HIN := reads_back_inside bits d' _ HF HM MIN R). specialize (H4 d' HIN). specialize (H5 d' HIN).
      assert (S1 := scaled_distance bits (digits_value ds) (Z.of_nat (length ds) - k) HF HM).
      assert (S2 := scaled_distance bits d' (Z.of_nat (length ds) - k) HF HM). cbv zeta in S1, S2.
      assert (P : 0 < pos_pow 2 (- f_exp (d_finite (decode bits)))) by (apply pos_pow_pos; lia).
      split.
      * apply (Zmult_le_reg_r _ _ (pos_pow 2 (- f_exp (d_finite (decode bits))))); [lia|]. rewrite <- S1, <- S2.
        apply Z.mul_le_mono_nonneg_r; [discriminate|exact H4].
      * intros HD. specialize (H5 HD). apply (Zmult_lt_reg_r _ _ (pos_pow 2 (- f_exp (d_finite (decode bits))))); [lia|]. rewrite <- S1, <- S2.
        apply Zmult_lt_compat_r; [reflexivity|exact H5].
Qed.

(** ** The exact modes of a double *)
Lemma decode_ratio bits q : is_finite_double bits -> double_m bits <> 0 ->
  let d := d_finite (decode bits) in
  dec_ok d /\
  scaled_num (f_mant d) (f_exp d) q * scaled_den (double_e bits) q = scaled_num (double_m bits) (double_e bits) q * scaled_den (f_exp d) q.
Proof.
  intros HF HM. destruct (decode_ok bits (proj1 HF)) as (_ & _ & HFIN & _ & _ & H).
  specialize (H (proj2 HFIN (conj HF HM))). cbv zeta in H |- *. destruct H as (D & T & EM & _). split; [exact D|].
  set (d := d_finite (decode bits)) in *. rewrite EM. unfold scaled_num, scaled_den.
  assert (E : 2 ^ (double_e bits - f_exp d) * pos_pow 2 (f_exp d) * pos_pow 2 (- double_e bits) = pos_pow 2 (double_e bits) * pos_pow 2 (- f_exp d)).
  { unfold pos_pow. rewrite <- !Z.pow_add_r by lia. f_equal. lia. }
  transitivity (double_m bits * pos_pow 10 q * pos_pow 10 (- q) * (2 ^ (double_e bits - f_exp d) * pos_pow 2 (f_exp d) * pos_pow 2 (- double_e bits))); [ring|].
  rewrite E. ring.
Qed.

Lemma decode_round bits q : is_finite_double bits -> double_m bits <> 0 ->
  let d := d_finite (decode bits) in
  round_half_even (scaled_num (f_mant d) (f_exp d) q) (scaled_den (f_exp d) q) =
  round_half_even (scaled_num (double_m bits) (double_e bits) q) (scaled_den (double_e bits) q).
Proof.
  intros HF HM. cbv zeta. apply rhe_ratio; try apply scaled_den_pos. apply (decode_ratio bits q HF HM).
Qed.

Lemma decode_magnitude bits k : is_finite_double bits -> double_m bits <> 0 ->
  let d := d_finite (decode bits) in
  magnitude (f_mant d) (f_exp d) k -> magnitude (double_m bits) (double_e bits) k.
Proof.
  intros HF HM. cbv zeta. destruct (decode_ratio bits (1 - k) HF HM) as [_ E]. unfold magnitude.
  assert (P1 := scaled_den_pos (double_e bits) (1 - k)). assert (P2 := scaled_den_pos (f_exp (d_finite (decode bits))) (1 - k)).
  set (a := scaled_num _ (f_exp _) _) in *. set (b := scaled_num (double_m bits) _ _) in *. set (u := scaled_den (double_e bits) _) in *.
  set (w := scaled_den (f_exp _) _) in *. clearbody a b u w. intros [H1 H2]. split.
  - apply (Zmult_le_reg_r _ _ w); [lia|]. rewrite <- E. rewrite Z.mul_comm. apply Z.mul_le_mono_nonneg_r; lia.
  - apply (Zmult_lt_reg_r _ _ w); [lia|]. rewrite <- E. replace (10 * u * w) with (10 * w * u) by ring. apply Zmult_lt_compat_r; lia.
Qed.

Theorem significand_double bits N : is_finite_double bits -> double_m bits <> 0 -> 1 <= N ->
  exists ds k k1, format_exact (d_finite (decode bits)) mode_significand N = Ok (ds, k) /\
    all_digits ds /\ Z.of_nat (length ds) = N /\ 10 ^ (N - 1) <= digits_value ds /\ -400 <= k <= 402 /\
    magnitude (double_m bits) (double_e bits) k1 /\ k1 <= k <= k1 + 1 /\
    digits_value ds * 10 ^ (k - k1) =
      round_half_even (scaled_num (double_m bits) (double_e bits) (N - k1)) (scaled_den (double_e bits) (N - k1)).
Proof.
  intros HF HM HN. destruct (decode_ratio bits 0 HF HM) as [D _].
  destruct (format_exact_significand _ N D HN) as (ds & k & k1 & E & A & L & F & K & M & K1 & V).
  exists ds, k, k1. rewrite <- (decode_round bits (N - k1) HF HM). apply (decode_magnitude bits k1 HF HM) in M.
  repeat match goal with |- _ /\ _ => split end; try assumption; lia.
Qed.

Theorem decimal_double bits N : is_finite_double bits -> double_m bits <> 0 -> 0 <= N ->
  let r := round_half_even (scaled_num (double_m bits) (double_e bits) N) (scaled_den (double_e bits) N) in
  exists ds k, format_exact (d_finite (decode bits)) mode_decimal_point N = Ok (ds, k) /\ all_digits ds /\ -400 <= k <= 402 /\
    match ds with
    | [] => r = 0 /\ k <= - N
    | _ => let x := k - Z.of_nat (length ds) + N in
           10 ^ (Z.of_nat (length ds) - 1) <= digits_value ds /\ digits_value ds * 10 ^ x = r /\
           ((x = 0 /\ (magnitude (double_m bits) (double_e bits) k \/ length ds = 1%nat)) \/
            (x = 1 /\ ds = 49 :: repeat 48 (length ds - 1) /\ magnitude (double_m bits) (double_e bits) (k - 1)))
    end.
Proof.
  intros HF HM HN. destruct (decode_ratio bits 0 HF HM) as [D _]. cbv zeta. rewrite <- (decode_round bits N HF HM).
  destruct (format_exact_decimal _ N D HN) as (ds & k & E & A & K & H). exists ds, k. split; [exact E|]. split; [exact A|]. split; [exact K|].
  destruct ds as [|c ds]; [exact H|]. cbv zeta in H |- *. destruct H as (F & V & [[X [M|L]]|(X & C & M)]); (split; [exact F|]); (split; [exact V|]).
  - left. split; [exact X|]. left. exact (decode_magnitude bits k HF HM M).
  - left. split; [exact X|]. now right.
  - right. split; [exact X|]. split; [exact C|]. exact (decode_magnitude bits (k - 1) HF HM M).
Qed.

(** ** At most one magnitude is read *)
Lemma successor_odd m e m' e' : canon m e -> canon m' e' -> units m' e' = units (m + 1) e ->
  Z.even m = true -> Z.even m' = true -> False.
Proof.
  intros C C' E V V'. unfold units in E.
  assert (O : Z.even (m + 1) = false) by (rewrite Z.even_add, V; reflexivity).
  destruct (Z_le_gt_dec e e') as [G|G].
  - assert (0 <= e + 1076) by (unfold canon in C; lia). rewrite (pow2_split (e + 1076) (e' + 1076)) in E by lia.
    assert (P := pow2_pos (e + 1076) ltac:(lia)). assert (E' : m' * 2 ^ (e' + 1076 - (e + 1076)) = m + 1).
    { apply (Z.mul_reg_r _ _ (2 ^ (e + 1076))); [lia|]. rewrite <- E. ring. }
    rewrite <- E', Z.even_mul, V' in O. discriminate O.
  - assert (HM : 2 ^ 52 <= m) by (unfold canon in C, C'; lia). assert (0 <= e' + 1076) by (unfold canon in C'; lia).
    assert (HM' : m' < 2 * 2 ^ 52) by (unfold canon in C'; change (2 ^ 53) with (2 * 2 ^ 52) in C'; lia).
    rewrite (pow2_split (e' + 1076) (e + 1076)) in E by lia. assert (P := pow2_pos (e' + 1076) ltac:(lia)).
    assert (W : 2 <= 2 ^ (e + 1076 - (e' + 1076))) by (change 2 with (2 ^ 1) at 1; apply Z.pow_le_mono_r; lia).
    assert (E' : m' = (m + 1) * 2 ^ (e + 1076 - (e' + 1076))).
    { apply (Z.mul_reg_r _ _ (2 ^ (e' + 1076))); [lia|]. rewrite E. ring. }
    set (w := 2 ^ (e + 1076 - (e' + 1076))) in *. set (B := 2 ^ 52) in *. assert (HB : 0 < B) by reflexivity. clearbody w B. nia.
Qed.

Lemma reads_back_lt bits bits' d q : is_finite_double bits -> is_finite_double bits' ->
  reads_back d q bits -> reads_back d q bits' -> units (double_m bits) (double_e bits) < units (double_m bits') (double_e bits') -> False.
Proof.
  intros HF HF' [R _] [R' _] L. destruct (R bits' HF') as [D1 T1]. destruct (R' bits HF) as [D2 T2].
  assert (C := double_canon bits HF). assert (C' := double_canon bits' HF').
  assert (NE : double_n bits <> double_n bits') by (intros X; apply (double_n_units bits bits' HF HF') in X; lia).
  destruct (T1 ltac:(lia)) as [X|V]; [congruence|]. destruct (T2 ltac:(lia)) as [X|V']; [congruence|].
  assert (NX := next_units _ _ _ _ C C' L).
  destruct (above bits HF) as [[A1 A2]|(b & HB & EB)].
  - rewrite A1 in V. discriminate V.
  - destruct (Z.eq_dec (units (double_m bits') (double_e bits')) (units (double_m bits + 1) (double_e bits))) as [E|E].
    + exact (successor_odd _ _ _ _ C C' E V V').
    + (* a double in between is nearer *)
      destruct (R b HB) as [D3 _]. assert (Y1 := distance_units d q bits HF). assert (Y2 := distance_units d q bits' HF'). assert (Y3 := distance_units d q b HB).
      assert (PT : 0 < pos_pow 10 q) by (apply pos_pow_pos; lia).
      assert (L1 : units (double_m bits) (double_e bits) < units (double_m b) (double_e b)).
      { rewrite EB. unfold units. assert (P := pow2_pos (double_e bits + 1076) ltac:(unfold canon in C; lia)). lia. }
      assert (L2 : units (double_m b) (double_e b) < units (double_m bits') (double_e bits')) by lia.
      set (X := d * 2 ^ 1076 * pos_pow 10 (- q)) in *. set (T := pos_pow 10 q) in *.
      assert (M1 := Zmult_lt_compat_r _ _ T PT L1). assert (M2 := Zmult_lt_compat_r _ _ T PT L2).
      set (a1 := units (double_m bits) (double_e bits) * T) in *. set (a2 := units (double_m bits') (double_e bits') * T) in *. set (a3 := units (double_m b) (double_e b) * T) in *.
      clearbody X a1 a2 a3. lia.
Qed.

Theorem reads_back_unique bits bits' d q : is_finite_double bits -> is_finite_double bits' ->
  reads_back d q bits -> reads_back d q bits' -> double_n bits = double_n bits'.
Proof.
  intros HF HF' R R'. apply (double_n_units bits bits' HF HF').
  destruct (Z.lt_trichotomy (units (double_m bits) (double_e bits)) (units (double_m bits') (double_e bits'))) as [L|[L|L]]; [exfalso|exact L|exfalso].
  - exact (reads_back_lt _ _ _ _ HF HF' R R' L).
  - exact (reads_back_lt _ _ _ _ HF' HF R' R L).
Qed.
