(** The field of a floating-point number leaves nothing open (SpecDecimal.v,
    SpecField.v): two texts that meet it are equal. *)
From Verif Require Import Base Conversion Dragon FloatArg Specs Lib SpecNum SpecFloat SpecFormat SpecDecimal.
From Verif Require Import ConversionProofs FloatArgProofs DragonProofs DecimalProofs FloatTextProofs CallProofs SpecField.

(** ** Digits *)
Lemma same_digits a : forall b, all_digits a -> all_digits b -> length a = length b -> digits_value a = digits_value b -> a = b.
Proof.
  induction a as [|c a IH]; intros [|d b] HA HB HL HV; try discriminate HL; [reflexivity|].
  cbn [length] in HL. injection HL as HL. inversion HA as [|? ? C A]; subst. inversion HB as [|? ? D B]; subst.
  rewrite !digits_value_cons, HL in HV. assert (X := digits_value_bound a A). assert (Y := digits_value_bound b B). rewrite HL in X.
  set (P := 10 ^ Z.of_nat (length b)) in *. assert (c = d) as -> by nia. f_equal. apply IH; try assumption. lia.
Qed.

Lemma plain_value i : plain_integer i -> (i = [48] /\ digits_value i = 0) \/ 10 ^ (zlen i - 1) <= digits_value i < 10 ^ zlen i.
Proof.
  intros (A & N & H). destruct H as [->|H]; [now left|]. right. assert (B := digits_value_bound i A). unfold zlen in *. split; [|lia].
  destruct i as [|c i]; [easy|]. cbn [hd] in H. inversion A as [|? ? C A']; subst. rewrite digits_value_cons. assert (X := digits_value_bound i A').
  cbn [length] in *. replace (Z.of_nat (S (length i)) - 1) with (Z.of_nat (length i)) by lia. nia.
Qed.

Lemma plain_same i j : plain_integer i -> plain_integer j -> digits_value i = digits_value j -> i = j.
Proof.
  intros HI HJ E. assert (PI := plain_value i HI). assert (PJ := plain_value j HJ). rewrite E in PI.
  destruct HI as (AI & NI & _), HJ as (AJ & NJ & _).
  assert (LI : 1 <= zlen i) by (destruct i; [easy|]; unfold zlen; cbn [length]; lia).
  assert (LJ : 1 <= zlen j) by (destruct j; [easy|]; unfold zlen; cbn [length]; lia).
  assert (P0 : forall n, 0 <= n -> 0 < 10 ^ n) by (intros; apply Z.pow_pos_nonneg; lia).
  apply same_digits; try assumption. assert (zlen i = zlen j); [|unfold zlen in *; lia].
  destruct PI as [[-> X]|X], PJ as [[-> Y]|Y]; try reflexivity; try (specialize (P0 (zlen i - 1)); specialize (P0 (zlen j - 1)); lia).
  - specialize (P0 (zlen j - 1)). lia.
  - specialize (P0 (zlen i - 1)). lia.
  - assert (A : zlen i - 1 < zlen j) by (apply (Z.pow_lt_mono_r_iff 10); lia).
    assert (B : zlen j - 1 < zlen i) by (apply (Z.pow_lt_mono_r_iff 10); lia). lia.
Qed.

Lemma parts_same i f i' f' : plain_integer i -> all_digits f -> plain_integer i' -> all_digits f' -> length f = length f' ->
  text_value i f = text_value i' f' -> i = i' /\ f = f'.
Proof.
  intros HI HF HI' HF' L V. unfold text_value in V. rewrite !digits_value_app, L in V.
  assert (X := digits_value_bound f HF). assert (Y := digits_value_bound f' HF'). rewrite L in X.
  assert (E : digits_value i = digits_value i') by nia. split.
  - now apply plain_same.
  - apply same_digits; try assumption. nia.
Qed.

(** ** Exponents *)
Lemma decade_iff A B u M : 0 < B -> 0 <= M -> 0 <= M + u ->
  B * pos_pow 10 u <= A * pos_pow 10 (- u) < 10 * (B * pos_pow 10 u) <-> B * 10 ^ (M + u) <= A * 10 ^ M < 10 * (B * 10 ^ (M + u)).
Proof.
  intros HB HM HU. unfold pos_pow.
  assert (E1 : 10 ^ (M + u) = 10 ^ Z.max u 0 * 10 ^ (M - Z.max (- u) 0)) by (rewrite <- Z.pow_add_r by lia; f_equal; lia).
  assert (E2 : 10 ^ M = 10 ^ Z.max (- u) 0 * 10 ^ (M - Z.max (- u) 0)) by (rewrite <- Z.pow_add_r by lia; f_equal; lia).
  rewrite E1, E2. assert (P : 0 < 10 ^ (M - Z.max (- u) 0)) by (apply Z.pow_pos_nonneg; lia).
  set (p := 10 ^ (M - Z.max (- u) 0)) in *. set (x := 10 ^ Z.max u 0). set (y := 10 ^ Z.max (- u) 0). clearbody p x y. clear E1 E2.
  replace (B * (x * p)) with ((B * x) * p) by ring. replace (A * (y * p)) with ((A * y) * p) by ring.
  replace (10 * (B * x * p)) with ((10 * (B * x)) * p) by ring.
  rewrite <- Z.mul_le_mono_pos_r, <- Z.mul_lt_mono_pos_r by lia. reflexivity.
Qed.

Lemma decade_unique A B u v : 0 < B ->
  B * pos_pow 10 u <= A * pos_pow 10 (- u) < 10 * (B * pos_pow 10 u) ->
  B * pos_pow 10 v <= A * pos_pow 10 (- v) < 10 * (B * pos_pow 10 v) -> u = v.
Proof.
  intros HB. set (M := Z.abs u + Z.abs v). rewrite (decade_iff A B u M), (decade_iff A B v M) by lia. intros H H'.
  assert (S : forall n, 0 <= n -> 10 * (B * 10 ^ n) = B * 10 ^ (n + 1)) by (intros n Hn; rewrite Z.pow_add_r by lia; change (10 ^ 1) with 10; ring).
  rewrite !S in H, H' by lia.
  assert (X : B * 10 ^ (M + u) < B * 10 ^ (M + v + 1)) by lia. assert (Y : B * 10 ^ (M + v) < B * 10 ^ (M + u + 1)) by lia.
  apply Z.mul_lt_mono_pos_l in X, Y; try assumption. apply Z.pow_lt_mono_r_iff in X, Y; lia.
Qed.

Lemma magnitude_unique m e k k' : magnitude m e k -> magnitude m e k' -> k = k'.
Proof.
  unfold magnitude, scaled_den, scaled_num. intros H H'.
  assert (E : k - 1 = k' - 1); [|lia]. apply (decade_unique (m * pos_pow 2 e) (pos_pow 2 (- e))).
  - unfold pos_pow. apply Z.pow_pos_nonneg; lia.
  - replace (- (k - 1)) with (1 - k) by lia. replace (- (1 - k)) with (k - 1) in H by lia. exact H.
  - replace (- (k' - 1)) with (1 - k') by lia. replace (- (1 - k')) with (k' - 1) in H' by lia. exact H'.
Qed.
Lemma magnitude_zero e k : ~ magnitude 0 e k.
Proof.
  unfold magnitude, scaled_num, scaled_den. rewrite !Z.mul_0_l. unfold pos_pow.
  assert (0 < 2 ^ Z.max (- e) 0) by (apply Z.pow_pos_nonneg; lia). assert (0 < 10 ^ Z.max (- (1 - k)) 0) by (apply Z.pow_pos_nonneg; lia). nia.
Qed.

Lemma first_exponent_unique d q d' q' x x' : same_decimal d q d' q' -> first_exponent d q x -> first_exponent d' q' x' -> x = x'.
Proof.
  assert (HN : exists N, q <= N /\ q' <= N) by (exists (Z.max q q'); lia). destruct HN as (N & HN1 & HN2). intros HS. rewrite (same_decimal_iff d q d' q' N) in HS by lia.
  assert (P : 0 < 10 ^ (N - q)) by (apply Z.pow_pos_nonneg; lia). assert (P' : 0 < 10 ^ (N - q')) by (apply Z.pow_pos_nonneg; lia).
  unfold first_exponent. destruct (Z.eqb_spec d 0) as [->|D], (Z.eqb_spec d' 0) as [->|D']; try lia; try (exfalso; nia).
  intros H H'. assert (Z1 : forall u, 1 * u = u) by (intros; lia).
  rewrite <- (Z1 (pos_pow 10 (x + q))) in H. rewrite <- (Z1 (pos_pow 10 (x' + q'))) in H'.
  assert (HM : exists M, 0 <= M /\ 0 <= M + N + x /\ 0 <= M + N + x') by (exists (Z.abs (N + x) + Z.abs (N + x')); clear; lia). destruct HM as (M & HM1 & HM2 & HM3).
  rewrite (decade_iff d 1 (x + q) (M + (N - q))) in H by lia. rewrite (decade_iff d' 1 (x' + q') (M + (N - q'))) in H' by lia.
  rewrite !(Z.pow_add_r 10 M) in H, H' by lia.
  assert (E : d' * (10 ^ M * 10 ^ (N - q')) = d * (10 ^ M * 10 ^ (N - q))) by (rewrite (Z.mul_comm (10 ^ M)), (Z.mul_comm (10 ^ M)), !Z.mul_assoc; now rewrite HS).
  rewrite E in H'. set (A := d * (10 ^ M * 10 ^ (N - q))) in *. clearbody A.
  rewrite !Z1 in H, H'. replace (M + (N - q) + (x + q)) with (M + N + x) in H by lia. replace (M + (N - q') + (x' + q')) with (M + N + x') in H' by lia.
  assert (G : 0 <= M + N + x /\ 0 <= M + N + x') by (now split). clear HS E P P' D D' HN1 HN2. clear q q' d d'.
  assert (S : forall n, 0 <= n -> 10 * 10 ^ n = 10 ^ (n + 1)) by (intros n Hn; rewrite Z.pow_add_r by lia; change (10 ^ 1) with 10; ring).
  rewrite !S in H, H' by apply G.
  assert (X : 10 ^ (M + N + x) < 10 ^ (M + N + x' + 1)) by lia. assert (Y : 10 ^ (M + N + x') < 10 ^ (M + N + x + 1)) by lia.
  apply Z.pow_lt_mono_r_iff in X, Y; lia.
Qed.

Lemma same_scale d d' q : same_decimal d q d' q -> d = d'.
Proof. unfold same_decimal. rewrite Z.sub_diag. change (pos_pow 10 0) with 1. lia. Qed.

(** A text without trailing zeros is no longer than another one of the same value. *)
Lemma no_longer i f i' f' c : all_digits i' -> all_digits f' -> no_trailing_zero f' ->
  same_decimal (text_value i f) (Z.of_nat (length f) - c) (text_value i' f') (Z.of_nat (length f') - c) -> (length f' <= length f)%nat.
Proof.
  intros HI' HF' [->|HT] HS; [cbn [length]; lia|]. destruct (Nat.le_gt_cases (length f') (length f)) as [L|L]; [exact L|]. exfalso.
  rewrite (same_decimal_iff _ _ _ _ (Z.of_nat (length f') - c)) in HS by lia. rewrite Z.sub_diag in HS. change (10 ^ 0) with 1 in HS.
  destruct (exists_last (l := f')) as (g & l & E); [intros ->; now apply HT|]. subst f'. rewrite last_last in HT. unfold text_value in HS.
  rewrite app_assoc, digits_value_snoc in HS. rewrite app_length in *. cbn [length] in *.
  replace (Z.of_nat (length g + 1) - c - (Z.of_nat (length f) - c)) with (1 + (Z.of_nat (length g) - Z.of_nat (length f))) in HS by lia.
  rewrite Z.pow_add_r in HS by lia. change (10 ^ 1) with 10 in HS. apply Forall_app in HF'. destruct HF' as [_ HL]. inversion HL; subst. lia.
Qed.

(** ** Texts *)
Lemma exponent_text_unique up x t t' : exponent_text up x t -> exponent_text up x t' -> t = t'.
Proof.
  intros (n & d & C & -> & L) (n' & d' & C' & -> & L'). apply canonical_unique in C, C'; try lia. subst d d'. assert (n = n') as -> by lia. reflexivity.
Qed.
Lemma decimal_text_unique p up sci i f t t' : decimal_text p up sci i f t -> decimal_text p up sci i f t' -> t = t'.
Proof.
  intros (_ & _ & H) (_ & _ & H'). destruct sci as [x|]; [|congruence]. destruct H as (_ & e & E & ->), H' as (_ & e' & E' & ->).
  now rewrite (exponent_text_unique _ _ _ _ E E').
Qed.
Lemma significant_unique bits n d q d' q' : significant_rounding bits n d q -> significant_rounding bits n d' q' -> same_decimal d q d' q'.
Proof.
  intros [(Z0 & ->)|(k & M & S)] [(Z0' & ->)|(k' & M' & S')].
  - unfold same_decimal. lia.
  - rewrite Z0 in M'. now apply magnitude_zero in M'.
  - rewrite Z0' in M. now apply magnitude_zero in M.
  - rewrite (magnitude_unique _ _ _ _ M M') in *. eapply same_decimal_trans; [exact S|]. now apply same_decimal_sym.
Qed.

Lemma fixed_body_unique s bits b b' : fixed_body s bits b -> fixed_body s bits b' -> b = b'.
Proof.
  unfold fixed_body. cbv zeta. set (N := if sp_precision s =? -1 then 6 else sp_precision s).
  intros (i & f & D & L & V) (i' & f' & D' & L' & V').
  destruct (parts_same i f i' f') as [-> ->]; try apply D; try apply D'; try lia. eapply decimal_text_unique; eauto.
Qed.

Lemma exp_body_unique s bits b b' : exp_body s bits b -> exp_body s bits b' -> b = b'.
Proof.
  unfold exp_body. cbv zeta. set (N := if sp_precision s =? -1 then 6 else sp_precision s).
  intros (i & f & x & D & L & F & V) (i' & f' & x' & D' & L' & F' & V'). assert (SD := significant_unique _ _ _ _ _ _ V V').
  assert (x = x') by (eapply first_exponent_unique; eauto). subst x'. unfold text_scale in SD. rewrite L, L' in SD. apply same_scale in SD.
  destruct (parts_same i f i' f') as [-> ->]; try apply D; try apply D'; try lia. eapply decimal_text_unique; eauto.
Qed.

Lemma general_body_unique s bits b b' : general_body s bits b -> general_body s bits b' -> b = b'.
Proof.
  unfold general_body. cbv zeta. set (P := if sp_precision s =? -1 then 6 else Z.max 1 (sp_precision s)).
  intros (i & f & x & D & F & T & A & V) (i' & f' & x' & D' & F' & T' & A' & V'). assert (SD := significant_unique _ _ _ _ _ _ V V').
  assert (x = x') by (eapply first_exponent_unique; eauto). subst x'.
  set (sci := if (-4 <=? x) && (x <? P) then None else Some x) in *. unfold text_scale in *.
  assert (L : length f = length f').
  { destruct (sp_alternate_form s).
    - specialize (A eq_refl). specialize (A' eq_refl). lia.
    - specialize (T eq_refl). specialize (T' eq_refl). apply Nat.le_antisymm.
      + apply (no_longer i' f' i f _ ltac:(apply D) ltac:(apply D) T (same_decimal_sym _ _ _ _ SD)).
      + apply (no_longer i f i' f' _ ltac:(apply D') ltac:(apply D') T' SD). }
  rewrite L in SD. apply same_scale in SD.
  destruct (parts_same i f i' f') as [-> ->]; try apply D; try apply D'; try lia. eapply decimal_text_unique; eauto.
Qed.

Lemma padded_decimal d q (z : nat) : same_decimal (d * 10 ^ Z.of_nat z) q d (q - Z.of_nat z).
Proof. rewrite (same_decimal_iff _ _ _ _ q) by lia. rewrite Z.sub_diag. replace (q - (q - Z.of_nat z)) with (Z.of_nat z) by lia. change (10 ^ 0) with 1. lia. Qed.

Lemma shortest_body_unique s bits b b' : is_finite_double bits -> shortest_body s bits b -> shortest_body s bits b' -> b = b'.
Proof.
  intros HF. unfold shortest_body. cbv zeta.
  intros (i & f & x & sig & a & z & D & T & F & EI & V0 & V) (i' & f' & x' & sig' & a' & z' & D' & T' & F' & EI' & V0' & V').
  assert (SD : same_decimal (text_value i f) (text_scale (if (-4 <=? x) && (x <? 16) then None else Some x) f)
                 (text_value i' f') (text_scale (if (-4 <=? x') && (x' <? 16) then None else Some x') f')).
  { destruct (Z.eq_dec (double_m bits) 0) as [Z0|Z0].
    - destruct (V0 Z0) as [-> ->], (V0' Z0) as [-> ->]. unfold same_decimal, text_value. reflexivity.
    - destruct (V Z0) as (R & S & N), (V' Z0) as (R' & S' & N').
      set (q := text_scale _ f) in *. set (q' := text_scale _ f') in *. clearbody q q'.
      assert (NZ := reads_back_nonzero _ _ _ Z0 HF R). assert (NZ' := reads_back_nonzero _ _ _ Z0 HF R').
      assert (VS : text_value i f = digits_value sig * 10 ^ Z.of_nat z).
      { unfold text_value. rewrite EI. assert (X := value_padded (Z.of_nat a) sig (Z.of_nat z) (Nat2Z.is_nonneg _)). unfold zeros in X. now rewrite !Nat2Z.id in X. }
      assert (VS' : text_value i' f' = digits_value sig' * 10 ^ Z.of_nat z').
      { unfold text_value. rewrite EI'. assert (X := value_padded (Z.of_nat a') sig' (Z.of_nat z') (Nat2Z.is_nonneg _)). unfold zeros in X. now rewrite !Nat2Z.id in X. }
      assert (A : all_digits sig) by (assert (X : all_digits (i ++ f)) by (apply all_digits_app; apply D); rewrite EI in X; apply Forall_app in X; destruct X as [_ X]; now apply Forall_app in X).
      assert (A' : all_digits sig') by (assert (X : all_digits (i' ++ f')) by (apply all_digits_app; apply D'); rewrite EI' in X; apply Forall_app in X; destruct X as [_ X]; now apply Forall_app in X).
      assert (B := digits_value_bound sig A). assert (B' := digits_value_bound sig' A').
      assert (P : 0 < digits_value sig) by (rewrite VS in NZ; clear - NZ B; nia). assert (P' : 0 < digits_value sig') by (rewrite VS' in NZ'; clear - NZ' B'; nia).
      assert (RS : reads_back (digits_value sig) (q - Z.of_nat z) bits).
      { eapply reads_back_same; [|exact R]. rewrite VS. apply padded_decimal. }
      assert (RS' : reads_back (digits_value sig') (q' - Z.of_nat z') bits).
      { eapply reads_back_same; [|exact R']. rewrite VS'. apply padded_decimal. }
      assert (L1 : digits_value sig < 10 ^ Z.of_nat (length sig')).
      { destruct (Z_lt_ge_dec (digits_value sig') (10 ^ (Z.of_nat (length sig) - 1))) as [G|G]; [destruct (S _ _ (conj P' G) RS')|].
        assert (X : Z.of_nat (length sig) - 1 < Z.of_nat (length sig')) by (clear - G B'; apply (Z.pow_lt_mono_r_iff 10); lia).
        eapply Z.lt_le_trans; [apply B|]. clear - X. apply Z.pow_le_mono_r; lia. }
      assert (L2 : digits_value sig' < 10 ^ Z.of_nat (length sig)).
      { destruct (Z_lt_ge_dec (digits_value sig) (10 ^ (Z.of_nat (length sig') - 1))) as [G|G]; [destruct (S' _ _ (conj P G) RS)|].
        assert (X : Z.of_nat (length sig') - 1 < Z.of_nat (length sig)) by (clear - G B; apply (Z.pow_lt_mono_r_iff 10); lia).
        eapply Z.lt_le_trans; [apply B'|]. clear - X. apply Z.pow_le_mono_r; lia. }
      specialize (N _ _ (conj P' L2) RS'). specialize (N' _ _ (conj P L1) RS).
      assert (E : same_decimal (text_value i f) q (digits_value sig) (q - Z.of_nat z)).
      { rewrite VS. apply padded_decimal. }
      assert (E' : same_decimal (text_value i' f') q' (digits_value sig') (q' - Z.of_nat z')).
      { rewrite VS'. apply padded_decimal. }
      assert (X := nearest_same _ _ _ _ _ _ _ (same_decimal_sym _ _ _ _ E) N). assert (X' := nearest_same _ _ _ _ _ _ _ (same_decimal_sym _ _ _ _ E') N').
      eapply same_decimal_trans; [exact E|]. eapply same_decimal_trans; [apply (nearest_both _ _ _ _ bits X X')|]. now apply same_decimal_sym. }
  assert (x = x') by (eapply first_exponent_unique; eauto). subst x'.
  set (sci := if (-4 <=? x) && (x <? 16) then None else Some x) in *. unfold text_scale in SD.
  assert (L : length f = length f').
  { apply Nat.le_antisymm.
    - apply (no_longer i' f' i f _ ltac:(apply D) ltac:(apply D) T (same_decimal_sym _ _ _ _ SD)).
    - apply (no_longer i f i' f' _ ltac:(apply D') ltac:(apply D') T' SD). }
  rewrite L in SD. apply same_scale in SD.
  destruct (parts_same i f i' f') as [-> ->]; try apply D; try apply D'; try lia. eapply decimal_text_unique; eauto.
Qed.

Lemma special_text_unique up bits t t' : special_text up bits t -> special_text up bits t' -> t = t'.
Proof. unfold special_text, is_infinity, is_nan. intros [(A & ->)|(A & ->)] [(B & ->)|(B & ->)]; try reflexivity; exfalso; tauto. Qed.
