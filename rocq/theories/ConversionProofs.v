(** Proofs about the conversion routines. *)
From Verif Require Import Base Lib Conversion SpecNum.

(** The canonical numeral as a function. *)
Fixpoint num (fuel : nat) (base : Z) (up : bool) (n : Z) : list Z :=
  match fuel with
  | O => []
  | S fuel => if n <? base then [digit_to_char n up]
              else num fuel base up (n / base) ++ [digit_to_char (n mod base) up]
  end.

Definition numeral (base : Z) (up : bool) (n : Z) : list Z :=
  num (S (Z.to_nat (Z.log2 n))) base up n.

Lemma div_lt_pow base n k : 2 <= base -> 0 <= k -> 0 <= n < 2 ^ (k + 1) -> n / base < 2 ^ k.
Proof.
  intros Hb Hk Hn. apply Z.div_lt_upper_bound; [lia|].
  rewrite Z.pow_add_r in Hn by lia. nia.
Qed.

Lemma num_fuel base up f1 f2 n :
  2 <= base -> 0 <= n < 2 ^ Z.of_nat f1 -> n < 2 ^ Z.of_nat f2 ->
  (0 < f1)%nat -> (0 < f2)%nat -> num f1 base up n = num f2 base up n.
Proof.
  intros Hb. revert f2 n.
  induction f1 as [|f1 IH]; intros f2 n Hn Hn2 H1 H2; [lia|].
  destruct f2 as [|f2]; [lia|]. simpl.
  destruct (n <? base) eqn:E; [reflexivity|]. f_equal.
  assert (Hd : 0 < n / base) by (apply Z.div_str_pos; lia).
  rewrite Nat2Z.inj_succ in Hn, Hn2.
  assert (n / base < 2 ^ Z.of_nat f1) by (apply div_lt_pow; lia).
  assert (n / base < 2 ^ Z.of_nat f2) by (apply div_lt_pow; lia).
  apply IH; try lia.
  - destruct f1; [simpl in *; lia|lia].
  - destruct f2; [simpl in *; lia|lia].
Qed.

Lemma log2_fuel n : 0 <= n -> n < 2 ^ Z.of_nat (S (Z.to_nat (Z.log2 n))).
Proof.
  intros H. rewrite Nat2Z.inj_succ, Z2Nat.id by apply Z.log2_nonneg.
  destruct (Z.eq_dec n 0) as [->|]; [reflexivity|]. apply Z.log2_spec. lia.
Qed.

Lemma num_numeral base up f n :
  2 <= base -> 0 <= n < 2 ^ Z.of_nat f -> (0 < f)%nat -> num f base up n = numeral base up n.
Proof.
  intros Hb Hn Hf. apply num_fuel; try lia. apply log2_fuel. lia.
Qed.

Lemma numeral_small base up n : 0 <= n < base -> numeral base up n = [digit_to_char n up].
Proof.
  intros H. unfold numeral. simpl. replace (n <? base) with true by lia. reflexivity.
Qed.

Lemma numeral_step base up n :
  2 <= base -> base <= n ->
  numeral base up n = numeral base up (n / base) ++ [digit_to_char (n mod base) up].
Proof.
  intros Hb Hn. unfold numeral at 1. cbn [num]. replace (n <? base) with false by lia. f_equal.
  assert (Hd : 0 < n / base) by (apply Z.div_str_pos; lia).
  assert (Hl : 1 <= Z.log2 n) by (apply Z.log2_le_pow2; lia).
  apply num_numeral; [lia| |lia].
  rewrite Z2Nat.id by lia. split; [lia|].
  apply div_lt_pow; try lia.
  replace (Z.log2 n + 1) with (Z.succ (Z.log2 n)) by lia. split; [lia|]. apply Z.log2_spec. lia.
Qed.

Lemma numeral_ind (base : Z) (P : Z -> Prop) :
  2 <= base -> (forall n, 0 <= n < base -> P n) ->
  (forall n, base <= n -> P (n / base) -> P n) -> forall n, 0 <= n -> P n.
Proof.
  intros Hb H0 HS n Hn. generalize Hn. revert n Hn.
  apply (Z_lt_induction (fun n => 0 <= n -> P n)). intros x IH Hx. destruct (Z_lt_ge_dec x base); [apply H0; lia|].
  apply HS; [lia|]. apply IH; [|apply Z.div_pos; lia].
  split; [apply Z.div_pos; lia|]. apply Z.div_lt; lia.
Qed.

(** Digits. *)
Lemma digit_value_to_char d up base : 0 <= d < base -> base <= 36 ->
  digit_value (digit_to_char d up) = Some d /\
  is_digit base (digit_to_char d up) = true /\ right_case up (digit_to_char d up) = true /\
  (digit_to_char d up = 48 <-> d = 0) /\ is_byte (digit_to_char d up).
Proof.
  intros Hd Hb. unfold is_digit, digit_value, digit_to_char, right_case, is_byte.
  destruct up; destruct (10 <=? d) eqn:E;
    repeat match goal with |- context [if ?b then _ else _] => destruct b eqn:? end;
    repeat split; try lia; try (f_equal; lia).
Qed.

Lemma denotes_snoc base t c :
  denotes base (t ++ [c]) = denotes base t * base + match digit_value c with Some v => v | None => 0 end.
Proof. unfold denotes. now rewrite fold_left_app. Qed.

Lemma numeral_canonical base up n :
  2 <= base <= 36 -> 0 <= n -> canonical_numeral base up n (numeral base up n).
Proof.
  intros Hb Hn. revert n Hn. apply (numeral_ind base); [lia| |].
  - intros n Hn. rewrite numeral_small by lia.
    destruct (digit_value_to_char n up base) as (H1 & H2 & H3 & H4 & H5); [lia|lia|].
    repeat split.
    + repeat constructor; auto.
    + unfold denotes. simpl. rewrite H1. lia.
    + destruct (Z.eq_dec n 0); [left; f_equal; lia|right].
      eexists _, _. split; [reflexivity|]. lia.
  - intros n Hn (F & D & L).
    destruct (digit_value_to_char (n mod base) up base) as (H1 & H2 & H3 & H4 & H5);
      [apply Z.mod_pos_bound; lia|lia|].
    rewrite numeral_step by lia. repeat split.
    + apply Forall_app. split; [exact F|]. repeat constructor; auto.
    + rewrite denotes_snoc, D, H1. rewrite (Z_div_mod_eq_full n base) at 3. lia.
    + right. destruct L as [L|(c & r & L & Hc)].
      * exfalso. rewrite L in D. unfold denotes in D. simpl in D.
        assert (0 < n / base) by (apply Z.div_str_pos; lia). lia.
      * rewrite L. simpl. eauto.
Qed.

Lemma numeral_nonempty base up n : 2 <= base <= 36 -> 0 <= n -> (0 < length (numeral base up n))%nat.
Proof.
  intros Hb Hn. destruct (numeral_canonical base up n Hb Hn) as (_ & _ & [->|(c & r & -> & _)]); simpl; lia.
Qed.

Lemma numeral_bytes base up n : 2 <= base <= 36 -> 0 <= n -> Forall is_byte (numeral base up n).
Proof.
  intros Hb Hn. revert n Hn. apply (numeral_ind base); [lia| |].
  - intros n Hn. rewrite numeral_small by lia. repeat constructor.
    + apply (digit_value_to_char n up base); lia.
    + apply (digit_value_to_char n up base); lia.
  - intros n Hn IH. rewrite numeral_step by lia. apply Forall_app. split; [exact IH|].
    constructor; [|constructor]. apply (digit_value_to_char _ up base); [apply Z.mod_pos_bound|]; lia.
Qed.

(** Number of digits. *)
Lemma numeral_length_bounds base up n (k : nat) :
  2 <= base -> 0 <= n -> (0 < k)%nat ->
  (length (numeral base up n) = k <-> (base ^ Z.of_nat (k - 1) <= n \/ k = 1%nat) /\ n < base ^ Z.of_nat k).
Proof.
  intros Hb Hn. revert k. revert n Hn.
  apply (numeral_ind base (fun n => forall k : nat, (0 < k)%nat ->
    (length (numeral base up n) = k <-> (base ^ Z.of_nat (k - 1) <= n \/ k = 1%nat) /\ n < base ^ Z.of_nat k)));
    [lia| |].
  - intros n Hn k Hk. rewrite numeral_small by lia. simpl. split.
    + intros <-. change (Z.of_nat 1) with 1. rewrite Z.pow_1_r. lia.
    + intros [[H|H] H2]; [|lia]. destruct k as [|[|k]]; try lia.
      exfalso. replace (Z.of_nat (S (S k) - 1)) with (Z.of_nat k + 1) in H by lia.
      rewrite Z.pow_add_r, Z.pow_1_r in H by lia.
      assert (0 < base ^ Z.of_nat k) by (apply Z.pow_pos_nonneg; lia). nia.
  - intros n Hn IH k Hk. rewrite numeral_step by lia. rewrite app_length. simpl.
    destruct k as [|[|k]]; [lia| |].
    + split; [|change (Z.of_nat 1) with 1; rewrite Z.pow_1_r; lia]. intros H.
      assert (H0 : length (numeral base up (n / base)) = O) by lia.
      exfalso. unfold numeral in H0. simpl in H0.
      destruct (n / base <? base); [discriminate|]. rewrite app_length in H0. simpl in H0. lia.
    + specialize (IH (S k) ltac:(lia)).
      assert (E : base ^ Z.of_nat (S (S k)) = base * base ^ Z.of_nat (S k)).
      { rewrite (Nat2Z.inj_succ (S k)), Z.pow_succ_r by lia. lia. }
      assert (E2 : base ^ Z.of_nat (S (S k) - 1) = base * base ^ Z.of_nat k).
      { replace (Z.of_nat (S (S k) - 1)) with (Z.succ (Z.of_nat k)) by lia. apply Z.pow_succ_r. lia. }
      rewrite E, E2. replace (S k - 1)%nat with k in IH by lia.
      assert (Hq := Z_div_mod_eq_full n base). assert (Hm := Z.mod_pos_bound n base ltac:(lia)).
      assert (P : 0 < base ^ Z.of_nat k) by (apply Z.pow_pos_nonneg; lia).
      split.
      * intros H. destruct IH as [IH _]. specialize (IH ltac:(lia)).
        destruct IH as [[IH|IH] IH2].
        -- split; [left; nia|nia].
        -- assert (k = O) by lia. subst k. change (Z.of_nat 0) with 0 in *. change (Z.of_nat 1) with 1 in *.
           rewrite Z.pow_0_r, Z.pow_1_r in *.
           split; [left; lia|nia].
      * intros [[H|H] H2]; [|lia]. destruct IH as [_ IH].
        rewrite Nat.add_1_r. f_equal. apply IH. split; [left; nia|nia].
Qed.

Lemma count_loop_numeral up fuel base n cnt :
  2 <= base -> 0 <= n < 2 ^ Z.of_nat fuel -> (0 < fuel)%nat ->
  count_digits_loop fuel base (n / base) cnt = Some (cnt + length (numeral base up n) - 1)%nat.
Proof.
  intros Hb. revert n cnt. induction fuel as [|fuel IH]; intros n cnt Hn Hf; [lia|].
  simpl. destruct (n / base =? 0) eqn:E.
  - assert (n < base) by (apply Z.eqb_eq in E; pose proof (Z_div_mod_eq_full n base); pose proof (Z.mod_pos_bound n base); nia).
    rewrite numeral_small by lia. simpl. f_equal. lia.
  - assert (base <= n). { destruct (Z_lt_ge_dec n base); [|lia]. rewrite Z.div_small in E by lia. discriminate. }
    assert (Hd : 0 < n / base) by (apply Z.div_str_pos; lia).
    assert (Hl : n / base < 2 ^ Z.of_nat fuel) by (apply div_lt_pow; lia).
    rewrite IH; [|lia|destruct fuel; simpl in *; lia].
    rewrite (numeral_step base up n) by lia. rewrite app_length. simpl.
    unfold numeral at 1 2. cbn [num]. f_equal.
    destruct (n / base <? base); rewrite ?app_length; simpl; lia.
Qed.

Lemma count_10_numeral up fuel n cnt :
  0 <= n < 2 ^ Z.of_nat fuel -> (0 < fuel)%nat ->
  count_digits_10 fuel n cnt = Some (cnt + length (numeral 10 up n) - 1)%nat.
Proof.
  revert n cnt. induction fuel as [|fuel IH]; intros n cnt Hn Hf; [lia|].
  assert (L : forall k : nat, (0 < k)%nat -> (10 ^ Z.of_nat (k - 1) <= n \/ k = 1%nat) -> n < 10 ^ Z.of_nat k ->
              length (numeral 10 up n) = k).
  { intros k Hk H1 H2. apply numeral_length_bounds; auto; lia. }
  simpl count_digits_10.
  destruct (n <? 10) eqn:E1; [rewrite (L 1%nat); simpl; try lia; f_equal; lia|].
  destruct (n <? 100) eqn:E2; [rewrite (L 2%nat); simpl; try lia; f_equal; lia|].
  destruct (n <? 1000) eqn:E3; [rewrite (L 3%nat); simpl; try lia; f_equal; lia|].
  destruct (n <? 10000) eqn:E4; [rewrite (L 4%nat); simpl; try lia; f_equal; lia|].
  assert (D : n / 10000 = n / 10 / 10 / 10 / 10) by (rewrite !Z.div_div; try lia; reflexivity).
  assert (0 < n / 10000) by (apply Z.div_str_pos; lia).
  assert (n / 10000 < 2 ^ Z.of_nat fuel).
  { apply div_lt_pow; lia. }
  rewrite IH; [|lia|destruct fuel; simpl in *; lia].
  rewrite D. f_equal.
  assert (B : forall m, 10 <= m -> length (numeral 10 up m) = (length (numeral 10 up (m / 10)) + 1)%nat).
  { intros m Hm. rewrite numeral_step by lia. now rewrite app_length. }
  rewrite (B n), (B (n/10)), (B (n/10/10)), (B (n/10/10/10)) by lia. lia.
Qed.

Lemma count_pow2 up n k :
  0 < n -> 0 < k ->
  length (numeral (2 ^ k) up n) = Z.to_nat ((bit_width n + (k - 1)) / k).
Proof.
  intros Hn Hk. unfold bit_width. replace (n =? 0) with false by lia.
  set (d := (Z.log2 n + 1 + (k - 1)) / k).
  assert (Hl := Z.log2_nonneg n).
  assert (Hd : 1 <= d) by (unfold d; apply Z.div_le_lower_bound; lia).
  assert (Hb : 2 <= 2 ^ k) by (change 2 with (2 ^ 1) at 1; apply Z.pow_le_mono_r; lia).
  apply numeral_length_bounds; try lia.
  assert (E := Z_div_mod_eq_full (Z.log2 n + 1 + (k - 1)) k). fold d in E.
  assert (M := Z.mod_pos_bound (Z.log2 n + 1 + (k - 1)) k Hk).
  destruct (Z.log2_spec n Hn) as [S1 S2].
  rewrite Z2Nat.id by lia. rewrite <- !Z.pow_mul_r by lia. split.
  - left. replace (Z.of_nat (Z.to_nat d - 1)) with (d - 1) by lia.
    apply Z.le_trans with (2 ^ Z.log2 n); [|lia]. apply Z.pow_le_mono_r; nia.
  - apply Z.lt_le_trans with (2 ^ Z.succ (Z.log2 n)); [lia|]. apply Z.pow_le_mono_r; nia.
Qed.

Lemma get_number_of_digits_ok up n base :
  2 <= base <= 36 -> 0 <= n < 2 ^ 64 ->
  get_number_of_digits n base = Some (length (numeral base up n)).
Proof.
  intros Hb Hn. unfold get_number_of_digits, count_digits.
  destruct (n =? 0) eqn:E0.
  { apply Z.eqb_eq in E0. subst. rewrite numeral_small by lia. reflexivity. }
  assert (Hf : 0 <= n < 2 ^ Z.of_nat digit_fuel).
  { split; [lia|]. eapply Z.lt_le_trans; [apply Hn|]. apply Z.pow_le_mono_r; unfold digit_fuel; lia. }
  destruct (base =? 10) eqn:E10.
  { replace base with 10 by lia. zlit.
    rewrite (count_10_numeral up); [|lia|unfold digit_fuel; lia]. f_equal. lia. }
  destruct (base =? 16) eqn:E16.
  { replace base with 16 by lia. zlit. change 16 with (2 ^ 4) at 1.
    rewrite count_pow2 by lia. do 3 f_equal; lia. }
  destruct (base =? 2) eqn:E2.
  { replace base with 2 by lia. zlit. change 2 with (2 ^ 1) at 1.
    rewrite count_pow2 by lia. do 2 f_equal. rewrite Z.div_1_r. lia. }
  destruct (base =? 8) eqn:E8.
  { replace base with 8 by lia. zlit. change 8 with (2 ^ 3) at 1.
    rewrite count_pow2 by lia. do 3 f_equal; lia. }
  rewrite (count_loop_numeral up); [|lia|lia|unfold digit_fuel; lia]. f_equal. lia.
Qed.

Lemma numeral_length_le base up n : 2 <= base <= 36 -> 0 <= n < 2 ^ 64 -> (length (numeral base up n) <= 64)%nat.
Proof.
  intros Hb Hn.
  destruct (le_lt_dec (length (numeral base up n)) 64) as [|G]; [assumption|exfalso].
  assert (P := proj1 (numeral_length_bounds base up n (length (numeral base up n)) ltac:(lia) ltac:(lia) ltac:(lia)) eq_refl).
  destruct P as [[P|P] _]; [|lia].
  assert (2 ^ 64 <= base ^ Z.of_nat (length (numeral base up n) - 1)); [|lia].
  etransitivity; [|apply Z.pow_le_mono_l; split; [|apply Hb]; lia].
  apply Z.pow_le_mono_r; lia.
Qed.

(** Writing digits from right to left. *)
Lemma back_ok next k : (k <= next)%nat -> back next k = Some (next - k)%nat.
Proof. intros H. unfold back. replace (k <=? next)%nat with true by lia. reflexivity. Qed.

Lemma digits2_ok v : 0 <= v < 100 ->
  digits2 v = [digit_to_char (v / 10) false; digit_to_char (v mod 10) false] /\
  digits2 v = [digit_to_char (v / 10) true; digit_to_char (v mod 10) true].
Proof.
  intros H.
  assert (S : (if list_eq_dec Z.eq_dec (digits2 v) [digit_to_char (v / 10) false; digit_to_char (v mod 10) false] then true else false) &&
              (if list_eq_dec Z.eq_dec (digits2 v) [digit_to_char (v / 10) true; digit_to_char (v mod 10) true] then true else false) = true).
  { revert v H. apply (sweep 100). vm_compute. reflexivity. }
  apply andb_prop in S. destruct S as [S1 S2].
  destruct (list_eq_dec _ _ _) in S1; [|discriminate].
  destruct (list_eq_dec _ _ _) in S2; [|discriminate]. auto.
Qed.

Lemma digits2_ok' v up : 0 <= v < 100 ->
  digits2 v = [digit_to_char (v / 10) up; digit_to_char (v mod 10) up].
Proof. intros H. destruct (digits2_ok v H). now destruct up. Qed.

Lemma write_decimal_ok up fuel n cells next :
  0 <= n < 2 ^ Z.of_nat fuel -> (0 < fuel)%nat ->
  (length (numeral 10 up n) <= next <= length cells)%nat ->
  write_decimal fuel n cells next =
  Some (splice cells (next - length (numeral 10 up n)) (numeral 10 up n),
        (next - length (numeral 10 up n))%nat).
Proof.
  revert n cells next. induction fuel as [|fuel IH]; intros n cells next Hn Hf Hl; [lia|].
  simpl write_decimal.
  destruct (100 <=? n) eqn:E1.
  - assert (N : numeral 10 up n = numeral 10 up (n / 100) ++ digits2 (n mod 100)).
    { rewrite (numeral_step 10 up n), (numeral_step 10 up (n / 10)), Z.div_div by lia.
      change (10 * 10) with 100. rewrite <- app_assoc. f_equal.
      rewrite (digits2_ok' _ up) by lia. simpl. f_equal; [|f_equal]; f_equal; lia. }
    assert (L2 : length (digits2 (n mod 100)) = 2%nat) by (rewrite (digits2_ok' _ up) by lia; reflexivity).
    rewrite N in *. rewrite app_length, L2 in *.
    rewrite back_ok by lia. simpl obind. rewrite store_list_ok by lia. simpl obind.
    assert (n / 100 < 2 ^ Z.of_nat fuel).
    { apply div_lt_pow; lia. }
    assert (0 < n / 100) by (apply Z.div_str_pos; lia).
    rewrite IH; [|lia|destruct fuel; simpl in *; lia|rewrite splice_length; lia].
    f_equal. f_equal; [|lia].
    rewrite splice_cons by lia. f_equal. lia.
  - destruct (n <? 10) eqn:E2.
    + rewrite numeral_small in * by lia. simpl length in *.
      rewrite back_ok by lia. simpl obind. rewrite store_ok by lia. simpl obind.
      repeat f_equal. unfold digit_to_char. replace (10 <=? n) with false by lia. reflexivity.
    + assert (N : numeral 10 up n = digits2 n).
      { rewrite numeral_step, numeral_small by lia. rewrite (digits2_ok' _ up) by lia. reflexivity. }
      rewrite N in *.
      assert (L2 : length (digits2 n) = 2%nat) by (rewrite (digits2_ok' _ up) by lia; reflexivity).
      rewrite L2 in *.
      rewrite back_ok by lia. simpl obind. rewrite store_list_ok by lia. simpl obind. reflexivity.
Qed.

Lemma write_uint_digit k d up : (k = 1 \/ k = 3 \/ k = 4) -> 0 <= d < 2 ^ k ->
  (if k <? 4 then ch_0 + d else nth (Z.to_nat d) (hex_digits up) 0) = digit_to_char d up.
Proof.
  intros [ -> | [ -> | -> ]] Hd;
    [change (1 <? 4) with true|change (3 <? 4) with true|change (4 <? 4) with false]; cbv iota.
  - unfold digit_to_char. replace (10 <=? d) with false by lia. reflexivity.
  - unfold digit_to_char. replace (10 <=? d) with false by lia. reflexivity.
  - apply Z.eqb_eq.
    revert d Hd. change (2 ^ 4) with (Z.of_nat 16). apply sweep.
    destruct up; vm_compute; reflexivity.
Qed.

Lemma write_uint_ok k up fuel n cells next :
  (k = 1 \/ k = 3 \/ k = 4) ->
  0 <= n < 2 ^ Z.of_nat fuel -> (0 < fuel)%nat ->
  (length (numeral (2 ^ k) up n) <= next <= length cells)%nat ->
  write_uint fuel k n up cells next =
  Some (splice cells (next - length (numeral (2 ^ k) up n)) (numeral (2 ^ k) up n),
        (next - length (numeral (2 ^ k) up n))%nat).
Proof.
  intros Hk. assert (Hb : 2 <= 2 ^ k) by (destruct Hk as [ -> | [ -> | -> ]]; simpl; lia).
  revert n cells next. induction fuel as [|fuel IH]; intros n cells next Hn Hf Hl; [lia|].
  simpl write_uint.
  assert (HD : Z.land n (Z.shiftl 1 k - 1) = n mod 2 ^ k).
  { rewrite Z.shiftl_1_l, Z.sub_1_r, <- Z.ones_equiv, Z.land_ones by lia. reflexivity. }
  rewrite HD, write_uint_digit by (auto; apply Z.mod_pos_bound; lia).
  rewrite Z.shiftr_div_pow2 by lia.
  assert (LP : (0 < next)%nat).
  { assert (0 < length (numeral (2 ^ k) up n))%nat; [|lia].
    apply numeral_nonempty; [|lia]. destruct Hk as [ -> | [ -> | -> ]]; simpl; lia. }
  rewrite back_ok by lia. simpl obind. rewrite store_ok by lia. simpl obind.
  destruct (Z_lt_ge_dec n (2 ^ k)) as [Hs|Hg].
  - rewrite Z.div_small, Z.eqb_refl by lia. rewrite Z.mod_small by lia.
    rewrite numeral_small by lia. reflexivity.
  - assert (0 < n / 2 ^ k) by (apply Z.div_str_pos; lia).
    replace (n / 2 ^ k =? 0) with false by lia.
    assert (n / 2 ^ k < 2 ^ Z.of_nat fuel).
    { apply div_lt_pow; lia. }
    rewrite (numeral_step (2 ^ k) up n) in * by lia. rewrite app_length in *. simpl length in *.
    rewrite IH; [|lia|destruct fuel; simpl in *; lia|rewrite splice_length; simpl; lia].
    f_equal. f_equal; [|lia].
    rewrite splice_cons by (simpl; lia). f_equal. lia.
Qed.

Lemma write_number_loop_ok base up fuel n cells next :
  2 <= base <= 36 ->
  0 < n < 2 ^ Z.of_nat fuel -> (1 < fuel)%nat ->
  (length (numeral base up n) <= next <= length cells)%nat ->
  write_number_loop (S fuel) n base up cells next =
  Some (splice cells (next - length (numeral base up n)) (numeral base up n),
        (next - length (numeral base up n))%nat).
Proof.
  intros Hb Hn Hf Hl. assert (Hf' : (0 < fuel)%nat) by lia. clear Hf.
  revert n cells next Hn Hf' Hl. induction fuel as [|fuel IH]; intros n cells next Hn Hf Hl; [lia|].
  assert (LP : (0 < length (numeral base up n))%nat) by (apply numeral_nonempty; lia).
  cbn [write_number_loop]. replace (n =? 0) with false by lia.
  rewrite back_ok by lia. simpl obind. rewrite store_ok by lia. simpl obind.
  destruct (Z_lt_ge_dec n base) as [Hs|Hg].
  - rewrite Z.div_small, Z.mod_small by lia. zlit.
    rewrite numeral_small by lia. reflexivity.
  - assert (0 < n / base) by (apply Z.div_str_pos; lia).
    assert (n / base < 2 ^ Z.of_nat fuel).
    { apply div_lt_pow; lia. }
    rewrite (numeral_step base up n) in * by lia. rewrite app_length in *. simpl length in *.
    change (if n / base =? 0 then Some (splice cells (next - 1) [digit_to_char (n mod base) up], (next - 1)%nat)
            else odo next0 <- back (next - 1) 1 ;; _)
      with (write_number_loop (S fuel) (n / base) base up (splice cells (next - 1) [digit_to_char (n mod base) up]) (next - 1)).
    rewrite IH; [|lia|destruct fuel; simpl in *; lia|rewrite splice_length; simpl; lia].
    f_equal. f_equal; [|lia].
    rewrite splice_cons by (simpl; lia). f_equal. lia.
Qed.

Lemma numeral_case base up n : 2 <= base <= 10 -> 0 <= n -> numeral base up n = numeral base false n.
Proof.
  intros Hb Hn. revert n Hn.
  assert (D : forall d, 0 <= d < base -> digit_to_char d up = digit_to_char d false).
  { intros d Hd. unfold digit_to_char. replace (10 <=? d) with false by lia. reflexivity. }
  apply (numeral_ind base); [lia| |].
  - intros n Hn. rewrite !numeral_small by lia. now rewrite D.
  - intros n Hn IH. rewrite (numeral_step base up n), (numeral_step base false n) by lia. rewrite IH, D; [reflexivity|].
    apply Z.mod_pos_bound; lia.
Qed.

Lemma write_number_ok n base up cells next :
  2 <= base <= 36 -> 0 <= n < 2 ^ 64 ->
  (length (numeral base up n) <= next <= length cells)%nat ->
  write_number n base up cells next =
  Some (splice cells (next - length (numeral base up n)) (numeral base up n),
        (next - length (numeral base up n))%nat).
Proof.
  intros Hb Hn Hl.
  assert (Hf : 0 <= n < 2 ^ Z.of_nat digit_fuel).
  { split; [lia|]. eapply Z.lt_le_trans; [apply Hn|]. apply Z.pow_le_mono_r; unfold digit_fuel; lia. }
  unfold write_number.
  destruct (base =? 10) eqn:E10.
  { replace base with 10 in * by lia. apply write_decimal_ok; auto. unfold digit_fuel; lia. }
  destruct (base =? 16) eqn:E16.
  { replace base with 16 in * by lia. apply (write_uint_ok 4); auto. unfold digit_fuel; lia. }
  destruct (base =? 2) eqn:E2.
  { replace base with 2 in * by lia. rewrite (numeral_case 2 up) in * by lia.
    apply (write_uint_ok 1); auto. unfold digit_fuel; lia. }
  destruct (base =? 8) eqn:E8.
  { replace base with 8 in * by lia. rewrite (numeral_case 8 up) in * by lia.
    apply (write_uint_ok 3); auto. unfold digit_fuel; lia. }
  destruct (n =? 0) eqn:E0.
  - replace n with 0 in * by lia. rewrite numeral_small in * by lia. simpl length in *.
    rewrite back_ok by lia. simpl obind. rewrite store_ok by lia. reflexivity.
  - change digit_fuel with (S 64). apply write_number_loop_ok; auto; [|lia].
    change (Z.of_nat 64) with 64. lia.
Qed.
