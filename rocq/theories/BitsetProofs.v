From Verif Require Import Base Lib Bitset CtVector CtVectorProofs.

Lemma Forall_firstn {A} (P : A -> Prop) n l : Forall P l -> Forall P (firstn n l).
Proof. intros H. rewrite <- (firstn_skipn n l) in H. now apply Forall_app in H. Qed.
Lemma Forall_skipn {A} (P : A -> Prop) n l : Forall P l -> Forall P (skipn n l).
Proof. intros H. rewrite <- (firstn_skipn n l) in H. now apply Forall_app in H. Qed.

(** Bit [i] of the set. *)
Definition bit (words : list Z) (i : nat) : bool :=
  Z.testbit (nth (i / bits_per_word) words 0) (Z.of_nat (i mod bits_per_word)).

Definition words_ok (words : list Z) : Prop := Forall (fun w => 0 <= w < 2 ^ 64) words.

Lemma low_bits_set_iff n w : low_bits_set n w = true <-> forall i, (i < n)%nat -> Z.testbit w (Z.of_nat i) = true.
Proof.
  revert w. induction n as [|n IH]; intros w; cbn [low_bits_set]; [split; [lia|reflexivity]|].
  assert (B0 : (Z.land w 1 =? 1) = Z.testbit w 0).
  { change (Z.land w 1) with (Z.land w (Z.ones 1)). rewrite Z.land_ones by lia. now rewrite Z.bit0_eqb. }
  rewrite B0. destruct (Z.testbit w 0) eqn:E0.
  - rewrite IH. split; intros H i Hi.
    + destruct i as [|i]; [exact E0|]. specialize (H i ltac:(lia)). rewrite Z.shiftr_spec in H by lia.
      now replace (Z.of_nat (S i)) with (Z.of_nat i + 1) by lia.
    + rewrite Z.shiftr_spec by lia. replace (Z.of_nat i + 1) with (Z.of_nat (S i)) by lia. apply H. lia.
  - split; [discriminate|]. intros H. specialize (H O ltac:(lia)). change (Z.of_nat 0) with 0 in H. congruence.
Qed.

Lemma word_max_iff w : 0 <= w < 2 ^ 64 -> (w =? word_max) = true <-> forall i, (i < 64)%nat -> Z.testbit w (Z.of_nat i) = true.
Proof.
  intros Hw. rewrite Z.eqb_eq. change word_max with (Z.ones 64). split.
  - intros ->  i Hi. apply Z.ones_spec_low. lia.
  - intros H. apply Z.bits_inj'. intros k Hk. destruct (Z.lt_ge_cases k 64) as [L|L].
    + rewrite Z.ones_spec_low by lia. specialize (H (Z.to_nat k) ltac:(lia)). now rewrite Z2Nat.id in H by lia.
    + rewrite Z.ones_spec_high by lia. destruct (Z.eq_dec w 0) as [-> |N]; [apply Z.bits_0|].
      apply Z.bits_above_log2; [lia|]. enough (Z.log2 w < 64) by lia. apply Z.log2_lt_pow2; lia.
Qed.

Lemma all_first_loop_ok words n : words_ok words -> (n <= bits_per_word * length words)%nat -> words <> [] ->
  exists r, all_first_loop words n = Ok r /\ (r = true <-> forall i, (i < n)%nat -> bit words i = true).
Proof.
  revert n. induction words as [|w ws IH]; intros n HF HL HN; [congruence|]. inversion HF; subst. cbn [all_first_loop].
  destruct (bits_per_word <? n)%nat eqn:E.
  - destruct (w =? word_max) eqn:EW.
    + destruct (IH (n - bits_per_word)%nat) as (r & ER & HR); auto.
      { cbn [length] in HL. lia. }
      { intros ->. cbn [length] in HL. unfold bits_per_word in *. lia. }
      exists r. split; [exact ER|]. rewrite HR. assert (EW' := proj1 (word_max_iff w H1) EW). unfold bit. split; intros H i Hi.
      * destruct (le_lt_dec bits_per_word i).
        -- specialize (H (i - bits_per_word)%nat ltac:(lia)).
           replace (i / bits_per_word)%nat with (S ((i - bits_per_word) / bits_per_word)).
           ++ cbn [nth]. rewrite <- H. f_equal. f_equal. unfold bits_per_word in *.
              replace i with ((i - 64) + 1 * 64)%nat at 1 by lia. apply Nat.mod_add. lia.
           ++ unfold bits_per_word in *. replace i with ((i - 64) + 1 * 64)%nat at 2 by lia. rewrite Nat.div_add by lia. lia.
        -- rewrite Nat.div_small, Nat.mod_small by assumption. cbn [nth]. apply EW'. exact l.
      * specialize (H (i + bits_per_word)%nat ltac:(lia)). unfold bits_per_word in *.
        replace (i + 64)%nat with (i + 1 * 64)%nat in H by lia. rewrite Nat.div_add, Nat.mod_add in H by lia.
        replace (i / 64 + 1)%nat with (S (i / 64)) in H by lia. exact H.
    + exists false. split; [reflexivity|]. split; [discriminate|]. intros H. rewrite <- EW. apply (proj2 (word_max_iff w H1)).
      intros i Hi. specialize (H i ltac:(unfold bits_per_word in *; lia)). unfold bit in H.
      rewrite Nat.div_small, Nat.mod_small in H by (unfold bits_per_word; lia). exact H.
  - eexists. split; [reflexivity|]. rewrite low_bits_set_iff. split; intros H i Hi; specialize (H i Hi); unfold bit in *;
      rewrite Nat.div_small, Nat.mod_small in * by lia; exact H.
Qed.

Lemma number_of_words_spec n : (n <= bits_per_word * number_of_words n < n + bits_per_word)%nat.
Proof.
  unfold number_of_words, bits_per_word. assert (D := Nat.div_mod n 64 ltac:(lia)). assert (M := Nat.mod_upper_bound n 64 ltac:(lia)).
  destruct (n mod 64 =? 0)%nat eqn:E; lia.
Qed.

Definition bs_ok (b : bitset) : Prop :=
  length (bs_words b) = number_of_words (bs_bits b) /\ words_ok (bs_words b) /\
  forall i, bit (bs_words b) i = true -> (i < bs_bits b)%nat.

Lemma store_upd l i (c : Z) : (i < length l)%nat -> store l i c = Some (upd l i c).
Proof. intros H. unfold store, upd. now replace (i <? length l)%nat with true by lia. Qed.

Lemma nth_upd l i (c : Z) j : (i < length l)%nat -> nth j (upd l i c) 0 = if (j =? i)%nat then c else nth j l 0.
Proof.
  intros H. assert (E := nth_error_upd l i c j H). destruct (j =? i)%nat eqn:EJ.
  - now apply nth_error_nth.
  - destruct (nth_error l j) as [x|] eqn:EN.
    + rewrite (nth_error_nth _ _ _ E). symmetry. now apply nth_error_nth.
    + rewrite nth_overflow by (now apply nth_error_None). symmetry. apply nth_overflow. now apply nth_error_None.
Qed.

Lemma set_ok b pos : bs_ok b -> (pos < bs_bits b)%nat ->
  exists b', bitset_set b pos = Ok b' /\ bs_ok b' /\ bs_bits b' = bs_bits b /\
    forall i, bit (bs_words b') i = true <-> bit (bs_words b) i = true \/ i = pos.
Proof.
  intros (H1 & H2 & H3) HP. unfold bitset_set. replace (bs_bits b <=? pos)%nat with false by lia.
  assert (W := number_of_words_spec (bs_bits b)).
  assert (HI : (pos / bits_per_word < length (bs_words b))%nat).
  { rewrite H1. apply Nat.div_lt_upper_bound; [unfold bits_per_word; lia|]. lia. }
  destruct (nth_error (bs_words b) (pos / bits_per_word)) as [w|] eqn:EN; [|apply nth_error_None in EN; lia].
  rewrite store_upd by assumption. eexists. split; [reflexivity|]. cbn [bs_words bs_bits].
  assert (HW : 0 <= w < 2 ^ 64) by (unfold words_ok in H2; rewrite Forall_forall in H2; eapply H2, nth_error_In, EN).
  assert (HM : (pos mod bits_per_word < bits_per_word)%nat) by (apply Nat.mod_upper_bound; unfold bits_per_word; lia).
  set (m := (pos mod bits_per_word)%nat) in *.
  assert (SH : Z.shiftl 1 (Z.of_nat m) mod 2 ^ 64 = 2 ^ Z.of_nat m).
  { rewrite Z.shiftl_1_l. apply Z.mod_small. split; [apply Z.pow_nonneg; lia|]. apply Z.pow_lt_mono_r; unfold bits_per_word in *; lia. }
  rewrite SH.
  assert (BT : forall k, 0 <= k -> Z.testbit (Z.lor w (2 ^ Z.of_nat m)) k = Z.testbit w k || (k =? Z.of_nat m)).
  { intros k Hk. rewrite Z.lor_spec. f_equal. rewrite Z.pow2_bits_eqb by lia. apply Z.eqb_sym. }
  assert (HL : 0 <= Z.lor w (2 ^ Z.of_nat m) < 2 ^ 64).
  { split; [apply Z.lor_nonneg; split; [lia|apply Z.pow_nonneg; lia]|].
    destruct (Z.eq_dec (Z.lor w (2 ^ Z.of_nat m)) 0) as [-> |N0]; [reflexivity|].
    assert (0 <= Z.lor w (2 ^ Z.of_nat m)) by (apply Z.lor_nonneg; split; [lia|apply Z.pow_nonneg; lia]).
    apply Z.log2_lt_pow2; [lia|]. rewrite Z.log2_lor by (try lia; apply Z.pow_nonneg; lia). rewrite Z.log2_pow2 by lia.
    apply Z.max_lub_lt; [|unfold bits_per_word in *; lia]. destruct (Z.eq_dec w 0) as [-> |]; [reflexivity|]. apply Z.log2_lt_pow2; lia. }
  assert (BB : forall i, bit (upd (bs_words b) (pos / bits_per_word) (Z.lor w (2 ^ Z.of_nat m))) i = true <->
     bit (bs_words b) i = true \/ i = pos).
  { intros i. unfold bit. rewrite nth_upd by assumption. destruct (i / bits_per_word =? pos / bits_per_word)%nat eqn:ED.
    - rewrite BT by lia. assert (ED' : (i / bits_per_word = pos / bits_per_word)%nat) by lia. rewrite ED'.
      rewrite (nth_error_nth _ _ 0 EN). rewrite orb_true_iff. split; (intros [H|H]; [auto|right]).
      + assert (D1 := Nat.div_mod i bits_per_word ltac:(unfold bits_per_word; lia)).
        assert (D2 := Nat.div_mod pos bits_per_word ltac:(unfold bits_per_word; lia)). rewrite ED' in D1. unfold m in H.
        assert (i mod bits_per_word = pos mod bits_per_word)%nat by lia. congruence.
      + subst i. unfold m. lia.
    - split; [auto|]. intros [H|H]; [exact H|]. subst. lia. }
  split; [|split; [reflexivity|exact BB]]. split; [|split].
  - cbn [bs_words bs_bits]. now rewrite upd_length.
  - cbn [bs_words]. unfold words_ok, upd in *. apply Forall_app. split; [now apply Forall_firstn|]. constructor; [exact HL|now apply Forall_skipn].
  - intros i Hi. apply BB in Hi as [Hi| -> ]; auto.
Qed.

Lemma new_ok n : bs_ok (bitset_new n) /\ forall i, bit (bs_words (bitset_new n)) i = false.
Proof.
  assert (B : forall i, bit (bs_words (bitset_new n)) i = false).
  { intros i. unfold bit. cbn [bs_words bitset_new]. replace (nth (i / bits_per_word) (repeat 0 (number_of_words n)) 0) with 0; [apply Z.bits_0|].
    symmetry. destruct (nth_in_or_default (i / bits_per_word) (repeat 0 (number_of_words n)) 0) as [H|H]; [|exact H].
    now apply repeat_spec in H. }
  split; [|exact B]. split; [|split].
  - cbn. apply repeat_length.
  - cbn. unfold words_ok. apply Forall_forall. intros x Hx. apply repeat_spec in Hx. subst. lia.
  - intros i Hi. rewrite B in Hi. discriminate.
Qed.

Lemma set_all_ok ps : forall b, bs_ok b -> Forall (fun p => (p < bs_bits b)%nat) ps ->
  exists b', bitset_set_all b ps = Ok b' /\ bs_ok b' /\ bs_bits b' = bs_bits b /\
    forall i, bit (bs_words b') i = true <-> bit (bs_words b) i = true \/ In i ps.
Proof.
  induction ps as [|p ps IH]; intros b HB HF.
  - exists b. cbn. intuition.
  - inversion HF; subst. destruct (set_ok b p HB H1) as (b1 & E1 & HB1 & L1 & B1).
    destruct (IH b1 HB1) as (b2 & E2 & HB2 & L2 & B2); [now rewrite L1|].
    exists b2. cbn. rewrite E1. cbn. split; [exact E2|]. split; [exact HB2|]. split; [congruence|].
    intros i. rewrite B2, B1. cbn. intuition congruence.
Qed.

Lemma all_first_ok b n : bs_ok b ->
  exists r, bitset_all_first b n = Ok r /\
    (r = true <-> (n <= bs_bits b)%nat /\ forall i, (i < n)%nat -> bit (bs_words b) i = true).
Proof.
  intros (H1 & H2 & H3). unfold bitset_all_first. destruct (bs_bits b =? 0)%nat eqn:E0.
  - eexists. split; [reflexivity|]. split; [intros H; split; [lia|intros; lia]|]. intros (H & _). lia.
  - destruct (bs_bits b <? n)%nat eqn:E1.
    + exists false. split; [reflexivity|]. split; [discriminate|]. intros (H & _). lia.
    + assert (W := number_of_words_spec (bs_bits b)).
      destruct (all_first_loop_ok (bs_words b) n H2) as (r & ER & HR).
      * rewrite H1. lia.
      * intros HN. rewrite HN in H1. cbn [length] in H1. unfold bits_per_word in W. lia.
      * exists r. split; [exact ER|]. rewrite HR. intuition lia.
Qed.

Lemma mask_bits nbits : (nbits <> 0)%nat -> 
  high_word_mask nbits = Z.ones (if (nbits mod bits_per_word =? 0)%nat then 64 else Z.of_nat (nbits mod bits_per_word)).
Proof.
  intros _. unfold high_word_mask. assert (M := Nat.mod_upper_bound nbits bits_per_word ltac:(unfold bits_per_word; lia)).
  set (k := (nbits mod bits_per_word)%nat) in *. unfold bits_per_word in M. rewrite Z.mul_1_l.
  assert (P : 1 <= 2 ^ Z.of_nat k) by (assert (0 < 2 ^ Z.of_nat k) by (apply Z.pow_pos_nonneg; lia); lia).
  assert (Q : 2 ^ Z.of_nat k < 2 ^ 64) by (apply Z.pow_lt_mono_r; lia).
  rewrite (Z.mod_small (2 ^ Z.of_nat k)) by lia. rewrite Z.mod_small by lia. rewrite Z.ones_equiv.
  destruct (k =? 0)%nat eqn:E.
  - replace (Z.of_nat k) with 0 by lia. reflexivity.
  - assert (2 <= 2 ^ Z.of_nat k) by (change 2 with (2 ^ 1) at 1; apply Z.pow_le_mono_r; lia).
    replace (2 ^ Z.of_nat k - 1 =? 0) with false by lia. lia.
Qed.

Lemma all_loop_ok words : words_ok words -> forall i0 last mask, (last - i0 + 1 = length words)%nat -> (i0 <= last)%nat ->
  exists r, all_loop words i0 last mask = Ok r /\
    (r = true <-> (forall j, (j < last - i0)%nat -> nth j words 0 = word_max) /\ nth (last - i0) words 0 = mask).
Proof.
  induction words as [|w ws IH]; intros HF i0 last mask HL HI; [cbn in HL; lia|]. inversion HF; subst. cbn [all_loop].
  destruct (i0 =? last)%nat eqn:E.
  - eexists. split; [reflexivity|]. replace (last - i0)%nat with O by lia. cbn [nth]. split; intros H; [split; [lia|lia]|lia].
  - cbn [length] in HL. destruct (w =? word_max) eqn:EW.
    + destruct (IH H2 (S i0) last mask) as (r & ER & HR); try lia. exists r. split; [exact ER|]. rewrite HR.
      replace (last - i0)%nat with (S (last - S i0)) by lia. cbn [nth]. split; intros (A & B); (split; [|exact B]).
      * intros [|j] Hj; [cbn; lia|]. cbn. apply A. lia.
      * intros j Hj. apply (A (S j)). lia.
    + exists false. split; [reflexivity|]. split; [discriminate|]. intros (A & _). specialize (A O ltac:(lia)). cbn in A. lia.
Qed.

Lemma all_ok b : bs_ok b ->
  exists r, bitset_all b = Ok r /\ (r = true <-> forall i, (i < bs_bits b)%nat -> bit (bs_words b) i = true).
Proof.
  intros (H1 & H2 & H3). unfold bitset_all. destruct (bs_bits b =? 0)%nat eqn:E0.
  - exists true. split; [reflexivity|]. split; [intros; lia|reflexivity].
  - assert (W := number_of_words_spec (bs_bits b)). set (nb := bs_bits b) in *. set (nw := number_of_words nb) in *.
    assert (W1 : (1 <= nw)%nat) by (unfold bits_per_word in W; lia).
    destruct (all_loop_ok (bs_words b) H2 0 (nw - 1) (high_word_mask nb)) as (r & ER & HR); try lia.
    exists r. split; [exact ER|]. rewrite HR. rewrite Nat.sub_0_r. clear HR ER r.
    assert (WR : forall j, (j < nw)%nat -> 0 <= nth j (bs_words b) 0 < 2 ^ 64).
    { intros j Hj. unfold words_ok in H2. rewrite Forall_forall in H2. apply H2. apply nth_In. lia. }
    assert (MK := mask_bits nb ltac:(lia)).
    assert (NB : nb = (bits_per_word * (nw - 1) + (if (nb mod bits_per_word =? 0)%nat then 64 else nb mod bits_per_word))%nat).
    { unfold nw, number_of_words, bits_per_word. assert (D := Nat.div_mod nb 64 ltac:(lia)).
      destruct (nb mod 64 =? 0)%nat eqn:EM; [|lia]. assert (1 <= nb / 64)%nat by (destruct (nb / 64)%nat; lia). lia. }
    split.
    + intros (A & B) i Hi. unfold bit. assert (D := Nat.div_mod i bits_per_word ltac:(unfold bits_per_word; lia)).
      assert (M := Nat.mod_upper_bound i bits_per_word ltac:(unfold bits_per_word; lia)).
      destruct (le_lt_dec (nw - 1) (i / bits_per_word)).
      * assert (EQ : (i / bits_per_word = nw - 1)%nat) by (unfold bits_per_word in *; lia). rewrite EQ, B, MK.
        apply Z.ones_spec_low. unfold bits_per_word in *. destruct (nb mod 64 =? 0)%nat; lia.
      * rewrite A by assumption. change word_max with (Z.ones 64). apply Z.ones_spec_low. unfold bits_per_word in *. lia.
    + intros A. split.
      * intros j Hj. apply Z.eqb_eq. apply word_max_iff; [apply WR; lia|]. intros i Hi.
        specialize (A (j * 64 + i)%nat ltac:(unfold bits_per_word in *; destruct (nb mod 64 =? 0)%nat; lia)). unfold bit, bits_per_word in A.
        rewrite Nat.div_add_l, Nat.div_small, Nat.add_0_r in A by lia.
        rewrite Nat.add_comm, Nat.mod_add, Nat.mod_small in A by lia. exact A.
      * rewrite MK. apply Z.bits_inj'. intros k Hk.
        set (top := if (nb mod bits_per_word =? 0)%nat then 64 else Z.of_nat (nb mod bits_per_word)).
        assert (TOP : 0 <= top <= 64 /\ nb = (64 * (nw - 1) + Z.to_nat top)%nat).
        { unfold top. unfold bits_per_word in *. assert (M := Nat.mod_upper_bound nb 64 ltac:(lia)). destruct (nb mod 64 =? 0)%nat; lia. }
        clearbody top. clear NB MK.
        destruct (Z.lt_ge_cases k top) as [L|L].
        -- rewrite Z.ones_spec_low by lia.
           specialize (A ((nw - 1) * 64 + Z.to_nat k)%nat ltac:(lia)). unfold bit, bits_per_word in A.
           rewrite Nat.div_add_l, Nat.div_small, Nat.add_0_r in A by lia.
           rewrite Nat.add_comm, Nat.mod_add, Nat.mod_small in A by lia. now rewrite Z2Nat.id in A by lia.
        -- rewrite Z.ones_spec_high by lia. destruct (Z.lt_ge_cases k 64) as [L2|L2].
           ++ destruct (Z.testbit (nth (nw - 1) (bs_words b) 0) k) eqn:ET; [|reflexivity]. exfalso.
              assert (X := H3 ((nw - 1) * 64 + Z.to_nat k)%nat). unfold bit, bits_per_word in X.
              rewrite Nat.div_add_l, Nat.div_small, Nat.add_0_r in X by lia.
              rewrite (Nat.add_comm ((nw - 1) * 64)), Nat.mod_add, Nat.mod_small in X by lia. rewrite Z2Nat.id in X by lia.
              specialize (X ET). lia.
           ++ specialize (WR (nw - 1)%nat ltac:(lia)). set (w := nth (nw - 1) (bs_words b) 0) in *.
              destruct (Z.eq_dec w 0) as [-> |N]; [apply Z.bits_0|]. apply Z.bits_above_log2; [lia|].
              enough (Z.log2 w < 64) by lia. apply Z.log2_lt_pow2; lia.
Qed.
