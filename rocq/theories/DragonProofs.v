(** The digit generation on numbers. *)
From Verif Require Import Base Lib Conversion Bignum Dragon SpecBignum BignumProofs SpecFloat EstimateProofs.

(** ** Digit strings *)
Lemma digits_value_snoc ds c : digits_value (ds ++ [c]) = 10 * digits_value ds + (c - 48).
Proof. unfold digits_value. now rewrite fold_left_app. Qed.
Lemma digits_value_app a b : digits_value (a ++ b) = digits_value a * 10 ^ Z.of_nat (length b) + digits_value b.
Proof.
  induction b as [|c b IH] using rev_ind.
  - rewrite app_nil_r. change (digits_value []) with 0. cbn [length]. change (10 ^ Z.of_nat 0) with 1. lia.
  - rewrite app_assoc, !digits_value_snoc, IH, app_length. cbn [length].
    replace (Z.of_nat (length b + 1)) with (Z.succ (Z.of_nat (length b))) by lia. rewrite Z.pow_succ_r by lia. ring.
Qed.
Lemma digits_value_cons c ds : digits_value (c :: ds) = (c - 48) * 10 ^ Z.of_nat (length ds) + digits_value ds.
Proof. change (c :: ds) with ([c] ++ ds). rewrite digits_value_app. f_equal. Qed.
Lemma digits_value_bound ds : all_digits ds -> 0 <= digits_value ds < 10 ^ Z.of_nat (length ds).
Proof.
  induction ds as [|c ds IH]; intros H; [cbn; lia|]. inversion H as [|? ? Hc H']; subst.
  rewrite digits_value_cons. cbn [length]. rewrite Nat2Z.inj_succ, Z.pow_succ_r by lia. specialize (IH H'). nia.
Qed.
Lemma digits_value_zeros n : digits_value (repeat 48 n) = 0.
Proof. induction n as [|n IH]; [reflexivity|]. cbn [repeat]. rewrite digits_value_cons, IH. lia. Qed.
Lemma all_digits_zeros n : all_digits (repeat 48 n).
Proof. apply Forall_forall. intros c Hc. apply repeat_spec in Hc. lia. Qed.
Lemma digits_value_nines n : digits_value (repeat 57 n) = 10 ^ Z.of_nat n - 1.
Proof.
  induction n as [|n IH]; [reflexivity|]. cbn [repeat]. rewrite digits_value_cons, IH, repeat_length.
  rewrite Nat2Z.inj_succ, Z.pow_succ_r by lia. ring.
Qed.

(** Digit strings of the same length with a value of that size start with a non-zero digit. *)
Lemma digits_value_first c ds : all_digits (c :: ds) -> 10 ^ Z.of_nat (length ds) <= digits_value (c :: ds) -> c <> 48.
Proof.
  intros H HV ->. inversion H; subst. rewrite digits_value_cons in HV. assert (B := digits_value_bound ds ltac:(assumption)). lia.
Qed.

(** ** round_up *)
Lemma leading_nines_split d : exists r, d = repeat 57 (leading_nines d) ++ r /\ match r with [] => True | c :: _ => c <> 57 end.
Proof.
  induction d as [|c d (r & E & H)]; [exists []; now split|].
  cbn [leading_nines]. destruct (c =? 57) eqn:G.
  - apply Z.eqb_eq in G. subst c. exists r. cbn [repeat app]. split; [now f_equal|exact H].
  - exists (c :: d). split; [reflexivity|]. lia.
Qed.

Lemma repeat_snoc {A} (x : A) n : repeat x n ++ [x] = x :: repeat x n.
Proof. induction n as [|n IH]; [reflexivity|]. cbn [repeat app]. now rewrite IH. Qed.
Lemma rev_repeat {A} (x : A) n : rev (repeat x n) = repeat x n.
Proof. induction n as [|n IH]; [reflexivity|]. cbn [repeat rev]. now rewrite IH, repeat_snoc. Qed.

Lemma round_up_spec d : all_digits d ->
  match round_up d with
  | (d', None) => length d' = length d /\ all_digits d' /\ digits_value d' = digits_value d + 1
  | (d', Some c) =>
      digits_value d = 10 ^ Z.of_nat (length d) - 1 /\ length d' = length d /\
      match d with [] => c = 49 | _ => c = 48 /\ d' = 49 :: repeat 48 (length d - 1) end
  end.
Proof.
  intros HD. unfold round_up. destruct (leading_nines_split (rev d)) as (r & E & Hr).
  assert (ED : d = rev r ++ repeat 57 (leading_nines (rev d))).
  { rewrite <- (rev_involutive d) at 1. rewrite E at 1. rewrite rev_app_distr, rev_repeat. reflexivity. }
  set (n := leading_nines (rev d)) in *. clearbody n. clear E.
  destruct (n <? length d)%nat eqn:G.
  - destruct r as [|c r]; [exfalso; rewrite ED in G; cbn [rev app] in G; rewrite repeat_length in G; lia|].
    cbn [rev] in ED. rewrite <- app_assoc in ED. cbn [app] in ED.
    assert (EL : length d = (length (rev r) + S n)%nat) by (rewrite ED, app_length; cbn [length]; now rewrite repeat_length).
    replace (length d - n - 1)%nat with (length (rev r)) by lia.
    assert (EF : firstn (length (rev r)) d = rev r) by (rewrite ED, firstn_app, firstn_all, Nat.sub_diag, firstn_O; apply app_nil_r).
    assert (EN : nth (length (rev r)) d 0 = c) by (rewrite ED, app_nth2, Nat.sub_diag by lia; reflexivity).
    rewrite EF, EN. assert (HD' := HD). unfold all_digits in HD'. rewrite ED in HD'. apply Forall_app in HD'. destruct HD' as [H1 H2]. inversion H2 as [|? ? Hc H3]; subst x l.
    split; [rewrite app_length; cbn [length]; rewrite repeat_length; lia|]. split.
    + apply Forall_app. split; [exact H1|]. constructor; [lia|apply all_digits_zeros].
    + rewrite ED. rewrite !digits_value_app, !digits_value_cons, digits_value_zeros, digits_value_nines. cbn [length].
      rewrite !repeat_length. ring.
  - destruct r as [|c r]; [|exfalso; rewrite ED in G; rewrite app_length, rev_length, repeat_length in G; cbn [length] in G; lia].
    cbn [rev app] in ED. assert (EN : length d = n) by (rewrite ED; apply repeat_length).
    assert (EV : digits_value d = 10 ^ Z.of_nat (length d) - 1) by (rewrite ED at 1; rewrite digits_value_nines, EN; reflexivity).
    destruct d as [|c d]; (split; [exact EV|]).
    + now split.
    + cbn [length Nat.sub]. rewrite Nat.sub_0_r, repeat_length. auto.
Qed.

(** ** One digit *)
Lemma bn_ge_correct a b va vb : represents a va -> represents b vb -> bn_ge a b = Ok (vb <=? va).
Proof.
  intros Ha Hb. unfold bn_ge. rewrite (bn_compare_correct a b va vb Ha Hb). cbn [bind]. f_equal.
  destruct (va ?= vb) eqn:C.
  - apply Z.compare_eq_iff in C. subst. symmetry. apply Z.leb_refl.
  - symmetry. apply Z.leb_gt. exact C.
  - symmetry. apply Z.leb_le. rewrite Z.compare_gt_iff in C. lia.
Qed.

Lemma digit_step_ok s sv w mant m d : represents s sv -> represents mant m ->
  exists mant', digit_step s w (mant, d) = Ok (mant', if sv <=? m then d + w else d) /\
    represents mant' (if sv <=? m then m - sv else m).
Proof.
  intros Hs Hm. unfold digit_step. rewrite (bn_ge_correct mant s m sv Hm Hs). cbn [bind].
  destruct (sv <=? m) eqn:G.
  - destruct (bn_sub_correct mant s m sv Hm Hs) as (b & E & R); [lia|]. rewrite E. exists b. now split.
  - exists mant. now split.
Qed.

Lemma gen_digit_ok scale scale2 scale4 scale8 S mant m :
  represents scale S -> represents scale2 (S * 2) -> represents scale4 (S * 4) -> represents scale8 (S * 8) ->
  represents mant m -> 0 < S -> 0 <= m < 16 * S ->
  exists mant', gen_digit scale scale2 scale4 scale8 mant = Ok (mant', m / S) /\ represents mant' (m mod S).
Proof.
  intros H1 H2 H4 H8 Hm HS Hb. unfold gen_digit.
  destruct (digit_step_ok scale8 _ 8 mant m 0 H8 Hm) as (m1 & E1 & R1). rewrite E1. cbn [bind].
  set (v1 := if S * 8 <=? m then m - S * 8 else m) in *. set (d1 := if S * 8 <=? m then 0 + 8 else 0) in *.
  destruct (digit_step_ok scale4 _ 4 m1 v1 d1 H4 R1) as (m2 & E2 & R2). rewrite E2. cbn [bind].
  set (v2 := if S * 4 <=? v1 then v1 - S * 4 else v1) in *. set (d2 := if S * 4 <=? v1 then d1 + 4 else d1) in *.
  destruct (digit_step_ok scale2 _ 2 m2 v2 d2 H2 R2) as (m3 & E3 & R3). rewrite E3. cbn [bind].
  set (v3 := if S * 2 <=? v2 then v2 - S * 2 else v2) in *. set (d3 := if S * 2 <=? v2 then d2 + 2 else d2) in *.
  destruct (digit_step_ok scale _ 1 m3 v3 d3 H1 R3) as (m4 & E4 & R4). rewrite E4.
  set (v4 := if S <=? v3 then v3 - S else v3) in *. set (d4 := if S <=? v3 then d3 + 1 else d3) in *.
  assert (I1 : m = d1 * S + v1 /\ 0 <= v1 < 8 * S) by (subst v1 d1; destruct (S * 8 <=? m) eqn:?; lia). clearbody v1 d1.
  assert (I2 : m = d2 * S + v2 /\ 0 <= v2 < 4 * S) by (subst v2 d2; destruct (S * 4 <=? v1) eqn:?; lia). clearbody v2 d2.
  assert (I3 : m = d3 * S + v3 /\ 0 <= v3 < 2 * S) by (subst v3 d3; destruct (S * 2 <=? v2) eqn:?; lia). clearbody v3 d3.
  assert (I4 : m = d4 * S + v4 /\ 0 <= v4 < S) by (subst v4 d4; destruct (S <=? v3) eqn:?; lia). clearbody v4 d4.
  destruct I4 as [I4 I5]. exists m4. 
  assert (EQ : m / S = d4) by (symmetry; apply (Z.div_unique m S d4 v4); lia).
  assert (ER : m mod S = v4) by (symmetry; apply (Z.mod_unique m S d4 v4); lia).
  rewrite EQ, ER. now split.
Qed.

(** ** The loop of the shortest mode *)
Definition pow10 (n : nat) : Z := 10 ^ Z.of_nat n.
Lemma pow10_S n : pow10 (S n) = 10 * pow10 n.
Proof. unfold pow10. rewrite Nat2Z.inj_succ. now rewrite Z.pow_succ_r by lia. Qed.
Lemma pow10_pos n : 0 < pow10 n.
Proof. apply Z.pow_pos_nonneg; lia. Qed.
Lemma pow10_0 : pow10 0 = 1. Proof. reflexivity. Qed.

(** [j + 1] digits were generated: may we stop below, above? *)
Definition stop_down (incl : bool) (S M N : Z) (j : nat) : bool := rounding incl ((M * pow10 j) mod S ?= N * pow10 j).
Definition stop_up (incl : bool) (S M P : Z) (j : nat) : bool := rounding incl (S ?= (M * pow10 j) mod S + P * pow10 j).

Lemma rounding_false incl a b : rounding incl (a ?= b) = false -> b <= a /\ (incl = true -> b < a).
Proof.
  unfold rounding. destruct (a ?= b) eqn:C; intros H.
  - apply Z.compare_eq_iff in C. subst. split; [lia|discriminate].
  - discriminate H.
  - rewrite Z.compare_gt_iff in C. lia.
Qed.
Lemma rounding_true incl a b : rounding incl (a ?= b) = true <-> a < b \/ (incl = true /\ a = b).
Proof.
  unfold rounding. destruct (a ?= b) eqn:C.
  - apply Z.compare_eq_iff in C. subst. intuition lia.
  - assert (a < b) by exact C. intuition.
  - rewrite Z.compare_gt_iff in C. intuition (discriminate || lia).
Qed.

Lemma fits_small v : 0 <= v <= 100 * 2 ^ 1077 -> bn_fits v.
Proof.
  intros H. unfold bn_fits. change (2 ^ 1088) with (2 ^ 11 * 2 ^ 1077). change (2 ^ 11) with 2048.
  assert (0 < 2 ^ 1077) by (apply Z.pow_pos_nonneg; lia). set (K := 2 ^ 1077) in *. clearbody K. lia.
Qed.

Lemma shortest_loop_ok incl scale scale2 scale4 scale8 S :
  represents scale S -> represents scale2 (S * 2) -> represents scale4 (S * 4) -> represents scale8 (S * 8) ->
  0 < S <= 2 ^ 1077 ->
  forall room mant minus plus M N P done,
  represents mant M -> represents minus N -> represents plus P ->
  0 <= M -> 0 < N -> 0 < P -> M + P <= 10 * S -> N <= 10 * S -> S < (N + P) * pow10 (room - 1) -> (0 < room)%nat ->
  exists j ds mant',
    (j < room)%nat /\ length ds = (j + 1)%nat /\ all_digits ds /\
    shortest_loop room incl scale scale2 scale4 scale8 mant minus plus done =
      Ok (done ++ ds, stop_down incl S M N j, stop_up incl S M P j, mant') /\
    represents mant' ((M * pow10 j) mod S) /\ digits_value ds = (M * pow10 j) / S /\
    stop_down incl S M N j || stop_up incl S M P j = true /\
    (forall i, (i < j)%nat -> stop_down incl S M N i = false /\ stop_up incl S M P i = false).
Proof.
  intros H1 H2 H4 H8 HS.
  assert (FITS : forall v, 0 <= v <= 100 * S -> bn_fits v) by (intros v Hv; apply fits_small; lia).
  induction room as [|room IH]; intros mant minus plus M N P done Hm Hmi Hpl HM HN HP HMP HNS HR Hroom; [lia|].
  cbn [shortest_loop].
  destruct (gen_digit_ok scale scale2 scale4 scale8 S mant M H1 H2 H4 H8 Hm) as (m1 & E1 & R1); [lia|lia|].
  rewrite E1. cbn [bind].
  assert (B1 := Z.mod_pos_bound M S ltac:(lia)). assert (D1 := Z.div_mod M S ltac:(lia)).
  assert (BD : 0 <= M / S <= 9).
  { split; [apply Z.div_pos; lia|]. assert (M / S < 10) by (apply Z.div_lt_upper_bound; lia). lia. }
  rewrite (Z.mod_small (48 + M / S)) by lia.
  rewrite (bn_compare_correct m1 minus _ _ R1 Hmi). cbn [bind].
  destruct (bn_add_correct m1 plus _ _ R1 Hpl) as (sum & E2 & R2); [apply FITS; lia|]. rewrite E2. cbn [bind].
  rewrite (bn_compare_correct scale sum _ _ H1 R2). cbn [bind].
  assert (SD : rounding incl (M mod S ?= N) = stop_down incl S M N 0) by (unfold stop_down; rewrite pow10_0, !Z.mul_1_r; reflexivity).
  assert (SU : rounding incl (S ?= M mod S + P) = stop_up incl S M P 0) by (unfold stop_up; rewrite pow10_0, !Z.mul_1_r; reflexivity).
  rewrite SD, SU. destruct (stop_down incl S M N 0 || stop_up incl S M P 0) eqn:G.
  - exists 0%nat, [48 + M / S], m1. rewrite pow10_0, !Z.mul_1_r. split; [lia|]. split; [reflexivity|].
    split; [constructor; [lia|constructor]|]. split; [reflexivity|]. split; [exact R1|].
    split; [rewrite digits_value_cons; cbn [length]; change (digits_value []) with 0; change (10 ^ Z.of_nat 0) with 1; lia|].
    split; [exact G|]. intros i Hi. lia.
  - apply orb_false_iff in G. destruct G as [G1 G2]. rewrite <- SD in G1. rewrite <- SU in G2.
    destruct (rounding_false _ _ _ G1) as [G1' _]. destruct (rounding_false _ _ _ G2) as [G2' _].
    destruct room as [|room]; [change (1 - 1)%nat with 0%nat in HR; rewrite pow10_0 in HR; lia|].
    destruct (bn_mul_small_correct m1 _ 10 R1) as (m2 & E3 & R3); [lia|apply FITS; lia|]. rewrite E3. cbn [bind].
    destruct (bn_mul_small_correct minus _ 10 Hmi) as (mi2 & E4 & R4); [lia|apply FITS; lia|]. rewrite E4. cbn [bind].
    destruct (bn_mul_small_correct plus _ 10 Hpl) as (pl2 & E5 & R5); [lia|apply FITS; lia|]. rewrite E5. cbn [bind].
    destruct (IH m2 mi2 pl2 _ _ _ (done ++ [48 + M / S]) R3 R4 R5) as (j & ds & m' & Hj & HL & HA & E & RM & EV & ES & EI); try lia.
    { replace (Datatypes.S (Datatypes.S room) - 1)%nat with (Datatypes.S room) in HR by lia. rewrite pow10_S in HR.
      replace (Datatypes.S room - 1)%nat with room by lia. nia. }
    assert (SHIFT : forall i, M * pow10 (Datatypes.S i) = M mod S * 10 * pow10 i + (M / S * pow10 (Datatypes.S i)) * S).
    { intros i. rewrite pow10_S. rewrite D1 at 1. ring. }
    assert (MODS : forall i, (M * pow10 (Datatypes.S i)) mod S = (M mod S * 10 * pow10 i) mod S).
    { intros i. rewrite SHIFT. apply Z.mod_add. lia. }
    assert (DIVS : (M * pow10 (Datatypes.S j)) / S = (M mod S * 10 * pow10 j) / S + M / S * pow10 (Datatypes.S j)).
    { rewrite SHIFT. apply Z.div_add. lia. }
    assert (DN : forall i, stop_down incl S M N (Datatypes.S i) = stop_down incl S (M mod S * 10) (N * 10) i).
    { intros i. unfold stop_down. rewrite MODS. f_equal. f_equal. rewrite pow10_S. ring. }
    assert (UP : forall i, stop_up incl S M P (Datatypes.S i) = stop_up incl S (M mod S * 10) (P * 10) i).
    { intros i. unfold stop_up. rewrite MODS. f_equal. f_equal. rewrite pow10_S. ring. }
    exists (Datatypes.S j), ((48 + M / S) :: ds), m'. rewrite DN, UP, MODS, DIVS.
    split; [lia|]. split; [cbn [length]; lia|]. split; [constructor; [lia|exact HA]|].
    split; [rewrite E, <- app_assoc; reflexivity|]. split; [exact RM|].
    split; [rewrite digits_value_cons, EV, HL; unfold pow10; replace (j + 1)%nat with (Datatypes.S j) by lia; ring|].
    split; [exact ES|].
    intros i Hi. destruct i as [|i]; [now rewrite <- SD, <- SU|]. rewrite DN, UP. apply EI. lia.
Qed.

(** ** The result of the shortest mode, on numbers *)
Section Core.
  Context (incl : bool) (S V N P : Z).
  Hypothesis HS : 0 < S.
  Hypothesis HV : 0 < V.
  Hypothesis HN : 0 < N.
  Hypothesis HP : 0 < P.
  Hypothesis HP2 : 2 * P <= V.
  Hypothesis Htop : V + P <= 10 * S.
  Hypothesis Htop' : incl = true -> V + P < 10 * S.
  Hypothesis Hbot : rounding incl (S ?= V + P) = true.

  Let lo (j : nat) := (V - N) * pow10 j.
  Let hi (j : nat) := (V + P) * pow10 j.

  Lemma below_stops j d : inside incl (lo j) (d * S) (hi j) -> d <= V * pow10 j / S -> stop_down incl S V N j = true.
  Proof.
    intros HI Hd. unfold stop_down. apply rounding_true. assert (D := Z.div_mod (V * pow10 j) S ltac:(lia)).
    set (q := V * pow10 j / S) in *. set (r := (V * pow10 j) mod S) in *.
    assert (d * S <= q * S) by nia. unfold inside, lo, hi in HI.
    destruct HI as [HI|[Hi HI]]; [left; lia|]. destruct (Z.eq_dec r (N * pow10 j)); [right; auto|left; lia].
  Qed.
  Lemma above_stops j d : inside incl (lo j) (d * S) (hi j) -> V * pow10 j / S < d -> stop_up incl S V P j = true.
  Proof.
    intros HI Hd. unfold stop_up. apply rounding_true. assert (D := Z.div_mod (V * pow10 j) S ltac:(lia)).
    set (q := V * pow10 j / S) in *. set (r := (V * pow10 j) mod S) in *.
    assert ((q + 1) * S <= d * S) by nia. unfold inside, lo, hi in HI.
    destruct HI as [HI|[Hi HI]]; [left; lia|]. destruct (Z.eq_dec S (r + P * pow10 j)); [right; auto|left; lia].
  Qed.

  Lemma no_coarser j : stop_down incl S V N j = false -> stop_up incl S V P j = false ->
    forall d, ~ inside incl (lo j) (d * S) (hi j).
  Proof.
    intros H1 H2 d HI. destruct (Z_le_gt_dec d (V * pow10 j / S)) as [L|L].
    - rewrite (below_stops j d HI L) in H1. discriminate.
    - rewrite (above_stops j d HI ltac:(lia)) in H2. discriminate.
  Qed.

  Context (j : nat).
  Hypothesis Hstop : stop_down incl S V N j || stop_up incl S V P j = true.
  Hypothesis Hnot : forall i, (i < j)%nat -> stop_down incl S V N i = false /\ stop_up incl S V P i = false.

  Let q := V * pow10 j / S.
  Let r := (V * pow10 j) mod S.
  Definition goes_up : bool :=
    stop_up incl S V P j && (negb (stop_down incl S V N j) || (S <=? r * 2)).
  Definition result_d : Z := if goes_up then q + 1 else q.

  Lemma core_inside : inside incl (lo j) (result_d * S) (hi j).
  Proof.
    assert (D := Z.div_mod (V * pow10 j) S ltac:(lia)). assert (B := Z.mod_pos_bound (V * pow10 j) S HS).
    fold q r in D, B. assert (PJ := pow10_pos j). unfold result_d, goes_up, inside, lo, hi.
    destruct (stop_up incl S V P j) eqn:EU; cbn [andb].
    - assert (UP := proj1 (rounding_true _ _ _) EU). fold r in UP.
      destruct (negb (stop_down incl S V N j) || (S <=? r * 2)) eqn:G.
      + destruct UP as [UP|[Hi UP]]; [left; nia|right; split; [exact Hi|nia]].
      + apply orb_false_iff in G. destruct G as [G _]. apply negb_false_iff in G.
        assert (DN := proj1 (rounding_true _ _ _) G). fold r in DN. destruct DN as [DN|[Hi DN]]; [left; nia|right; split; [exact Hi|nia]].
    - rewrite orb_false_r in Hstop. assert (DN := proj1 (rounding_true _ _ _) Hstop). fold r in DN.
      destruct DN as [DN|[Hi DN]]; [left; nia|right; split; [exact Hi|nia]].
  Qed.

  Lemma first_digit : V / S = 0 -> stop_up incl S V P 0 = true.
  Proof.
    intros E. unfold stop_up. rewrite pow10_0, !Z.mul_1_r.
    assert (D := Z.div_mod V S ltac:(lia)). rewrite E in D. replace (V mod S) with V by lia. exact Hbot.
  Qed.

  Lemma core_range : pow10 j <= result_d < pow10 (Datatypes.S j).
  Proof.
    assert (I := core_inside). assert (PJ := pow10_pos j). rewrite pow10_S. split.
    - destruct (Nat.eq_dec j 0) as [EJ|EJ].
      + unfold result_d, goes_up, q, r. rewrite EJ, pow10_0, !Z.mul_1_r.
        assert (B := Z.div_pos V S ltac:(lia) HS). destruct (Z.eq_dec (V / S) 0) as [E|E].
        * rewrite (first_digit E). cbn [andb]. assert (D := Z.div_mod V S ltac:(lia)). rewrite E in D.
          replace (V mod S) with V by lia. assert (U := proj1 (rounding_true _ _ _) Hbot).
          replace (S <=? V * 2) with true by lia. rewrite orb_true_r. lia.
        * destruct (stop_up incl S V P 0 && _); lia.
      + assert (1 <= V / S).
        { assert (B := Z.div_pos V S ltac:(lia) HS). destruct (Z.eq_dec (V / S) 0) as [E|E]; [|lia].
          destruct (Hnot 0%nat ltac:(lia)) as [_ U]. rewrite (first_digit E) in U. discriminate. }
        assert (V / S * pow10 j <= q).
        { unfold q. apply Z.div_le_lower_bound; [lia|]. assert (D := Z.mul_div_le V S HS). nia. }
        unfold result_d. destruct goes_up; nia.
    - assert (UB : result_d * S < 10 * pow10 j * S); [|nia].
      unfold inside, hi in I. destruct I as [I|[Hi I]].
      + nia.
      + specialize (Htop' Hi). nia.
  Qed.

  Lemma core_closest d : inside incl (lo j) (d * S) (hi j) ->
    Z.abs (result_d * S - V * pow10 j) <= Z.abs (d * S - V * pow10 j).
  Proof.
    intros HI. assert (D := Z.div_mod (V * pow10 j) S ltac:(lia)). assert (B := Z.mod_pos_bound (V * pow10 j) S HS).
    unfold result_d, goes_up. destruct (Z_le_gt_dec d (V * pow10 j / S)) as [L|L].
    - rewrite (below_stops j d HI L). cbn [negb orb]. fold q r in D, B, L.
      assert (d * S <= q * S) by nia. destruct (stop_up incl S V P j); cbn [andb]; [|lia].
      destruct (S <=? r * 2) eqn:G; nia.
    - rewrite (above_stops j d HI ltac:(lia)). cbn [andb]. fold q r in D, B, L.
      assert ((q + 1) * S <= d * S) by nia. destruct (negb (stop_down incl S V N j) || (S <=? r * 2)) eqn:G; [nia|].
      apply orb_false_iff in G. destruct G as [_ G]. nia.
  Qed.
  Lemma core_above d : inside incl (lo j) (d * S) (hi j) -> result_d < d ->
    Z.abs (result_d * S - V * pow10 j) < Z.abs (d * S - V * pow10 j).
  Proof.
    intros HI. assert (D := Z.div_mod (V * pow10 j) S ltac:(lia)). assert (B := Z.mod_pos_bound (V * pow10 j) S HS).
    unfold result_d, goes_up. destruct (Z_le_gt_dec d (V * pow10 j / S)) as [L|L].
    - fold q r in D, B, L. destruct (stop_up incl S V P j && _); lia.
    - rewrite (above_stops j d HI ltac:(lia)). cbn [andb]. fold q r in D, B, L.
      destruct (negb (stop_down incl S V N j) || (S <=? r * 2)) eqn:G; intros HD.
      + assert ((q + 2) * S <= d * S) by nia. nia.
      + apply orb_false_iff in G. destruct G as [_ G]. assert ((q + 1) * S <= d * S) by nia. nia.
  Qed.
End Core.

(** ** From the scaled numbers back to the value *)
Lemma pos_pow_mul b e f : pos_pow b e * pos_pow b (- f) * b ^ Z.max (f - e) 0 = pos_pow b f * pos_pow b (- e) * b ^ Z.max (e - f) 0.
Proof. unfold pos_pow. rewrite <- !Z.pow_add_r by lia. f_equal. lia. Qed.

Lemma fraction_eq k0 k e (j : nat) q : k0 <= k <= k0 + 1 -> q = Z.of_nat j + 1 - k ->
  (pos_pow 10 (- k0) * pos_pow 2 e * 10 ^ (k0 + 1 - k)) * pow10 j * scaled_den e q =
  (pos_pow 10 k0 * pos_pow 2 (- e)) * scaled_num 1 e q.
Proof.
  intros Hk ->. unfold scaled_den, scaled_num, pow10.
  assert (E : pos_pow 10 (- k0) * 10 ^ (k0 + 1 - k) * 10 ^ Z.of_nat j * pos_pow 10 (- (Z.of_nat j + 1 - k)) =
              pos_pow 10 k0 * pos_pow 10 (Z.of_nat j + 1 - k)).
  { unfold pos_pow. rewrite <- !Z.pow_add_r by lia. f_equal. lia. }
  set (q := Z.of_nat j + 1 - k) in *.
  transitivity (pos_pow 2 e * pos_pow 2 (- e) * (pos_pow 10 (- k0) * 10 ^ (k0 + 1 - k) * 10 ^ Z.of_nat j * pos_pow 10 (- q))); [ring|].
  rewrite E. ring.
Qed.

Lemma scaled_num_1 a e q : scaled_num a e q = a * scaled_num 1 e q.
Proof. unfold scaled_num. ring. Qed.
Lemma scaled_den_pos e q : 0 < scaled_den e q.
Proof. unfold scaled_den. assert (A := pos_pow_pos 2 (- e) ltac:(lia)). assert (B := pos_pow_pos 10 (- q) ltac:(lia)). nia. Qed.
Lemma scaled_num_pos e q : 0 < scaled_num 1 e q.
Proof. unfold scaled_num. assert (A := pos_pow_pos 2 e ltac:(lia)). assert (B := pos_pow_pos 10 q ltac:(lia)). nia. Qed.

(** Equal fractions [A / S] and [u / w] compare alike. *)
Lemma frac_lt A S u w x y : 0 < S -> 0 < w -> A * w = S * u -> (x * S < y * A <-> x * w < y * u).
Proof.
  intros HS HW E. assert (E1 : y * A * w = y * u * S) by (transitivity (y * (A * w)); [ring|]; rewrite E; ring).
  split; intros H.
  - apply (Zmult_lt_reg_r _ _ S HS). rewrite <- E1. replace (x * w * S) with (x * S * w) by ring. apply Zmult_lt_compat_r; assumption.
  - apply (Zmult_lt_reg_r _ _ w HW). rewrite E1. replace (x * S * w) with (x * w * S) by ring. apply Zmult_lt_compat_r; assumption.
Qed.
Lemma frac_gt A S u w x y : 0 < S -> 0 < w -> A * w = S * u -> (y * A < x * S <-> y * u < x * w).
Proof.
  intros HS HW E. assert (E1 : y * A * w = y * u * S) by (transitivity (y * (A * w)); [ring|]; rewrite E; ring).
  split; intros H.
  - apply (Zmult_lt_reg_r _ _ S HS). rewrite <- E1. replace (x * w * S) with (x * S * w) by ring. apply Zmult_lt_compat_r; assumption.
  - apply (Zmult_lt_reg_r _ _ w HW). rewrite E1. replace (x * S * w) with (x * w * S) by ring. apply Zmult_lt_compat_r; assumption.
Qed.

Lemma inside_frac incl A S u w lo hi d : 0 < S -> 0 < w -> A * w = S * u ->
  (inside incl (lo * A) (d * S) (hi * A) <-> inside incl (lo * u) (d * w) (hi * u)).
Proof.
  intros HS HW E. unfold inside.
  assert (L1 := frac_gt A S u w d lo HS HW E). assert (L2 := frac_lt A S u w d hi HS HW E).
  assert (L3 := frac_gt A S u w d hi HS HW E). assert (L4 := frac_lt A S u w d lo HS HW E).
  intuition lia.
Qed.

Lemma abs_frac A S u w d d' y : 0 < S -> 0 < w -> 0 < A -> A * w = S * u ->
  Z.abs (d * S - y * A) <= Z.abs (d' * S - y * A) -> Z.abs (d * w - y * u) <= Z.abs (d' * w - y * u).
Proof.
  intros HS HW HA E H.
  assert (E1 : y * A * w = y * u * S) by (transitivity (y * (A * w)); [ring|]; rewrite E; ring).
  assert (X : forall z, Z.abs (z * S - y * A) * w = Z.abs (z * w - y * u) * S).
  { intros z. rewrite <- (Z.abs_eq w) at 1 by lia. rewrite <- (Z.abs_eq S) at 2 by lia. rewrite <- !Z.abs_mul. f_equal. lia. }
  apply (Zmult_le_reg_r _ _ S); [lia|]. rewrite <- !X. apply Zmult_le_compat_r; lia.
Qed.

Lemma abs_frac_lt A S u w d d' y : 0 < S -> 0 < w -> 0 < A -> A * w = S * u ->
  Z.abs (d * S - y * A) < Z.abs (d' * S - y * A) -> Z.abs (d * w - y * u) < Z.abs (d' * w - y * u).
Proof.
  intros HS HW HA E H.
  assert (E1 : y * A * w = y * u * S) by (transitivity (y * (A * w)); [ring|]; rewrite E; ring).
  assert (X : forall z, Z.abs (z * S - y * A) * w = Z.abs (z * w - y * u) * S).
  { intros z. rewrite <- (Z.abs_eq w) at 1 by lia. rewrite <- (Z.abs_eq S) at 2 by lia. rewrite <- !Z.abs_mul. f_equal. lia. }
  apply (Zmult_lt_reg_r _ _ S); [lia|]. rewrite <- !X. apply Zmult_lt_compat_r; lia.
Qed.

(** The same decimal with another exponent. *)
Lemma shift_frac e q t : 0 <= t -> scaled_num 1 e q * 10 ^ t * scaled_den e (q + t) = scaled_den e q * scaled_num 1 e (q + t).
Proof.
  intros H. unfold scaled_num, scaled_den.
  assert (E : pos_pow 10 q * 10 ^ t * pos_pow 10 (- (q + t)) = pos_pow 10 (- q) * pos_pow 10 (q + t)).
  { unfold pos_pow. rewrite <- !Z.pow_add_r by lia. f_equal. lia. }
  transitivity (pos_pow 2 e * pos_pow 2 (- e) * (pos_pow 10 q * 10 ^ t * pos_pow 10 (- (q + t)))); [ring|]. rewrite E. ring.
Qed.
Lemma inside_scale incl lo x hi t : 0 < t -> inside incl lo x hi <-> inside incl (lo * t) (x * t) (hi * t).
Proof.
  intros H. unfold inside. split; (intros [I|[Hi I]]; [left|right; split; [exact Hi|]]); nia.
Qed.
Lemma decimal_inside_shift incl lo hi e d q t : 0 <= t ->
  decimal_inside incl lo hi e d q <-> decimal_inside incl lo hi e (d * 10 ^ t) (q + t).
Proof.
  intros H. unfold decimal_inside. rewrite (scaled_num_1 lo), (scaled_num_1 hi), (scaled_num_1 lo e (q + t)), (scaled_num_1 hi e (q + t)).
  assert (PT : 0 < 10 ^ t) by (apply Z.pow_pos_nonneg; lia).
  rewrite <- (inside_frac incl (scaled_num 1 e q * 10 ^ t) (scaled_den e q) (scaled_num 1 e (q + t)) (scaled_den e (q + t)) lo hi (d * 10 ^ t));
    [|apply scaled_den_pos|apply scaled_den_pos|apply shift_frac; exact H].
  rewrite (inside_scale incl _ _ _ (10 ^ t) PT).
  replace (d * 10 ^ t * scaled_den e q) with (d * scaled_den e q * 10 ^ t) by ring.
  rewrite !Z.mul_assoc. reflexivity.
Qed.

(** ** Scaling *)
Lemma scaled_correct b v e5 e2 : represents b v -> 0 < v -> bn_fits (v * 5 ^ Z.of_nat e5 * 2 ^ Z.of_nat e2) ->
  exists b', scaled b e5 e2 = Ok b' /\ represents b' (v * 5 ^ Z.of_nat e5 * 2 ^ Z.of_nat e2).
Proof.
  intros Hb Hv HF. unfold scaled.
  assert (P5 : 0 < 5 ^ Z.of_nat e5) by (apply Z.pow_pos_nonneg; lia). assert (P2 : 0 < 2 ^ Z.of_nat e2) by (apply Z.pow_pos_nonneg; lia).
  destruct (bn_mul_pow5_correct b v e5 Hb) as (b1 & E1 & R1); [hide_bound; nia|].
  rewrite E1. cbn [bind]. apply bn_mul_pow2_correct; [exact R1|nia|exact HF].
Qed.

Lemma scale_exponents_spec e k s2 s5 m2 m5 : scale_exponents e k = (s2, s5, m2, m5) ->
  5 ^ Z.of_nat s5 * 2 ^ Z.of_nat s2 = pos_pow 10 k * pos_pow 2 (- e) /\
  5 ^ Z.of_nat m5 * 2 ^ Z.of_nat m2 = pos_pow 10 (- k) * pos_pow 2 e.
Proof.
  unfold scale_exponents. intros E.
  assert (T : forall n, 0 <= n -> 10 ^ n = 5 ^ n * 2 ^ n) by (intros n Hn; rewrite <- Z.pow_mul_l; reflexivity).
  destruct (0 <=? k) eqn:GK; injection E as <- <- <- <-; unfold pos_pow.
  - rewrite (Z.max_l k) by lia. rewrite (Z.max_r (- k)) by lia. rewrite (T k) by lia. split.
    + rewrite <- Z.mul_assoc, <- Z.pow_add_r by lia. f_equal; f_equal; [lia|]. destruct (e <? 0) eqn:G; lia.
    + cbn. rewrite Z.mul_1_l. change (10 ^ 0) with 1. rewrite Z.mul_1_l. f_equal. destruct (e <? 0) eqn:G; lia.
  - rewrite (Z.max_r k) by lia. rewrite (Z.max_l (- k)) by lia. rewrite (T (- k)) by lia. split.
    + change (5 ^ Z.of_nat 0) with 1. change (10 ^ 0) with 1. rewrite !Z.mul_1_l. f_equal. destruct (e <? 0) eqn:G; lia.
    + rewrite <- Z.mul_assoc, <- Z.pow_add_r by lia. f_equal; f_equal; [lia|]. destruct (e <? 0) eqn:G; lia.
Qed.

(** What decode delivers for finite non-zero numbers. *)
Definition dec_ok (dec : finite_result) : Prop :=
  2 <= f_mant dec <= 2 ^ 54 /\ f_minus dec = 1 /\ (f_plus dec = 1 \/ (f_plus dec = 2 /\ f_mant dec = 2 ^ 54)) /\
  -1076 <= f_exp dec <= 970.

Definition dec_inside (dec : finite_result) (d q : Z) : Prop :=
  decimal_inside (f_inclusive dec) (f_mant dec - f_minus dec) (f_mant dec + f_plus dec) (f_exp dec) d q.

Theorem format_shortest_ok dec : dec_ok dec ->
  exists ds k, format_shortest dec = Ok (ds, k) /\
    all_digits ds /\ (1 <= length ds <= 17)%nat /\ -400 <= k <= 401 /\
    let q := Z.of_nat (length ds) - k in
    10 ^ (Z.of_nat (length ds) - 1) <= digits_value ds /\
    dec_inside dec (digits_value ds) q /\
    (forall d' q', 0 < d' < 10 ^ (Z.of_nat (length ds) - 1) -> ~ dec_inside dec d' q') /\
    (forall d', dec_inside dec d' q ->
       Z.abs (digits_value ds * scaled_den (f_exp dec) q - scaled_num (f_mant dec) (f_exp dec) q) <=
       Z.abs (d' * scaled_den (f_exp dec) q - scaled_num (f_mant dec) (f_exp dec) q)) /\
    (forall d', dec_inside dec d' q -> digits_value ds < d' ->
       Z.abs (digits_value ds * scaled_den (f_exp dec) q - scaled_num (f_mant dec) (f_exp dec) q) <
       Z.abs (d' * scaled_den (f_exp dec) q - scaled_num (f_mant dec) (f_exp dec) q)).
Proof.
  destruct dec as [mant minus plus e incl]. unfold dec_ok, dec_inside, decimal_inside. cbn [f_mant f_minus f_plus f_exp f_inclusive].
  intros (HM & -> & HPL & HE). assert (HPM : 0 < plus /\ 2 * plus <= mant /\ mant + plus <= 2 ^ 55).
  { change (2 ^ 54) with 18014398509481984 in *. change (2 ^ 55) with 36028797018963968. lia. }
  unfold format_shortest. cbn [f_mant f_minus f_plus f_exp f_inclusive].
  rewrite (Z.mod_small (mant + plus)) by (assert (2 ^ 55 < 2 ^ 64) by reflexivity; lia).
  assert (SC := scale_spec (mant + plus) e ltac:(lia) ltac:(lia)). cbv zeta in SC.
  set (k0 := estimate_scaling_factor (mant + plus) e) in *. clearbody k0.
  destruct (scale_exponents e k0) as [[[s2 s5] m2] m5] eqn:ESE. destruct (scale_exponents_spec _ _ _ _ _ _ ESE) as [ES EC].
  destruct SC as (HK & HC & HS & HLO & HHI).
  set (S := pos_pow 10 k0 * pos_pow 2 (- e)) in *. set (c := pos_pow 10 (- k0) * pos_pow 2 e) in *.
  assert (ED1 : forall k j, k0 <= k <= k0 + 1 ->
     (c * 10 ^ (k0 + 1 - k)) * pow10 j * scaled_den e (Z.of_nat j + 1 - k) = S * scaled_num 1 e (Z.of_nat j + 1 - k)).
  { intros k j Hk. unfold c, S. apply fraction_eq; [exact Hk|reflexivity]. }
  assert (FITS : forall v, 0 <= v <= 100 * S -> bn_fits v) by (intros v Hv; apply fits_small; lia).
  assert (LOOP := fun scale sc2 sc4 sc8 R1 Q2 Q4 Q8 => shortest_loop_ok incl scale sc2 sc4 sc8 S R1 Q2 Q4 Q8 HS).
  apply proj1 in HS. clearbody S c.
  destruct (scaled_correct (bn_of_u32 1) 1 s5 s2) as (scale & E1 & R1); [apply bn_of_u32_correct; lia|lia|rewrite Z.mul_1_l, ES; apply FITS; lia|].
  rewrite Z.mul_1_l, ES in R1. rewrite E1. cbn [bind].
  destruct (scaled_correct (bn_of_u64 mant) mant m5 m2) as (bm & E2 & R2);
    [apply bn_of_u64_correct; assert (2 ^ 54 < 2 ^ 64) by reflexivity; lia|lia|rewrite <- Z.mul_assoc, EC; apply FITS; nia|].
  rewrite <- Z.mul_assoc, EC in R2. rewrite E2. cbn [bind].
  destruct (scaled_correct (bn_of_u64 1) 1 m5 m2) as (bmi & E3 & R3);
    [apply bn_of_u64_correct; lia|lia|rewrite <- Z.mul_assoc, EC; apply FITS; nia|].
  rewrite <- Z.mul_assoc, EC in R3. rewrite E3. cbn [bind].
  destruct (scaled_correct (bn_of_u64 plus) plus m5 m2) as (bpl & E4 & R4);
    [apply bn_of_u64_correct; assert (2 ^ 55 < 2 ^ 64) by reflexivity; lia|lia|rewrite <- Z.mul_assoc, EC; apply FITS; nia|].
  rewrite <- Z.mul_assoc, EC in R4. rewrite E4. cbn [bind].
  destruct (bn_add_correct bm bpl _ _ R2 R4) as (bs & E5 & R5); [apply FITS; nia|]. rewrite E5. cbn [bind].
  rewrite (bn_compare_correct scale bs _ _ R1 R5). cbn [bind].
  (* after the fix-up *)
  assert (FIX : exists k V N P b1 b2 b3,
    (if rounding incl (S ?= mant * c + plus * c) then Ok (wrap i16 (k0 + 1), bm, bmi, bpl)
     else do m <- bn_mul_small bm 10 ;; do mi <- bn_mul_small bmi 10 ;; do p <- bn_mul_small bpl 10 ;; Ok (k0, m, mi, p)) =
    Ok (k, b1, b2, b3) /\ represents b1 V /\ represents b2 N /\ represents b3 P /\ k0 <= k <= k0 + 1 /\
    V = mant * (c * 10 ^ (k0 + 1 - k)) /\ N = 1 * (c * 10 ^ (k0 + 1 - k)) /\ P = plus * (c * 10 ^ (k0 + 1 - k)) /\
    V + P <= 10 * S /\ (incl = true -> V + P < 10 * S) /\ rounding incl (S ?= V + P) = true).
  { destruct (rounding incl (S ?= mant * c + plus * c)) eqn:G.
    - exists (k0 + 1), (mant * c), (1 * c), (plus * c), bm, bmi, bpl. rewrite wrap_i16 by lia.
      replace (k0 + 1 - (k0 + 1)) with 0 by lia. change (10 ^ 0) with 1. rewrite !Z.mul_1_r.
      assert (TT : mant * c + plus * c < 10 * S) by nia.
      repeat match goal with |- _ /\ _ => split end; try (assumption || reflexivity || lia).
    - destruct (rounding_false _ _ _ G) as [G1 G2].
      destruct (bn_mul_small_correct bm _ 10 R2) as (b1 & F1 & Q1); [lia|apply FITS; nia|].
      destruct (bn_mul_small_correct bmi _ 10 R3) as (b2 & F2 & Q2); [lia|apply FITS; nia|].
      destruct (bn_mul_small_correct bpl _ 10 R4) as (b3 & F3 & Q3); [lia|apply FITS; nia|].
      rewrite F1. cbn [bind]. rewrite F2. cbn [bind]. rewrite F3. cbn [bind].
      exists k0, (mant * c * 10), (1 * c * 10), (plus * c * 10), b1, b2, b3.
      replace (k0 + 1 - k0) with 1 by lia. change (10 ^ 1) with 10.
      assert (T1 : mant * c * 10 + plus * c * 10 <= 10 * S) by nia.
      assert (T2 : incl = true -> mant * c * 10 + plus * c * 10 < 10 * S) by (intros Hi; specialize (G2 Hi); nia).
      assert (T3 : rounding incl (S ?= mant * c * 10 + plus * c * 10) = true) by (apply rounding_true; left; nia).
      repeat match goal with |- _ /\ _ => split end; try (assumption || reflexivity || lia). }
  destruct FIX as (k & V & N & P & b1 & b2 & b3 & EF & RV & RN & RP & Hk & EV & EN & EP & T1 & T2 & T3).
  rewrite EF. cbn [bind]. clear EF.
  assert (HC' : 0 < c * 10 ^ (k0 + 1 - k)) by (apply Z.mul_pos_pos; [exact HC|apply Z.pow_pos_nonneg; lia]). set (c' := c * 10 ^ (k0 + 1 - k)) in *.
  assert (ED : forall j, c' * pow10 j * scaled_den e (Z.of_nat j + 1 - k) = S * scaled_num 1 e (Z.of_nat j + 1 - k)) by (intros j; apply ED1; exact Hk).
  clearbody c'. clear ED1.
  destruct (bn_mul_pow2_correct scale S 1 R1) as (sc2 & F2 & Q2); [lia|apply FITS; change (2 ^ Z.of_nat 1) with 2; lia|].
  destruct (bn_mul_pow2_correct scale S 2 R1) as (sc4 & F4 & Q4); [lia|apply FITS; change (2 ^ Z.of_nat 2) with 4; lia|].
  destruct (bn_mul_pow2_correct scale S 3 R1) as (sc8 & F8 & Q8); [lia|apply FITS; change (2 ^ Z.of_nat 3) with 8; lia|].
  change (2 ^ Z.of_nat 1) with 2 in Q2. change (2 ^ Z.of_nat 2) with 4 in Q4. change (2 ^ Z.of_nat 3) with 8 in Q8.
  rewrite F2. cbn [bind]. rewrite F4. cbn [bind]. rewrite F8. cbn [bind].
  assert (HV0 : 0 < V) by nia. assert (HN0 : 0 < N) by lia. assert (HP0 : 0 < P) by nia. assert (HP2 : 2 * P <= V) by nia.
  assert (HNS : N <= 10 * S) by nia.
  assert (HRO : S < (N + P) * pow10 (max_digits10 - 1)).
  { change (pow10 (max_digits10 - 1)) with 10000000000000000. assert (U := proj1 (rounding_true _ _ _) T3).
    assert (SVP : S <= V + P) by lia. rewrite EV, EN, EP in *. clear - SVP HM HPL HC'. change (2 ^ 54) with 18014398509481984 in *.
    destruct HPL as [->|[-> ->]]; nia. }
  assert (HR0 : (0 < max_digits10)%nat) by (unfold max_digits10; lia).
  destruct (LOOP scale sc2 sc4 sc8 R1 Q2 Q4 Q8 max_digits10 b1 b2 b3 V N P [] RV RN RP
              (Z.lt_le_incl _ _ HV0) HN0 HP0 T1 HNS HRO HR0)
    as (j & ds & bm' & Hj & HL & HA & EL & RM & EDV & EST & ENO).
  rewrite EL. cbn [bind app].
  assert (HS1 : 0 < S) by lia.
  assert (HI := core_inside incl S V N P HS1 HV0 HN0 HP0 HP2 T1 T2 j EST ENO).
  assert (HR := core_range incl S V N P HS1 HV0 HN0 HP0 HP2 T1 T2 T3 j EST ENO).
  assert (HCL := core_closest incl S V N P HS1 HV0 HP0 HP2 T1 T2 j EST ENO).
  assert (HAB := core_above incl S V N P HS1 HV0 HP0 HP2 T1 T2 j ENO).
  assert (HNC := fun i Hi => no_coarser incl S V N P HS1 HV0 HP0 HP2 T1 T2 i (proj1 (ENO i Hi)) (proj2 (ENO i Hi))).
  (* the digits *)
  assert (RES : exists ds', (
    do roundup <- (if stop_up incl S V P j then
                     if negb (stop_down incl S V N j) then Ok true
                     else do mant0 <- bn_mul_pow2 bm' 1 ;; bn_ge mant0 scale
                   else Ok false) ;;
    if roundup : bool then
      match round_up ds with
      | (dst, None) => Ok (dst, k)
      | (dst, Some c0) => if (length dst <? max_digits10)%nat then Ok (dst ++ [c0], wrap i16 (k + 1)) else Undef
      end
    else Ok (ds, k)) = Ok (ds', k) /\ length ds' = (j + 1)%nat /\ all_digits ds' /\ digits_value ds' = result_d incl S V N P j).
  { unfold result_d in *. set (up := goes_up incl S V N P j) in *.
    assert (EUP : (if stop_up incl S V P j then
                     if negb (stop_down incl S V N j) then Ok true
                     else do mant0 <- bn_mul_pow2 bm' 1 ;; bn_ge mant0 scale
                   else Ok false) = Ok up).
    { unfold up, goes_up. destruct (stop_up incl S V P j) eqn:GU; [|reflexivity].
      destruct (stop_down incl S V N j) eqn:GD; [|reflexivity]. cbn [negb andb orb].
      assert (BM := Z.mod_pos_bound (V * pow10 j) S ltac:(lia)).
      destruct (Z.eq_dec ((V * pow10 j) mod S) 0) as [Z0|Z0].
      - (* zero times two *)
        rewrite Z0 in *. destruct (represents_elim _ _ RM) as (l0 & EB0 & HL0 & HS0 & FL0 & HN1 & HV1 & HD0).
        assert (SZ : bn_size bm' = 0%nat).
        { destruct HD0 as [|HD0]; [assumption|]. assert (PP := pw_pos (bn_size bm' - 1)). lia. }
        assert (EBM : bm' = mk_bn 0 (repeat 0 34)).
        { rewrite SZ in *. destruct l0; [|discriminate HL0]. cbn [app Nat.sub] in EB0.
          destruct bm' as [sz bs']. cbn [bn_size bn_base] in SZ, EB0. now rewrite SZ, EB0. }
        rewrite EBM. change (bn_mul_pow2 (mk_bn 0 (repeat 0 34)) 1) with (Ok (mk_bn 0 (repeat 0 34))). cbn [bind].
        rewrite <- EBM. rewrite (bn_ge_correct bm' scale 0 S RM R1). reflexivity.
      - destruct (bn_mul_pow2_correct bm' _ 1 RM) as (bm2 & FM & QM); [lia|change (2 ^ Z.of_nat 1) with 2; apply FITS; lia|].
        rewrite FM. cbn [bind]. change (2 ^ Z.of_nat 1) with 2 in QM. rewrite (bn_ge_correct bm2 scale _ S QM R1). reflexivity. }
    rewrite EUP. cbn [bind]. clear EUP. destruct up eqn:GUP.
    - assert (RU := round_up_spec ds HA). destruct (round_up ds) as [d' [c0|]].
      + exfalso. destruct RU as [RU _]. rewrite HL in RU. replace (j + 1)%nat with (Datatypes.S j) in RU by lia. fold (pow10 (Datatypes.S j)) in RU. lia.
      + destruct RU as (U1 & U2 & U3). exists d'. rewrite U1, U3, EDV. auto.
    - exists ds. auto. }
  destruct RES as (ds' & ER & L' & A' & V'). rewrite ER. exists ds', k.
  split; [reflexivity|]. split; [exact A'|]. rewrite L'. unfold max_digits10 in Hj. split; [lia|]. split; [lia|]. cbv zeta.
  replace (Z.of_nat (j + 1) - 1) with (Z.of_nat j) by lia. fold (pow10 j).
  replace (Z.of_nat (j + 1) - k) with (Z.of_nat j + 1 - k) by lia. rewrite V'.
  assert (CONV : forall i d, inside incl ((V - N) * pow10 i) (d * S) ((V + P) * pow10 i) <->
     inside incl (scaled_num (mant - 1) e (Z.of_nat i + 1 - k)) (d * scaled_den e (Z.of_nat i + 1 - k)) (scaled_num (mant + plus) e (Z.of_nat i + 1 - k))).
  { intros i d. rewrite (scaled_num_1 (mant - 1)), (scaled_num_1 (mant + plus)).
    replace ((V - N) * pow10 i) with ((mant - 1) * (c' * pow10 i)) by (subst V N; ring).
    replace ((V + P) * pow10 i) with ((mant + plus) * (c' * pow10 i)) by (subst V P; ring).
    apply inside_frac; [lia|apply scaled_den_pos|apply ED]. }
  split; [lia|]. split; [apply CONV; exact HI|]. split; [|split].
  - (* shortest *)
    intros d' q' Hd' HIN.
    assert (J1 : (1 <= j)%nat) by (destruct j; [rewrite pow10_0 in Hd'; lia|lia]).
    fold (decimal_inside incl (mant - 1) (mant + plus) e d' q') in HIN.
    assert (LEV : forall d i, (i < j)%nat -> ~ decimal_inside incl (mant - 1) (mant + plus) e d (Z.of_nat i + 1 - k)).
    { intros d i Hi HD. apply CONV in HD. exact (HNC i Hi d HD). }
    destruct (Z_lt_ge_dec q' (Z.of_nat j + 1 - k)) as [G|G].
    + destruct (Z_lt_ge_dec q' (1 - k)) as [G0|G0].
      * apply (decimal_inside_shift _ _ _ _ _ _ (1 - k - q') ltac:(lia)) in HIN.
        replace (q' + (1 - k - q')) with (Z.of_nat 0 + 1 - k) in HIN by lia. exact (LEV _ 0%nat ltac:(lia) HIN).
      * replace q' with (Z.of_nat (Z.to_nat (q' + k - 1)) + 1 - k) in HIN by lia. refine (LEV _ _ _ HIN); lia.
    + (* a finer one, below the power of ten, which is inside as well *)
      refine (LEV 1 0%nat ltac:(lia) _). apply CONV. rewrite pow10_0, !Z.mul_1_r, Z.mul_1_l.
      set (t := q' + k - 1). assert (Ht : Z.of_nat j <= t) by (unfold t; lia).
      assert (PT : pow10 j <= 10 ^ t) by (apply Z.pow_le_mono_r; lia).
      assert (LOW : V - N < S).
      { assert (X : scaled_num (mant - 1) e q' < 10 ^ t * scaled_den e q').
        { assert (WP := scaled_den_pos e q'). unfold decimal_inside, inside in HIN. 
          assert (HX : scaled_num (mant - 1) e q' <= d' * scaled_den e q') by (destruct HIN as [HIN|[_ HIN]]; lia).
          assert (HY : d' < 10 ^ t) by lia. clear - WP HX HY. nia. }
        rewrite scaled_num_1 in X.
        assert (SH := shift_frac e (1 - k) t ltac:(lia)). replace (1 - k + t) with q' in SH by (unfold t; lia).
        assert (Y := proj2 (frac_gt _ _ _ _ (10 ^ t) (mant - 1) (scaled_den_pos e (1 - k)) (scaled_den_pos e q') SH) X).
        assert (E0 := ED 0%nat). rewrite pow10_0, Z.mul_1_r in E0. replace (Z.of_nat 0 + 1 - k) with (1 - k) in E0 by lia.
        assert (Y' : (mant - 1) * scaled_num 1 e (1 - k) < 1 * scaled_den e (1 - k)).
        { apply (Zmult_lt_reg_r _ _ (10 ^ t)); [lia|]. lia. }
        assert (Z1 := proj2 (frac_gt _ _ _ _ 1 (mant - 1) HS1 (scaled_den_pos e (1 - k)) E0) Y'). subst V N. lia. }
      assert (U := proj1 (rounding_true _ _ _) T3). unfold inside. destruct U as [U|[Hi U]]; [left; lia|right; split; [exact Hi|lia]].
  - intros d' HIN. apply CONV in HIN. specialize (HCL d' HIN).
    rewrite (scaled_num_1 mant). apply (abs_frac (c' * pow10 j) S); [exact HS1|apply scaled_den_pos|apply Z.mul_pos_pos; [exact HC'|apply pow10_pos]|apply ED|].
    replace (mant * (c' * pow10 j)) with (V * pow10 j) by (subst V; ring). exact HCL.
  - intros d' HIN HD. apply CONV in HIN. specialize (HAB d' HIN HD).
    rewrite (scaled_num_1 mant). apply (abs_frac_lt (c' * pow10 j) S); [exact HS1|apply scaled_den_pos|apply Z.mul_pos_pos; [exact HC'|apply pow10_pos]|apply ED|].
    replace (mant * (c' * pow10 j)) with (V * pow10 j) by (subst V; ring). exact HAB.
Qed.
