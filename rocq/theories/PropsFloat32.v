(** C55: arguments of type float. *)
From Verif Require Import Base Conversion Buffer Writer Bignum Dragon Specs FormatArg FloatArg Format Float32.
From Verif Require Import Lib SpecNum SpecEscape SpecWriter SpecFloat SpecFloat32 SpecFormat SpecDecimal SpecField.
From Verif Require Import ExactProofs ReadBack Float32Proofs PropsFloat PropsWriter PropsField PropsFormat SpecField.

(** The floats used in the examples. *)
Definition f_0_1 : Z := 1036831949.                       (* 0.1f *)
Definition f_min : Z := 1.                                (* the smallest, subnormal *)
Definition f_max : Z := 2139095039.                       (* the largest *)

(** A finite float is formatted as the one double with its sign and value. *)
Theorem C55_exact : forall b, is_finite_float b ->
  exists bits, AFloat b = ADouble bits /\ is_finite_double bits /\ bits_negative bits = float_negative b /\ double_n bits = float_n b /\
    forall bits', is_finite_double bits' -> bits_negative bits' = float_negative b -> double_n bits' = float_n b -> bits' = bits.
Proof.
  intros b H. destruct (float_exact b H) as (HF & HS & HN). exists (float_to_double b). split; [reflexivity|]. split; [exact HF|]. split; [exact HS|]. split; [exact HN|].
  intros x HX SX NX. apply double_determined; auto; congruence.
Qed.
Print Assumptions C55_exact.

(** Infinities and NaNs stay what they are. *)
Theorem C55_special : forall b, exists bits, AFloat b = ADouble bits /\
  (float_infinity b -> is_infinity bits /\ bits_negative bits = float_negative b) /\
  (float_nan b -> is_nan bits /\ bits_negative bits = float_negative b).
Proof. intros b. exists (float_to_double b). split; [reflexivity|]. apply float_special. Qed.
Print Assumptions C55_special.

(** The digits printed for a float without specification, read as float, give the
    float. *)
Theorem C55_reads_back : forall b, is_finite_float b -> float_m b <> 0 ->
  exists bits ds k, AFloat b = ADouble bits /\ format_shortest (d_finite (decode bits)) = Ok (ds, k) /\ all_digits ds /\
    reads_back_float (digits_value ds) (Z.of_nat (length ds) - k) b.
Proof.
  intros b H HM. destruct (float_exact b H) as (HF & _ & HN).
  assert (HD : double_m (float_to_double b) <> 0).
  { intros X. unfold double_n in HN. rewrite X, Z.mul_0_l in HN. unfold float_n in HN. destruct (float_range b H) as (_ & E & _). assert (0 < 2 ^ (float_e b + 1074)) by (apply Z.pow_pos_nonneg; lia). symmetry in HN. apply Z.mul_eq_0 in HN. lia. }
  destruct (C33_reads_back _ HF HD) as (ds & k & E & A & R). exists (float_to_double b), ds, k. split; [reflexivity|]. split; [exact E|]. split; [exact A|]. now apply reads_back_narrow.
Qed.
Print Assumptions C55_reads_back.

(** Different floats become different arguments. *)
Theorem C55_injective : forall b b', is_finite_float b -> is_finite_float b' -> AFloat b = AFloat b' -> b = b'.
Proof.
  intros b b' H H' [= E]. destruct (float_exact b H) as (_ & S & N), (float_exact b' H') as (_ & S' & N'). rewrite E in S, N. rewrite S' in S. rewrite N' in N.
  destruct H as [HF HX], H' as [HF' HX']. assert (R := float_range b (conj HF HX)). assert (R' := float_range b' (conj HF' HX')).
  assert (EE : float_e b = float_e b').
  { unfold float_n in N. destruct R as (M & F & C), R' as (M' & F' & C'). destruct (Z.lt_trichotomy (float_e b) (float_e b')) as [L|[L|L]]; [exfalso|exact L|exfalso].
    - assert (EQ : 2 ^ (float_e b' + 1074) = 2 ^ (float_e b' - float_e b) * 2 ^ (float_e b + 1074)) by (rewrite <- Z.pow_add_r by lia; f_equal; lia). rewrite EQ, Z.mul_assoc in N.
      assert (0 < 2 ^ (float_e b + 1074)) by (apply Z.pow_pos_nonneg; lia). apply Z.mul_reg_r in N; [|lia]. assert (2 <= 2 ^ (float_e b' - float_e b)) by (change 2 with (2 ^ 1) at 1; apply Z.pow_le_mono_r; lia).
      assert (2 ^ 23 * 2 <= float_m b' * 2 ^ (float_e b' - float_e b)) by (apply Z.mul_le_mono_nonneg; lia). lia.
    - assert (EQ : 2 ^ (float_e b + 1074) = 2 ^ (float_e b - float_e b') * 2 ^ (float_e b' + 1074)) by (rewrite <- Z.pow_add_r by lia; f_equal; lia). rewrite EQ, Z.mul_assoc in N.
      assert (0 < 2 ^ (float_e b' + 1074)) by (apply Z.pow_pos_nonneg; lia). apply Z.mul_reg_r in N; [|lia]. assert (2 <= 2 ^ (float_e b - float_e b')) by (change 2 with (2 ^ 1) at 1; apply Z.pow_le_mono_r; lia).
      assert (2 ^ 23 * 2 <= float_m b * 2 ^ (float_e b - float_e b')) by (apply Z.mul_le_mono_nonneg; lia). lia. }
  unfold float_n in N. rewrite EE in N. assert (0 < 2 ^ (float_e b' + 1074)) by (apply Z.pow_pos_nonneg; lia). apply Z.mul_reg_r in N; [|lia].
  destruct (float_split b HF) as (s & e & m & EB & Hs & He & Hm & _ & E1 & E2 & E3), (float_split b' HF') as (s' & e' & m' & EB' & Hs' & He' & Hm' & _ & E1' & E2' & E3').
  clear R R'. rewrite EB, EB'. unfold float_m, float_e in *. rewrite E1, E1', E2, E2', E3, E3' in *. assert (s = s') as -> by lia. destruct (e =? 0) eqn:G, (e' =? 0) eqn:G'; f_equal; try lia; f_equal; lia.
Qed.
Print Assumptions C55_injective.

(** With every specification a finite float prints the field of a double of its sign
    and value (which determine the text by [C55_exact] and [C37_field_unique]). *)
Theorem C55_field : forall b s, is_finite_float b -> arg_specs (AFloat b) s -> ~ deviates s (AFloat b) ->
  exists bits out, is_finite_double bits /\ bits_negative bits = float_negative b /\ double_n bits = float_n b /\
    double_field s bits out /\ prints (fun buf => write_arg mem_vt buf s (AFloat b)) out.
Proof.
  intros b s H HA HD. destruct (float_exact b H) as (HF & HS & HN). destruct (C37_double_field (float_to_double b) s HA HD) as (out & F & P).
  exists (float_to_double b), out. auto.
Qed.
Print Assumptions C55_field.
(** Infinities and NaNs print their name. *)
Theorem C55_special_field : forall b s, float_infinity b \/ float_nan b -> arg_specs (AFloat b) s -> ~ deviates s (AFloat b) ->
  exists bits out, (float_infinity b /\ is_infinity bits \/ float_nan b /\ is_nan bits) /\ bits_negative bits = float_negative b /\
    double_field s bits out /\ prints (fun buf => write_arg mem_vt buf s (AFloat b)) out.
Proof.
  intros b s H HA HD. destruct (float_special b) as [I N]. destruct (C37_double_field (float_to_double b) s HA HD) as (out & F & P).
  exists (float_to_double b), out. destruct H as [H|H]; [destruct (I H) as [A B]|destruct (N H) as [A B]]; auto.
Qed.
Print Assumptions C55_special_field.

(** But they are not the shortest digits that are read as the float: 0.1f is printed
    as 0.10000000149011612. *)
Theorem C55_shortest_refuted : exists b bits ds k d q,
  is_finite_float b /\ float_m b <> 0 /\ AFloat b = ADouble bits /\ format_shortest (d_finite (decode bits)) = Ok (ds, k) /\
  reads_back_float d q b /\ 0 < d < 10 ^ 1 /\ (length ds = 17)%nat.
Proof.
  exists f_0_1, 4591870180174331904, (str "10000000149011612"), 0, 1, 1.
  assert (F : is_finite_float f_0_1) by (split; [vm_compute; split; [discriminate|reflexivity]|vm_compute; discriminate]).
  split; [exact F|]. split; [vm_compute; discriminate|]. split; [vm_compute; reflexivity|]. split; [vm_compute; reflexivity|].
  split; [|split; [vm_compute; split; reflexivity|reflexivity]]. apply reads_back_near; [exact F|vm_compute; reflexivity|vm_compute; reflexivity].
Qed.
Print Assumptions C55_shortest_refuted.

Example C55_example :
  is_finite_float f_0_1 /\ float_m f_0_1 <> 0 /\ is_finite_float f_min /\ float_m f_min <> 0 /\ is_finite_float f_max /\
  format_shortest (d_finite (decode (float_to_double f_max))) = Ok (str "34028234663852886", 39) /\
  format_shortest (d_finite (decode (float_to_double f_min))) = Ok (str "1401298464324817", -44) /\
  float_infinity 2139095040 /\ float_nan 2139095041.
Proof.
  repeat split; try discriminate; try (vm_compute; discriminate); try (vm_compute; reflexivity).
Qed.

(** test/unit_test/test_format.cpp:409 *)
Example C55_test : forall b, b = 1316166528 ->
  is_finite_float b /\ float_n b = 1019666432 * 2 ^ 1074 /\
  arg_specs (AFloat b) default_specs /\ ~ deviates default_specs (AFloat b) /\
  run (str "{}") [(FCore TDouble, VCore (AFloat b))] = Ok (Ok tt, str "1019666432") /\
  run (str "{}") [(FCore TDouble, VCore (AFloat f_0_1))] = Ok (Ok tt, str "0.10000000149011612") /\
  run (str "{:.3f} {}") [(FCore TDouble, VCore (AFloat f_0_1)); (FCore TDouble, VCore (AFloat (2 ^ 31 + 2139095040)))] = Ok (Ok tt, str "0.100 -inf").
Proof.
  intros b ->.
  split; [split; [vm_compute; split; [discriminate|reflexivity]|vm_compute; discriminate]|]. split; [vm_compute; reflexivity|].
  split; [split; [vm_compute; split; [discriminate|reflexivity]|]; split; [exact Logic.I|]; split; [specs|reflexivity]|]. split; [intros (_ & [D|D] & _); discriminate D|].
  split; [vm_compute; reflexivity|]. split; vm_compute; reflexivity.
Qed.
