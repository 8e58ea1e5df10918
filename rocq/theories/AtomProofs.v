(** The size of the pieces in which core values are written. *)
From Verif Require Import Base Conversion Reader Buffer Writer Specs FormatArg Dragon FloatArg Lib SpecNum SpecEscape SpecFloat SpecFormat SpecDecimal SpecField.
From Verif Require Import ConversionProofs BufferProofs Emits WriterProofs CallProofs FormatArgProofs FloatArgProofs DragonProofs ExactProofs ReadBack DoubleProofs FloatTextProofs FieldProofs.
From Verif Require Import SpecSpecs Format SpecString.

Lemma atoms_pad m s a n ops : atoms_within m ops -> atoms_within m (pad_ops s a n ops).
Proof.
  intros H. unfold pad_ops. destruct (pads _ _ _) as [l r]. apply atoms_within_app. split; [repeat constructor|]. apply atoms_within_app. split; [exact H|repeat constructor].
Qed.
Lemma sign_text_length s neg : (length (sign_text s neg) <= 1)%nat.
Proof. destruct (sign_text_cases s neg) as [E|[E _]]; rewrite E; cbn; lia. Qed.
Lemma atoms_chars m l : (1 <= m)%nat -> atoms_within m (map (fun c => Atom [c]) l).
Proof. intros H. apply Forall_forall. intros o HI. apply in_map_iff in HI. destruct HI as (c & <- & _). cbn. exact H. Qed.
Lemma atoms_number m s neg prefix rest : (1 + length prefix + length rest <= m)%nat -> atoms_within m (number_ops s neg prefix rest).
Proof.
  intros H. assert (HS := sign_text_length s neg). unfold number_ops, sign_ops. destruct (sp_zero_flag s).
  - apply atoms_within_app. split; [apply atoms_chars; lia|]. apply atoms_within_app. split; [repeat constructor|]. apply atoms_pad. constructor; [cbn; lia|constructor].
  - apply atoms_pad. constructor; [|constructor]. rewrite !app_length. lia.
Qed.
Lemma atoms_int s v : Z.abs v < 2 ^ 64 -> atoms_within 128 (int_ops s v).
Proof.
  intros H. unfold int_ops. destruct (sp_type s =? 99); [apply atoms_pad; repeat constructor; cbn; lia|].
  destruct (int_options (sp_type s)) as [[[prefix base] upper]|] eqn:E; [|constructor].
  assert (B : 2 <= base <= 36 /\ (length prefix <= 2)%nat).
  { unfold int_options in E. cbn [find int_types fst snd] in E.
    repeat match type of E with context[if ?b then _ else _] => destruct b; [injection E as <- <- <-; cbn; lia|] end. discriminate. }
  apply atoms_number. assert (L := numeral_length_64 base upper (Z.abs v) (proj1 B) ltac:(lia)).
  assert (LU : (length (used_prefix s v prefix) <= 2)%nat) by (unfold used_prefix; destruct (_ && _); cbn; lia). lia.
Qed.

Lemma zeros_length n : Z.of_nat (length (zeros n)) = Z.max 0 n.
Proof. unfold zeros. rewrite repeat_length. lia. Qed.
Lemma significant_length g ds : (length (significant g ds) <= length ds)%nat.
Proof. unfold significant. destruct (_ && _); [rewrite firstn_length; lia|lia]. Qed.
Lemma exp_text_length x : -1000 < x < 1000 -> (length (exp_text x) <= 5)%nat.
Proof.
  intros H. unfold exp_text. rewrite !app_length. assert (L : (length (numeral 10 false (Z.abs x)) <= 3)%nat).
  { destruct (le_lt_dec (length (numeral 10 false (Z.abs x))) 3) as [L|L]; [exact L|].
    destruct (proj1 (numeral_length_bounds 10 false (Z.abs x) _ ltac:(lia) ltac:(lia) (Nat.le_trans 1 4 _ ltac:(lia) L)) eq_refl) as [[B|B] _]; [|lia].
    assert (10 ^ 3 <= 10 ^ Z.of_nat (length (numeral 10 false (Z.abs x)) - 1)) by (apply Z.pow_le_mono_r; lia). lia. }
  destruct (x <? 0), (Z.abs x <? 10); cbn [length]; lia.
Qed.

Lemma exp_body_length fp sig x : (1 <= length sig <= 101)%nat -> fp_precision fp <= 101 -> -1000 < x < 1000 -> (length (exp_body fp sig x) <= 127)%nat.
Proof.
  intros HL HP HX. assert (E := exp_text_length x HX). unfold exp_body. rewrite !app_length. assert (Z1 := zeros_length (fp_precision fp - zlen sig)). unfold zlen in *.
  rewrite firstn_length. destruct (fp_showpoint fp); cbn [orb]; [|destruct (1 <? length sig)%nat]; rewrite ?app_length, ?skipn_length; cbn [length]; lia.
Qed.
Lemma general_body_length fp alt sig x : (1 <= length sig <= 100)%nat -> fp_fmt fp = fp_general -> fp_showpoint fp = alt -> fp_precision fp <= 100 -> -4 <= x < 100 ->
  (length (fixed_body fp alt sig x) <= 127)%nat.
Proof.
  intros HL HG HS HP HX. unfold fixed_body, fp_is_general, fp_is_fixed. rewrite HG, HS, andb_true_r. cbn [andb]. unfold zlen in *.
  assert (Z1 := zeros_length (- x - 1)). assert (Z2 := zeros_length (fp_precision fp - Z.of_nat (length sig))). assert (Z3 := zeros_length (x + 1 - Z.of_nat (length sig))). assert (Z4 := zeros_length (fp_precision fp - (x + 1))).
  destruct (x <? 0) eqn:E1; [|destruct (Z.of_nat (length sig) <=? x + 1) eqn:E2]; destruct alt; rewrite ?app_length, ?firstn_length, ?skipn_length; cbn [length]; lia.
Qed.
Lemma fixed_body_length fp alt sig x : fp_fmt fp = fp_fixed -> fp_precision fp <= 100 -> x <= 20 -> 1 <= zlen sig ->
  zlen sig = 1 /\ x = 0 \/ zlen sig <= x + 1 + fp_precision fp ->
  (length (fixed_body fp alt sig x) <= 127)%nat.
Proof.
  intros HG HP HX HL HS. unfold fixed_body, fp_is_general, fp_is_fixed. rewrite HG, andb_false_r. cbn [andb]. unfold zlen in *.
  assert (Z1 := zeros_length (- x - 1)). assert (Z3 := zeros_length (x + 1 - Z.of_nat (length sig))). assert (Z4 := zeros_length (fp_precision fp)).
  assert (Z5 := zeros_length (fp_precision fp - (Z.of_nat (length sig) - (x + 1)))).
  destruct (x <? 0) eqn:E1; [|destruct (Z.of_nat (length sig) <=? x + 1) eqn:E2]; rewrite ?app_length, ?firstn_length, ?skipn_length.
  - cbn [length]. lia.
  - destruct (fp_showpoint fp); rewrite ?app_length; [destruct (x + 1 =? Z.of_nat (length sig))|]; cbn [length]; lia.
  - destruct (_ <? fp_precision fp) eqn:E3; cbn [length]; lia.
Qed.

Lemma magnitude_bound m e k : m * pos_pow 2 e < 10 ^ 20 * pos_pow 2 (- e) -> magnitude m e k -> k <= 20.
Proof.
  intros HS [HM _]. destruct (Z.le_gt_cases k 20) as [H|H]; [exact H|exfalso]. unfold scaled_den, scaled_num in HM.
  replace (pos_pow 10 (1 - k)) with 1 in HM by (unfold pos_pow; now rewrite Z.max_r by lia). replace (- (1 - k)) with (k - 1) in HM by lia.
  assert (P : 10 ^ 20 <= pos_pow 10 (k - 1)) by (unfold pos_pow; apply Z.pow_le_mono_r; lia). assert (0 < pos_pow 2 (- e)) by (unfold pos_pow; apply Z.pow_pos_nonneg; lia). nia.
Qed.

Lemma double_body_length s bits r : is_finite_double bits -> In (sp_type s) float_types -> -1 <= sp_precision s <= 100 -> below_1e20 bits ->
  float_digits s bits = Ok r -> (length (fp_body (parse_fp_format_specs s) (sp_alternate_form s) r) <= 127)%nat.
Proof.
  intros HF HT HP HB HR. assert (HPF : precision_fits s) by (unfold precision_fits; lia). destruct HB as [HB|HB]; [exfalso; now apply (proj2 HF)|].
  destruct (fp_fields s HT HPF) as (_ & F1 & F2 & F3). cbv zeta in *. set (fp := parse_fp_format_specs s) in *.
  assert (C : (sp_type s = 101 \/ sp_type s = 69) \/ (sp_type s = 102 \/ sp_type s = 70) \/ (sp_type s = 0 \/ sp_type s = 103 \/ sp_type s = 71)).
  { unfold float_types in HT. cbn in HT. lia. }
  destruct (float_digits_ok s bits HF HT HPF) as (ds & k & E & OK). rewrite E in HR. injection HR as <-.
  assert (S1 := digits_ok_sig (fp_is_general fp) ds k OK). assert (S2 := significant_length (fp_is_general fp) ds). destruct OK as (A & L & K & _).
  unfold fp_body. cbn [fst snd]. destruct C as [C|[C|C]].
  - destruct (F1 C) as (FF & FP & _). assert (HN : 1 <= fp_precision fp <= 101) by (rewrite FP; destruct (sp_precision s =? -1) eqn:?; lia).
    unfold fp_scientific. rewrite FF. apply exp_body_length; [|lia|lia]. split; [exact S1|]. etransitivity; [exact S2|].
    destruct (Z.eq_dec (double_m bits) 0) as [HM|HM]; [rewrite (float_digits_zero s bits HF HM) in E; injection E as <- <-; cbn; lia|].
    unfold float_digits, format_decimal in E. fold fp in E. rewrite (decode_finite bits HF HM), FF in E.
    destruct (significand_double bits (fp_precision fp) HF HM ltac:(lia)) as (ds' & k' & k1 & E' & _ & L' & _). rewrite E' in E. injection E as -> ->. lia.
  - destruct (F2 C) as (FF & FP & _). assert (HN : 0 <= fp_precision fp <= 100) by (rewrite FP; destruct (sp_precision s =? -1) eqn:?; lia).
    unfold fp_scientific. rewrite FF. assert (ES : significant (fp_is_general fp) ds = ds) by (unfold significant, fp_is_general; now rewrite FF). rewrite ES in *.
    assert (D : k <= 21 /\ (zlen ds = 1 /\ k = 1 \/ zlen ds <= k + fp_precision fp)).
    { destruct (Z.eq_dec (double_m bits) 0) as [HM|HM]; [rewrite (float_digits_zero s bits HF HM) in E; injection E as <- <-; unfold zlen; cbn; lia|].
      unfold float_digits, format_decimal in E. fold fp in E. rewrite (decode_finite bits HF HM), FF in E.
      destruct (decimal_double bits _ HF HM (proj1 HN)) as (ds' & k' & E' & _ & _ & H). rewrite E' in E. cbn [bind fst] in E.
      destruct ds' as [|c ds']; [cbn [length Nat.eqb] in E; injection E as <- <-; unfold zlen; cbn; lia|].
      cbn [length Nat.eqb] in E. injection E as <- <-. cbv zeta in H. unfold zlen. destruct H as (_ & _ & [(X & [M|M])|(X & _ & M)]).
      - apply (magnitude_bound _ _ _ HB) in M. lia.
      - lia.
      - apply (magnitude_bound _ _ _ HB) in M. lia. }
    apply fixed_body_length; auto; lia.
  - destruct (F3 C) as (FF & FS & FP). assert (HN : -1 <= fp_precision fp <= 100) by (rewrite FP; destruct (sp_precision s =? -1) eqn:?; [destruct (sp_type s =? 0) eqn:?|]; lia).
    assert (DL : (length ds <= 100)%nat).
    { destruct (Z.eq_dec (double_m bits) 0) as [HM|HM]; [rewrite (float_digits_zero s bits HF HM) in E; injection E as <- <-; cbn; lia|].
      unfold float_digits, format_decimal in E. fold fp in E. rewrite (decode_finite bits HF HM), FF in E. change no_precision with (-1) in E. destruct (fp_precision fp =? -1) eqn:EP.
      + destruct (shortest_double bits HF HM) as (ds' & k' & E' & _ & L' & _). rewrite E' in E. injection E as <- <-. lia.
      + assert (HN1 : 1 <= fp_precision fp) by (rewrite FP in EP |- *; destruct (sp_precision s =? -1) eqn:?; [destruct (sp_type s =? 0) eqn:?|]; lia).
        destruct (significand_double bits _ HF HM HN1) as (ds' & k' & k1 & E' & _ & L' & _). rewrite E' in E. injection E as -> ->. lia. }
    destruct (fp_scientific fp (k - 1)) eqn:SC.
    + apply exp_body_length; lia.
    + unfold fp_scientific in SC. rewrite FF in SC. apply orb_false_iff in SC. destruct SC as [SC1 SC2]. apply general_body_length; auto; [lia|lia|].
      destruct (0 <? fp_precision fp); lia.
Qed.

Definition short_arg (s : format_specs) (a : carg) : Prop :=
  match a with ADouble bits => sp_precision s <= 100 /\ below_1e20 bits | _ => True end.

Lemma atoms_double s bits : arg_specs (ADouble bits) s -> short_arg s (ADouble bits) -> atoms_within 128 (double_ops s bits).
Proof.
  intros (HA & _ & HS & HC) [HP HB]. cbn [carg_ok type_of check_specs] in HA, HC. destruct (float_check s HS HC) as (H1 & H2 & _). unfold double_ops. cbv zeta.
  destruct (decode_ok bits HA) as (_ & HZ & HFin & _).
  assert (NF : forall s' n t, atoms_within 128 (pad_ops s' align_left n (map (fun c => Atom [c]) (sign_text s' (bits_negative bits)) ++ [Chunk t]))).
  { intros s' n t. apply atoms_pad, atoms_within_app. split; [apply atoms_chars; lia|repeat constructor]. }
  assert (FC : is_finite_double bits -> atoms_within 128 match float_digits s bits with
    | Ok r => number_ops s (bits_negative bits) [] (fp_body (parse_fp_format_specs s) (sp_alternate_form s) r) | _ => [] end).
  { intros HF. destruct (float_digits_ok s bits HF H1 H2) as (ds & k & E & _). assert (L := double_body_length s bits _ HF H1 (conj (proj1 H2) HP) HB E). rewrite E.
    apply atoms_number. cbn [length]. lia. }
  destruct (d_category (decode bits)); try apply NF; apply FC; [apply HZ|apply HFin]; reflexivity.
Qed.

Theorem atoms_arg a s : arg_specs a s -> short_arg s a -> atoms_within 128 (arg_ops s a).
Proof.
  intros H HS. destruct a as [v|c|t v|bits|p|t]; cbn [arg_ops].
  - unfold bool_ops. destruct (_ || _); [apply atoms_pad; repeat constructor|apply atoms_int; destruct v; cbn; lia].
  - unfold char_ops. destruct H as (HA & _). cbn in HA. destruct (_ =? ch_question); [apply atoms_pad; repeat constructor|].
    destruct (_ || _); [apply atoms_pad; repeat constructor; cbn; lia|apply atoms_int; unfold is_byte in *; lia].
  - destruct H as (HA & _). destruct HA as [[<-|[<-|[<-|[<-|[]]]]] HR]; apply atoms_int; unfold in_range in HR; cbn in HR; lia.
  - now apply atoms_double.
  - destruct H as (HA & _). cbn in HA. apply atoms_int. lia.
  - unfold str_ops. cbv zeta. destruct (_ =? ch_question); apply atoms_pad; repeat constructor.
Qed.
