(** Proofs about [write_arg] for all core types. *)
From Verif Require Import Base Conversion Reader Buffer Writer Specs FormatArg Dragon FloatArg Lib SpecNum SpecEscape SpecFloat SpecFormat SpecDecimal SpecField.
From Verif Require Import ConversionProofs BufferProofs Emits WriterProofs CallProofs FormatArgProofs FloatArgProofs DragonProofs ExactProofs DoubleProofs FloatTextProofs.

Definition arg_ops (s : format_specs) (a : carg) : list op :=
  match a with
  | ABool v => bool_ops s v
  | AChar c => char_ops s c
  | AInt _ v => int_ops s v
  | ADouble bits => double_ops s bits
  | APtr p => ptr_ops s p
  | AStr t => str_ops s t
  end.
Definition arg_outcome (s : format_specs) (a : carg) : outcome unit :=
  match a with
  | ABool _ => bool_outcome s
  | AChar _ => char_outcome s
  | AInt _ _ => int_outcome s
  | _ => Ok tt
  end.

Lemma escape_length c : (1 <= length (escape c))%nat.
Proof. unfold escape. repeat match goal with |- context[if ?b then _ else _] => destruct b end; cbn; lia. Qed.
Lemma escape_text_length t : (length t <= length (escape_text t))%nat.
Proof. induction t as [|c t IH]; [cbn; lia|]. unfold escape_text in *. cbn [flat_map]. rewrite app_length. assert (X := escape_length c). cbn [length]. lia. Qed.

Lemma float_check s : specs_ok s -> check_floating_point_specs s = Ok tt -> In (sp_type s) float_types /\ precision_fits s /\ sp_precision s <= 1100.
Proof.
  intros (_ & _ & Hp & _) H. unfold check_floating_point_specs in H. destruct (1100 <? sp_precision s) eqn:E; [discriminate|].
  destruct (mem _ _) eqn:M; [|discriminate]. unfold precision_fits. split; [|split; lia].
  unfold mem in M. apply existsb_exists in M. destruct M as (x & Hx & Ex). assert (sp_type s = x) by lia. subst x.
  cbn in Hx |- *. tauto.
Qed.

Lemma int_type_in t : In t [i32; i64; u32; u64] -> is_ity t.
Proof. unfold is_ity. cbn. tauto. Qed.

Section F.
  Context {K : Type} (vt : vtable K) (R : list Z -> bst K -> Prop) (cap amax room : option nat).
  Context (HL : lawful vt R cap amax room).

  Theorem write_arg_emits a s : arg_specs a s ->
    emits R cap amax room (fun b => write_arg vt b s a) (arg_ops s a) (arg_outcome s a).
  Proof.
    intros (HA & HF & HS & HC). assert (Hw : 0 <= sp_width s < 2 ^ 31) by apply HS. destruct a as [v|c|t v|bits|p|t]; cbn in HA, HF, HC |- *.
    - now apply (write_arg_bool_emits vt R cap amax room HL).
    - now apply (write_arg_char_emits vt R cap amax room HL).
    - destruct HA as [Ht Hv]. apply (write_arg_int_emits vt R cap amax room HL); auto using int_type_in.
    - destruct (float_check s HS HC) as (H1 & H2 & _). now apply (write_arg_double_emits vt R cap amax room HL).
    - now apply (write_arg_ptr_emits vt R cap amax room HL).
    - assert (L := escape_text_length t). apply (write_arg_str_emits vt R cap amax room HL); auto; lia.
  Qed.
End F.

(** The type O is accepted by the check but not by the formatter. *)
Lemma mem_In l x : mem l x = true -> In x l.
Proof. unfold mem. intros M. apply existsb_exists in M. destruct M as (y & Hy & E). assert (x = y) by lia. now subst y. Qed.

Lemma int_outcome_ok s : check_integral_specs s = Ok tt -> int_outcome s = if sp_type s =? 79 then Err invalid_format else Ok tt.
Proof.
  unfold check_integral_specs, int_outcome. destruct (negb _); [discriminate|]. destruct (mem _ _) eqn:M; [intros _|discriminate].
  apply mem_In in M. cbn [In] in M. repeat (destruct M as [M|M]; [rewrite <- M; reflexivity|]). contradiction.
Qed.

Theorem arg_outcome_ok a s : arg_specs a s ->
  arg_outcome s a = if takes_int a && (sp_type s =? 79) then Err invalid_format else Ok tt.
Proof.
  intros (HA & HF & HS & HC). destruct a as [v|c|t v|bits|p|t]; cbn [takes_int andb arg_outcome] in *; try reflexivity; cbn [type_of check_specs] in HC.
  - unfold bool_outcome. unfold check_bool_specs in HC. destruct (sp_type s =? 115) eqn:E1; [replace (sp_type s =? 79) with false by lia; reflexivity|].
    destruct (sp_type s =? 0) eqn:E0; cbn [negb andb] in HC; [|now apply int_outcome_ok].
    replace (sp_type s =? 79) with false by lia. unfold int_outcome. replace (sp_type s) with 0 by lia. reflexivity.
  - unfold char_outcome. unfold check_char_specs in HC. destruct (sp_type s =? ch_question) eqn:E1; [replace (sp_type s =? 79) with false by lia; reflexivity|].
    destruct (sp_type s =? 0) eqn:E0; cbn [negb andb] in HC; [replace (sp_type s =? 79) with false by lia; unfold int_outcome; replace (sp_type s) with 0 by lia; reflexivity|].
    destruct (sp_type s =? 99) eqn:E9; cbn [negb andb] in HC; [replace (sp_type s =? 79) with false by lia; unfold int_outcome; rewrite E9; reflexivity|].
    now apply int_outcome_ok.
  - destruct (check_integral_specs s) as [[]| | |] eqn:E; try discriminate. now apply int_outcome_ok.
Qed.

(** ** Floating-point fields *)
Lemma double_finite_field s bits body : specs_ok s -> is_finite_double bits -> float_text s bits body ->
  number_field s (sign_text s (bits_negative bits)) body (ops_data (double_ops s bits)).
Proof.
  intros HS HF (r & E & ->). unfold double_ops. cbv zeta. rewrite E.
  assert (C : d_category (decode bits) = cat_zero \/ d_category (decode bits) = cat_finite).
  { destruct (Z.eq_dec (double_m bits) 0) as [HM|HM]; [left; now apply decode_zero|right; now apply decode_finite]. }
  assert (P := number_ops_field s (bits_negative bits) [] (fp_body (parse_fp_format_specs s) (sp_alternate_form s) r) HS).
  rewrite app_nil_r in P. destruct C as [-> | ->]; exact P.
Qed.

Lemma atoms_data l : ops_data (map (fun c : Z => Atom [c]) l) = l.
Proof. induction l as [|c l IH]; [reflexivity|]. cbn [map]. change (c :: ops_data (map (fun c : Z => Atom [c]) l) = c :: l). now rewrite IH. Qed.

Lemma double_special_field s bits : specs_ok s -> is_double bits -> ~ is_finite_double bits -> special_field s bits (ops_data (double_ops s bits)).
Proof.
  intros HS HD HN. unfold special_field, upper_type, double_ops. cbv zeta. destruct (decode_ok bits HD) as (_ & HZ & HFi & HI & HNa & _).
  assert (FU : fp_upper (parse_fp_format_specs s) = (sp_type s =? 69) || (sp_type s =? 70) || (sp_type s =? 71)) by reflexivity. rewrite FU. clear FU.
  set (up := (sp_type s =? 69) || (sp_type s =? 70) || (sp_type s =? 71)).
  assert (SG : sign_text (nonfinite_specs s) (bits_negative bits) = sign_text s (bits_negative bits)).
  { unfold nonfinite_specs. destruct (sp_zero_flag s); reflexivity. }
  assert (P : forall inf, length (nonfinite_text up inf) = 3%nat ->
     is_padded (if sp_zero_flag s then 32 else sp_fill s) (field_align align_left s) (sp_width s) (sign_text s (bits_negative bits) ++ nonfinite_text up inf)
       (ops_data (let s' := nonfinite_specs s in pad_ops s' align_left (length (sign_text s' (bits_negative bits)) + 3)
         (map (fun c => Atom [c]) (sign_text s' (bits_negative bits)) ++ [Chunk (nonfinite_text up inf)])))).
  { intros inf L3. cbv zeta. rewrite SG.
    assert (X := pad_ops_field align_left (nonfinite_specs s) (map (fun c => Atom [c]) (sign_text s (bits_negative bits)) ++ [Chunk (nonfinite_text up inf)])).
    rewrite ops_data_app, atoms_data in X. cbn [ops_data flat_map op_data] in X. rewrite app_nil_r, app_length, L3 in X.
    assert (F : field align_left (nonfinite_specs s) (sign_text s (bits_negative bits) ++ nonfinite_text up inf) =
                is_padded (if sp_zero_flag s then 32 else sp_fill s) (field_align align_left s) (sp_width s) (sign_text s (bits_negative bits) ++ nonfinite_text up inf)).
    { unfold field, nonfinite_specs, field_align. destruct (sp_zero_flag s); reflexivity. }
    rewrite F in X. apply X; [discriminate|]. unfold nonfinite_specs. destruct (sp_zero_flag s); apply HS. }
  destruct (d_category (decode bits)) eqn:C.
  all: try (exfalso; apply HN; tauto).
  all: first [exists (nonfinite_text up true); split; [left; split; [now apply HI|reflexivity]|apply P; destruct up; reflexivity]
             |exists (nonfinite_text up false); split; [right; split; [now apply HNa|reflexivity]|apply P; destruct up; reflexivity]].
Qed.

(** ** The layout does not depend on the width *)
Lemma sign_text_same s s' neg : same_but_width s s' -> sign_text s' neg = sign_text s neg.
Proof. intros (_ & _ & E & _). unfold sign_text. now rewrite E. Qed.

Lemma int_layout s v : int_outcome s = Ok tt ->
  (sp_type s <> 99 -> exists head rest, forall s', same_but_width s s' -> specs_ok s' -> number_field s' head rest (ops_data (int_ops s' v))) /\
  (sp_type s = 99 -> exists body, forall s', same_but_width s s' -> specs_ok s' -> field align_left s' body (ops_data (int_ops s' v))).
Proof.
  intros HO. unfold int_outcome in HO. split; intros HT.
  - replace (sp_type s =? 99) with false in HO by lia. destruct (int_options (sp_type s)) as [[[p b] u]|] eqn:EO; [|discriminate].
    exists (sign_text s (v <? 0) ++ used_prefix s v p), (numeral b u (Z.abs v)). intros s' HB HS.
    destruct HB as (B1 & B2 & B3 & B4 & B5 & B6) eqn:EB. rewrite <- (sign_text_same s s') by assumption. unfold int_ops. rewrite <- B6, EO.
    replace (sp_type s =? 99) with false by lia.
    replace (used_prefix s v p) with (used_prefix s' v p) by (unfold used_prefix; now rewrite B4, B6). now apply number_ops_field.
  - exists [v mod 256]. intros s' HB HS. unfold int_ops. destruct HB as (_ & _ & _ & _ & _ & B6). replace (sp_type s' =? 99) with true by lia.
    apply (pad_ops_field align_left s' [Atom [v mod 256]]); [discriminate|]. apply HS.
Qed.

Lemma decode_same_digits s s' bits : same_but_width s s' -> float_digits s' bits = float_digits s bits /\
  parse_fp_format_specs s' = parse_fp_format_specs s /\ sp_alternate_form s' = sp_alternate_form s.
Proof.
  intros (_ & _ & _ & B4 & B5 & B6).
  assert (E : parse_fp_format_specs s' = parse_fp_format_specs s) by (unfold parse_fp_format_specs; now rewrite B4, B5, B6).
  unfold float_digits. rewrite E. auto.
Qed.

Theorem arg_layout a s : arg_specs a s -> arg_outcome s a = Ok tt ->
  (forall c, a = AChar c -> sp_type s = 63 -> length (escape c) = 1%nat) ->
  (number_like a s = true -> exists head rest, forall s', same_but_width s s' -> specs_ok s' -> check_specs (type_of a) s' = Ok tt ->
     number_field s' head rest (ops_data (arg_ops s' a))) /\
  (number_like a s = false -> exists body, forall s', same_but_width s s' -> specs_ok s' -> check_specs (type_of a) s' = Ok tt ->
     is_padded (field_fill a s') (field_align align_left s') (sp_width s') body (ops_data (arg_ops s' a))).
Proof.
  intros (HA & HF & HS & HC) HO HQ. unfold field_fill, number_like.
  destruct a as [v|c|t v|bits|p|t]; cbn [is_special andb arg_ops arg_outcome type_of check_specs] in *.
  - unfold bool_outcome in HO. destruct ((sp_type s =? 0) || (sp_type s =? 115)) eqn:E; cbn [orb negb].
    + split; [discriminate|]. intros _. exists (if v then str "true" else str "false"). intros s' HB HS' _. unfold bool_ops.
      replace ((sp_type s' =? 0) || (sp_type s' =? 115)) with true by (destruct HB as (_ & _ & _ & _ & _ & <-); congruence). cbv zeta.
      destruct v.
      * apply (pad_ops_field align_left s' [Chunk (str "true")]); [discriminate|]. apply HS'.
      * apply (pad_ops_field align_left s' [Chunk (str "false")]); [discriminate|]. apply HS'.
    + replace (sp_type s =? 115) with false in HO by lia. destruct (int_layout s (if v then 1 else 0) HO) as [L1 L2].
      assert (X : forall s', same_but_width s s' -> bool_ops s' v = int_ops s' (if v then 1 else 0)).
      { intros s' (_ & _ & _ & _ & _ & B6). unfold bool_ops. rewrite <- B6, E. reflexivity. }
      split; intros HT.
      * destruct (L1 ltac:(lia)) as (h & r & L). exists h, r. intros s' HB HS' _. rewrite X by assumption. auto.
      * destruct (L2 ltac:(lia)) as (bd & L). exists bd. intros s' HB HS' _. rewrite X by assumption. now apply L.
  - unfold char_outcome in HO. destruct ((sp_type s =? 0) || (sp_type s =? 63) || (sp_type s =? 99)) eqn:E; cbn [negb].
    + split; [discriminate|]. intros _. destruct (sp_type s =? 63) eqn:E63.
      * exists ([ch_apos] ++ escape c ++ [ch_apos]). intros s' HB HS' _. unfold char_ops. replace (sp_type s' =? ch_question) with true by (destruct HB as (_ & _ & _ & _ & _ & <-); exact (eq_sym E63)).
        specialize (HQ c eq_refl ltac:(lia)).
        assert (P := pad_ops_field align_left s' [Chunk ([ch_apos] ++ escape c ++ [ch_apos])] ltac:(discriminate) ltac:(apply HS')).
        cbn [ops_data flat_map op_data] in P. rewrite app_nil_r in P. replace (length ([ch_apos] ++ escape c ++ [ch_apos])) with 3%nat in P by (rewrite !app_length, HQ; reflexivity). exact P.
      * exists [c]. intros s' HB HS' _. unfold char_ops. destruct HB as (_ & _ & _ & _ & _ & <-). replace (sp_type s =? ch_question) with false by exact (eq_sym E63).
        replace ((sp_type s =? 0) || (sp_type s =? 99)) with true by lia. apply (pad_ops_field align_left s' [Atom [c]]); [discriminate|]. apply HS'.
    + replace (sp_type s =? ch_question) with false in HO by (change ch_question with 63; lia). destruct (int_layout s c HO) as [L1 _]. split; [|discriminate]. intros _.
      destruct (L1 ltac:(lia)) as (h & r & L). exists h, r. intros s' HB HS' _. unfold char_ops.
      destruct HB as (B1 & B2 & B3 & B4 & B5 & B6) eqn:EB. rewrite <- B6.
      replace (sp_type s =? ch_question) with false by (change ch_question with 63; lia). replace ((sp_type s =? 0) || (sp_type s =? 99)) with false by lia. now apply L.
  - destruct (int_layout s v HO) as [L1 L2]. split; intros HT.
    + destruct (L1 ltac:(lia)) as (h & r & L). exists h, r. intros s' HB HS' _. auto.
    + destruct (L2 ltac:(lia)) as (bd & L). exists bd. intros s' HB HS' _. now apply L.
  - destruct (bits_exponent bits =? 2047) eqn:EX; cbn [negb andb].
    + split; [discriminate|]. intros _. assert (HN : ~ is_finite_double bits) by (intros [_ H]; lia).
      destruct (double_special_field s bits HS HA HN) as (text & HT & _). exists (sign_text s (bits_negative bits) ++ text).
      intros s' HB HS' _. destruct (double_special_field s' bits HS' HA HN) as (text' & HT' & P). rewrite (sign_text_same s s') in P by assumption.
      replace text with text'; [exact P|]. unfold special_text, upper_type, is_infinity, is_nan in *. destruct HB as (_ & _ & _ & _ & _ & B6). rewrite <- B6 in HT'.
      destruct HT as [[H1 ->]|[H1 ->]], HT' as [[H2 ->]|[H2 ->]]; tauto.
    + split; [|discriminate]. intros _. assert (HFD : is_finite_double bits) by (split; [exact HA|lia]).
      destruct (float_check s HS HC) as (H1 & H2 & _). destruct (float_digits_ok s bits HFD H1 H2) as (ds & k & E & _).
      exists (sign_text s (bits_negative bits)), (fp_body (parse_fp_format_specs s) (sp_alternate_form s) (ds, k)). intros s' HB HS' _.
      rewrite <- (sign_text_same s s') by assumption. apply double_finite_field; auto. exists (ds, k).
      destruct (decode_same_digits s s' bits HB) as (-> & -> & ->). auto.
  - split; [|discriminate]. intros _. set (z := ptr_specs s). destruct (int_layout z p eq_refl) as [L1 _].
    destruct (L1 ltac:(discriminate)) as (h & r & L). exists h, r. intros s' HB HS' _. unfold ptr_ops.
    assert (Y : number_field (ptr_specs s') h r (ops_data (int_ops (ptr_specs s') p))).
    { apply L; [|exact HS']. destruct HB as (B1 & B2 & B3 & B4 & B5 & B6). unfold same_but_width, z, ptr_specs. cbn. auto 10. }
    exact Y.
  - split; [discriminate|]. intros _.
    exists (if sp_type s =? ch_question then [ch_quote] ++ escape_text t ++ [ch_quote] else if 0 <=? sp_precision s then firstn (Z.to_nat (sp_precision s)) t else t).
    intros s' HB HS' _. unfold str_ops. cbv zeta. destruct HB as (_ & _ & _ & _ & B5 & B6). rewrite B5, B6.
    match goal with |- is_padded _ _ _ (if _ then ?x else ?y) _ => 
      assert (P1 := pad_ops_field align_left s' [Chunk x] ltac:(discriminate) ltac:(apply HS'));
      assert (P2 := pad_ops_field align_left s' [Chunk y] ltac:(discriminate) ltac:(apply HS')) end.
    cbn [ops_data flat_map op_data] in P1, P2. rewrite app_nil_r in P1, P2. destruct (sp_type s' =? ch_question); [exact P1|exact P2].
Qed.

(** ** Every field *)
Lemma double_ops_field s bits : arg_specs (ADouble bits) s -> ~ deviates s (ADouble bits) -> double_field s bits (ops_data (double_ops s bits)).
Proof.
  intros (HA & HF & HS & HC) HD. cbn [carg_ok type_of check_specs] in *. unfold double_field.
  destruct (bits_exponent bits =? 2047) eqn:EX; [apply double_special_field; auto; intros [_ H]; lia|].
  assert (HFD : is_finite_double bits) by (split; [exact HA|lia]). destruct (float_check s HS HC) as (H1 & H2 & _). unfold double_body.
  destruct ((sp_type s =? 101) || (sp_type s =? 69)) eqn:E1.
  { destruct (exp_format s bits HFD ltac:(lia) H2) as (body & i & f & x & HB & R). exists body. split; [|now apply double_finite_field]. exists i, f, x. exact R. }
  destruct ((sp_type s =? 102) || (sp_type s =? 70)) eqn:E2.
  { destruct (fixed_format s bits HFD ltac:(lia) H2) as (body & i & f & HB & R1 & R2). exists body. split; [|now apply double_finite_field]. exists i, f.
    split; [exact R1|]. destruct R2 as [(_ & R2)|(R2 & _)]; [exact R2|]. exfalso. apply HD. cbn [deviates]. split; [assumption|]. split; [lia|exact R2]. }
  destruct ((sp_type s =? 0) && (sp_precision s =? -1)) eqn:E3.
  { destruct (shortest_format s bits HFD ltac:(lia) ltac:(lia)) as (body & i & f & x & sig & a & z & HB & R). exists body. split; [|now apply double_finite_field].
    exists i, f, x, sig, a, z. exact R. }
  destruct (general_format s bits HFD H2) as (body & i & f & x & HB & R).
  { unfold float_types in H1. cbn in H1. lia. }
  exists body. split; [|now apply double_finite_field]. exists i, f, x. exact R.
Qed.

Lemma ptr_check s : check_pointer_specs s = Ok tt -> sp_sign s = 0 /\ sp_zero_flag s = false.
Proof.
  unfold check_pointer_specs. destruct (negb (sp_type s =? 0) && negb (sp_type s =? 112)); [discriminate|].
  destruct (sp_alternate_form s); [discriminate|]. destruct (sp_sign s =? 0) eqn:E; [|discriminate]. destruct (sp_zero_flag s); [discriminate|]. split; [lia|reflexivity].
Qed.

Theorem arg_ops_field a s : arg_specs a s -> arg_outcome s a = Ok tt -> ~ deviates s a -> core_field s a (ops_data (arg_ops s a)).
Proof.
  intros H HO HD. destruct H as (HA & HF & HS & HC) eqn:EH. clear EH. destruct a as [v|c|t v|bits|p|t]; cbn [core_field arg_ops arg_outcome deviates] in *.
  - now apply bool_ops_field.
  - apply char_ops_field; auto. intros HT. destruct (Nat.eq_dec (length (escape c)) 1); tauto.
  - now apply int_ops_field.
  - now apply double_ops_field.
  - cbn in HA, HC. destruct (ptr_check s HC). apply ptr_ops_field; auto; lia.
  - now apply str_ops_field.
Qed.
