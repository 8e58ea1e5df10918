(** Proofs about Reader.v: integers in texts with arbitrary characters, and what
    remains of an integer that does not fit. *)
From Verif Require Import Base Conversion Reader.
From Verif Require Import Lib SpecNum SpecReader SpecDigits.
From Verif Require Import ConversionProofs ReaderProofs SpecsProofs.

Lemma as_digit_byte c : is_byte c -> is_byte (as_digit c).
Proof. unfold is_byte, as_digit. destruct (_ && _) eqn:E; lia. Qed.
Lemma as_digit_odd c : ~ odd_char (as_digit c).
Proof. unfold odd_char, as_digit. destruct (_ && _) eqn:E; lia. Qed.
Lemma as_digit_plain c : ~ odd_char c -> as_digit c = c.
Proof. unfold odd_char, as_digit. destruct (_ && _) eqn:E; [lia|reflexivity]. Qed.
Lemma as_digit_code c base : is_byte c -> char_to_digit (as_digit c) base = char_to_digit c base.
Proof.
  unfold is_byte, as_digit. intros H. destruct ((58 <=? c) && (c <=? 64)) eqn:E; [|reflexivity]. unfold char_to_digit, schar.
  replace (c + 39 <? 128) with true by lia. replace (c <? 128) with true by lia. change ch_0 with 48. replace (c + 39 <? 48) with false by lia. replace (c <? 48) with false by lia.
  replace (97 <=? c + 39) with true by lia. replace (97 <=? c) with false by lia. replace (65 <=? c) with false by lia. replace (c + 39 - 97 + 10) with (c - 48) by lia. reflexivity.
Qed.
Lemma taken_small base c : base <= 10 -> taken_digit base c = is_digit base c.
Proof.
  intros H. unfold taken_digit, as_digit. destruct ((58 <=? c) && (c <=? 64)) eqn:E; [|reflexivity]. unfold is_digit, digit_value.
  replace ((48 <=? c + 39) && (c + 39 <=? 57)) with false by lia. replace ((97 <=? c + 39) && (c + 39 <=? 122)) with true by lia.
  replace ((48 <=? c) && (c <=? 57)) with false by lia. replace ((97 <=? c) && (c <=? 122)) with false by lia. replace ((65 <=? c) && (c <=? 90)) with false by lia. lia.
Qed.
Lemma taken_clean base c : ~ odd_char c -> taken_digit base c = is_digit base c.
Proof. intros H. unfold taken_digit. now rewrite as_digit_plain. Qed.
Lemma number_clean base ds : Forall (fun c => ~ odd_char c) ds -> taken_number base ds = denotes base ds.
Proof. intros H. unfold taken_number. f_equal. induction H as [|c ds Hc H IH]; [reflexivity|]. cbn. now rewrite IH, as_digit_plain. Qed.
Lemma digits_clean base ds : Forall (fun c => is_digit base c = true) ds -> Forall (fun c => ~ odd_char c) ds.
Proof. intros H. eapply Forall_impl; [|exact H]. intros c Hc. exact (is_digit_not_colon base c Hc). Qed.
Lemma taken_of_digits base ds : Forall (fun c => is_digit base c = true) ds -> Forall (fun c => taken_digit base c = true) ds /\ taken_number base ds = denotes base ds.
Proof.
  intros H. assert (C := digits_clean _ _ H). split; [|now apply number_clean]. rewrite Forall_forall in *. intros c Hc. rewrite taken_clean by auto. auto.
Qed.
Lemma digits_of_taken base ds : base <= 10 -> Forall (fun c => taken_digit base c = true) ds -> Forall (fun c => is_digit base c = true) ds.
Proof. intros H. apply Forall_impl. intros c. now rewrite taken_small. Qed.

(** ** Texts with the digits that the characters are taken for *)
Definition plainly (r : reader) : reader := mk_reader (map as_digit (rtext r)) (rpos r).
Definition both {A} (x : outcome A * reader) : outcome A * reader := (fst x, plainly (snd x)).

Lemma plainly_view r : view_remaining (plainly r) = map as_digit (view_remaining r).
Proof. unfold view_remaining, plainly. cbn. symmetry. revert r. intros [T n]. cbn. revert n. induction T as [|c T IH]; intros [|n]; cbn; auto. Qed.
Lemma plainly_agree base r : Forall is_byte (view_remaining r) -> digits_agree base (view_remaining (plainly r)).
Proof.
  intros H. rewrite plainly_view. split; [rewrite Forall_map; eapply Forall_impl; [|exact H]; intros c; apply as_digit_byte|]. right. unfold stops_clean.
  destruct (skipn _ _) as [|c l] eqn:E; [exact I|]. assert (X : In c (map as_digit (view_remaining r))) by (rewrite <- (firstn_skipn (length (digit_run base (map as_digit (view_remaining r)))) (map as_digit _)), E; apply in_or_app; right; now left).
  apply in_map_iff in X. destruct X as (c' & <- & _). apply as_digit_odd.
Qed.
Lemma plainly_peek r : peek (plainly r) = match peek r with Ok c => Ok (as_digit c) | o => o end.
Proof. unfold peek, at_eof, plainly. cbn [rtext rpos]. rewrite map_length. destruct (_ =? _)%nat; [reflexivity|]. rewrite nth_error_map. now destruct (nth_error (rtext r) (rpos r)). Qed.
Lemma plainly_pop r n : pop (plainly r) n = plainly (pop r n).
Proof. unfold pop, cnt_remaining, plainly, set_pos. cbn [rtext rpos]. rewrite map_length. now destruct (_ <=? _)%nat. Qed.
Lemma peek_byte r c : Forall is_byte (view_remaining r) -> peek r = Ok c -> is_byte c.
Proof.
  intros H. unfold peek. destruct (at_eof r); [discriminate|]. destruct (nth_error (rtext r) (rpos r)) eqn:E; [|discriminate]. intros [= <-].
  unfold view_remaining in H. apply nth_error_split in E. destruct E as (l1 & l2 & E1 & E). rewrite E1, <- E in H. rewrite skipn_app, skipn_all, Nat.sub_diag in H. cbn in H. now inversion H.
Qed.
Lemma pop_bytes r n : Forall is_byte (view_remaining r) -> Forall is_byte (view_remaining (pop r n)).
Proof.
  intros H. unfold pop, view_remaining in *. destruct (_ <=? _)%nat; cbn [set_pos rtext rpos].
  - rewrite <- skipn_skipn_nat. now apply forall_skipn.
  - rewrite skipn_all. constructor.
Qed.

Lemma plainly_loop m t base neg : forall fuel r value maybe digit, Forall is_byte (view_remaining r) ->
  parse_int_loop fuel m t base neg (plainly r) value maybe digit = both (parse_int_loop fuel m t base neg r value maybe digit).
Proof.
  induction fuel as [|fuel IH]; intros r value maybe digit H; [reflexivity|]. cbn [parse_int_loop]. destruct (arith m t _) as [x| | |]; try reflexivity.
  destruct (if neg then value <? x else x <? value); [reflexivity|]. rewrite plainly_peek. destruct (peek r) as [c| | |] eqn:E; try reflexivity.
  rewrite as_digit_code by (eapply peek_byte; eauto). destruct (char_to_digit c base) as [d|]; [|reflexivity]. rewrite plainly_pop. destruct (arith m t (x * base)); try reflexivity.
  apply IH. now apply pop_bytes.
Qed.
Lemma plainly_detail m t base neg r : Forall is_byte (view_remaining r) -> detail_parse_int m t base neg (plainly r) = both (detail_parse_int m t base neg r).
Proof.
  intros H. unfold detail_parse_int. destruct (is_valid_number_base base); [|reflexivity]. cbn [negb]. unfold read_char. rewrite plainly_peek. destruct (peek r) as [c| | |] eqn:E; try reflexivity.
  cbn [sbind]. rewrite as_digit_code by (eapply peek_byte; eauto). destruct (char_to_digit c base) as [d|]; [|reflexivity]. destruct (_ && _); [reflexivity|].
  change (rtext (set_pos (plainly r) (rpos (plainly r) + 1))) with (map as_digit (rtext r)). rewrite map_length. apply (plainly_loop m t base (signed t && neg) _ (set_pos r (rpos r + 1))).
  unfold view_remaining in *. cbn. rewrite <- skipn_skipn_nat. now apply forall_skipn.
Qed.

(** The text of the reader stays. *)
Lemma loop_text m t base neg : forall fuel r value maybe digit, rtext (snd (parse_int_loop fuel m t base neg r value maybe digit)) = rtext r.
Proof.
  induction fuel as [|fuel IH]; intros r value maybe digit; [reflexivity|]. cbn [parse_int_loop]. destruct (arith m t _) as [x| | |]; try reflexivity.
  destruct (if neg then value <? x else x <? value); [reflexivity|]. destruct (peek r) as [c| | |] eqn:E; try reflexivity. destruct (char_to_digit c base); [|reflexivity].
  assert (X : rtext (pop r 1) = rtext r) by (unfold pop; now destruct (_ <=? _)%nat). destruct (arith m t (x * base)); try exact X. now rewrite IH.
Qed.
Lemma detail_text m t base neg r : rtext (snd (detail_parse_int m t base neg r)) = rtext r.
Proof.
  unfold detail_parse_int. destruct (is_valid_number_base base); [|reflexivity]. cbn [negb]. unfold read_char. destruct (peek r); try reflexivity. cbn [sbind]. destruct (char_to_digit _ base); [|reflexivity].
  destruct (_ && _); [reflexivity|]. now rewrite loop_text.
Qed.
Lemma reader_same r r' : rtext r' = rtext r -> rpos (plainly r') = rpos (plainly r) -> r' = r.
Proof. destruct r, r'. cbn. congruence. Qed.

Lemma plainly_sign r : parse_sign (plainly r) = both (parse_sign r).
Proof.
  unfold parse_sign. rewrite plainly_peek. destruct (peek r) as [c| | |]; try reflexivity. unfold as_digit. change ch_plus with 43. change ch_minus with 45.
  destruct ((58 <=? c) && (c <=? 64)) eqn:E.
  - replace (c + 39 =? 43) with false by lia. replace (c + 39 =? 45) with false by lia. replace (c =? 43) with false by lia. replace (c =? 45) with false by lia. reflexivity.
  - destruct (c =? 43); [now rewrite plainly_pop|]. destruct (c =? 45); [now rewrite plainly_pop|reflexivity].
Qed.
Lemma sign_bytes r : Forall is_byte (view_remaining r) -> Forall is_byte (view_remaining (snd (parse_sign r))).
Proof. intros H. unfold parse_sign. destruct (peek r); try exact H. destruct (_ =? _); [now apply pop_bytes|]. destruct (_ =? _); [now apply pop_bytes|exact H]. Qed.
Lemma plainly_parse m t base r : Forall is_byte (view_remaining r) -> parse_int m t base (plainly r) = both (parse_int m t base r).
Proof.
  intros H. unfold parse_int, parse_sign_and_int. rewrite plainly_sign. assert (HS := sign_bytes r H). destruct (parse_sign r) as [[neg| | |] r1]; try reflexivity. cbn [both fst snd sbind] in *.
  rewrite plainly_detail by exact HS. destruct (detail_parse_int m (upcasted t) base neg r1) as [[v| | |] r2]; cbn [both fst snd]; try reflexivity. now destruct (_ || _).
Qed.
Lemma parse_text m t base r : rtext (snd (parse_int m t base r)) = rtext r.
Proof.
  unfold parse_int, parse_sign_and_int. assert (X : rtext (snd (parse_sign r)) = rtext r).
  { unfold parse_sign. destruct (peek r); try reflexivity. assert (P : rtext (pop r 1) = rtext r) by (unfold pop; now destruct (_ <=? _)%nat). destruct (_ =? _); [exact P|]. destruct (_ =? _); [exact P|reflexivity]. }
  destruct (parse_sign r) as [[neg| | |] r1]; cbn [sbind snd] in *; try reflexivity; try exact X. assert (Y := detail_text m (upcasted t) base neg r1). destruct (detail_parse_int m (upcasted t) base neg r1) as [[v| | |] r2]; cbn [snd] in *; try reflexivity; try congruence.
  destruct (_ || _); [reflexivity|]. cbn. congruence.
Qed.
Lemma both_move {A} (x : outcome A * reader) o r p : rtext (snd x) = rtext r -> both x = (o, set_pos (plainly r) p) -> x = (o, set_pos r p).
Proof. destruct x as [o' [T q]], r as [T' q']. cbn. intros -> H. unfold both, plainly, set_pos in H. cbn in H. injection H as -> ->. reflexivity. Qed.

(** ** Overflow *)
Lemma arith_wraps m t z w : big_ity t -> arith m t z = Ok w -> exists k, w = z + k * 2 ^ bits t.
Proof.
  intros B. assert (W : exists k, wrap t z = z + k * 2 ^ bits t).
  { assert (P : 0 < 2 ^ bits t) by (destruct B as [->|[->|[->| ->]]]; reflexivity). unfold wrap. set (M := 2 ^ bits t) in *. assert (X := Z.div_mod z M ltac:(lia)).
    destruct (_ && _); [exists (- (z / M) - 1)|exists (- (z / M))]; nia. }
  unfold arith. destruct (signed t); [destruct (in_rangeb t z); [intros [= <-]; exists 0; lia|destruct m; [discriminate|intros [= <-]; exact W]]|intros [= <-]; exact W].
Qed.
Lemma acc_shift base neg k M : forall ds x, exists k', acc base neg (x + k * M) ds = acc base neg x ds + k' * M.
Proof.
  intros ds. revert k. induction ds as [|d ds IH]; intros k x; [exists k; reflexivity|]. unfold acc in *. cbn [fold_left].
  destruct neg.
  - destruct (IH (k * base) (x * base - d)) as (k' & H). exists k'. rewrite <- H. f_equal. lia.
  - destruct (IH (k * base) (x * base + d)) as (k' & H). exists k'. rewrite <- H. f_equal. lia.
Qed.
Lemma loop_wraps m t base neg : big_ity t -> forall fuel r value maybe digit w r',
  rwf r -> parse_int_loop fuel m t base neg r value maybe digit = (Ok w, r') ->
  exists k, w = acc base neg (if neg then maybe - digit else maybe + digit) (code_digits base (view_remaining r)) + k * 2 ^ bits t.
Proof.
  intros B. induction fuel as [|fuel IH]; intros r value maybe digit w r' W H; [discriminate|]. cbn [parse_int_loop] in H.
  destruct (arith m t (if neg then maybe - digit else maybe + digit)) as [x| | |] eqn:EA; try discriminate. destruct (arith_wraps m t _ x B EA) as (k & Hk).
  destruct (if neg then value <? x else x <? value); [discriminate|].
  destruct (peek_cases r W) as [(c & s & Es & EP)|(Es & EP)]; rewrite EP in H; rewrite Es; cbn [code_digits].
  - destruct (char_to_digit c base) as [d|] eqn:EC; [|injection H as <- _; unfold acc; cbn; eauto].
    destruct (arith m t (x * base)) as [y| | |] eqn:EY; try discriminate. destruct (arith_wraps m t _ y B EY) as (k2 & Hk2).
    assert (CR : (1 <= cnt_remaining r)%nat) by (rewrite <- view_length, Es; cbn; lia).
    apply IH in H; [|rewrite pop_pos by lia; apply rwf_set; auto]. rewrite view_pop, Es in H by lia. cbn [skipn] in H. destruct H as (k3 & ->).
    set (z := if neg then maybe - digit else maybe + digit) in *. change (acc base neg z (d :: code_digits base s)) with (acc base neg (if neg then z * base - d else z * base + d) (code_digits base s)).
    destruct (acc_shift base neg (k * base + k2) (2 ^ bits t) (code_digits base s) (if neg then z * base - d else z * base + d)) as (k4 & H4).
    exists (k4 + k3). rewrite Z.mul_add_distr_r, Z.add_assoc, <- H4. f_equal. f_equal. subst x y. destruct neg; lia.
  - injection H as <- _. unfold acc. cbn. eauto.
Qed.
Lemma detail_wraps m t base neg r w r' : big_ity t -> 2 <= base <= 36 -> rwf r -> digits_agree base (view_remaining r) ->
  detail_parse_int m t base neg r = (Ok w, r') -> exists k, w = mg neg (denotes base (digit_run base (view_remaining r))) + k * 2 ^ bits t.
Proof.
  intros B Hb W DA. unfold detail_parse_int. replace (is_valid_number_base base) with true by (unfold is_valid_number_base; lia). cbn [negb]. unfold read_char.
  destruct (peek_cases r W) as [(c & s & Es & ->)|(Es & ->)]; cbn [sbind]; [|discriminate].
  assert (Bc : is_byte c) by (destruct DA as (X & _); rewrite Es in X; now inversion X).
  rewrite Es in *. assert (Cc := digits_agree_head _ _ _ DA). rewrite (char_to_digit_spec base c Bc ltac:(lia) Cc). cbn [digit_run].
  destruct (is_digit base c) eqn:D; [|discriminate].
  apply (digits_agree_tail _ _ _ D) in DA. destruct (digit_value c) as [d|] eqn:Ed; [|discriminate].
  destruct (negb (signed t) && neg) eqn:UN; [discriminate|].
  assert (NEG : signed t && neg = neg) by (destruct (signed t), neg; auto; discriminate). rewrite NEG.
  set (r2 := set_pos r (rpos r + 1)). assert (V2 : view_remaining r2 = s) by (unfold r2; rewrite view_set_pos, Es; reflexivity).
  assert (W2 : rwf r2) by (apply rwf_set; auto; rewrite <- view_length, Es; cbn; lia). intros H.
  destruct (loop_wraps m t base neg B _ _ _ _ _ _ _ W2 H) as (k & ->). exists k. f_equal. rewrite V2. destruct (code_digits_spec base s ltac:(lia) DA) as (_ & CV). rewrite CV.
  unfold mg, denotes. cbn [fold_left]. rewrite Ed. destruct neg; f_equal; f_equal; lia.
Qed.
