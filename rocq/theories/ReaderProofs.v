(** Proofs about the reader. *)
From Verif Require Import Base Lib Conversion SpecNum SpecReader ConversionProofs Reader.

Definition rwf (r : reader) : Prop := (rpos r <= length (rtext r))%nat.

Lemma peek_cons r c s : view_remaining r = c :: s -> peek r = Ok c.
Proof.
  unfold view_remaining, peek, at_eof. intros H.
  apply skipn_eq_cons in H. destruct H as [H _]. rewrite H.
  assert (rpos r < length (rtext r))%nat by (apply nth_error_Some; congruence).
  replace (length (rtext r) =? rpos r)%nat with false by lia. reflexivity.
Qed.

Lemma peek_nil r : rwf r -> view_remaining r = [] -> peek r = Err eof.
Proof.
  unfold view_remaining, peek, at_eof, rwf. intros W H. apply skipn_eq_nil in H.
  replace (length (rtext r) =? rpos r)%nat with true by lia. reflexivity.
Qed.

Lemma peek_cases r : rwf r ->
  (exists c s, view_remaining r = c :: s /\ peek r = Ok c) \/ (view_remaining r = [] /\ peek r = Err eof).
Proof.
  intros W. destruct (view_remaining r) as [|c s] eqn:E; [right|left].
  - split; [reflexivity|]. now apply peek_nil.
  - exists c, s. split; [reflexivity|]. eapply peek_cons; eauto.
Qed.

Lemma view_length r : length (view_remaining r) = cnt_remaining r.
Proof. unfold view_remaining, cnt_remaining. apply skipn_length. Qed.

Lemma pop_pos r n : (n <= cnt_remaining r)%nat -> pop r n = set_pos r (rpos r + n).
Proof. intros H. unfold pop. replace (n <=? cnt_remaining r)%nat with true by lia. reflexivity. Qed.

Lemma view_set_pos r n : view_remaining (set_pos r (rpos r + n)) = skipn n (view_remaining r).
Proof. unfold view_remaining, set_pos. simpl. now rewrite skipn_skipn_nat. Qed.

Lemma view_pop r n : (n <= cnt_remaining r)%nat -> view_remaining (pop r n) = skipn n (view_remaining r).
Proof. intros H. rewrite pop_pos by lia. apply view_set_pos. Qed.

Lemma rwf_set r n : rwf r -> (n <= cnt_remaining r)%nat -> rwf (set_pos r (rpos r + n)).
Proof. unfold rwf, cnt_remaining, set_pos. simpl. lia. Qed.

Lemma set_pos_same r : set_pos r (rpos r) = r.
Proof. now destruct r. Qed.

(** ** Integer parsing *)

(** The digits the code recognises, as values. *)
Fixpoint code_digits (base : Z) (l : list Z) : list Z :=
  match l with
  | [] => []
  | c :: l => match char_to_digit c base with Some d => d :: code_digits base l | None => [] end
  end.

Definition acc (base : Z) (neg : bool) (x : Z) (ds : list Z) : Z :=
  fold_left (fun x d => if neg then x * base - d else x * base + d) ds x.

Definition mg (neg : bool) (x : Z) : Z := if neg then - x else x.

Lemma char_to_digit_bound c base d : char_to_digit c base = Some d -> 0 <= d < base.
Proof.
  unfold char_to_digit. destruct (schar c <? 48) eqn:E1; [discriminate|].
  destruct (97 <=? schar c) eqn:E2; [|destruct (65 <=? schar c) eqn:E3];
    match goal with |- (if ?b then _ else _) = _ -> _ => destruct b eqn:? end; intros H; inversion H; lia.
Qed.

Definition big_ity (t : ity) : Prop := t = i32 \/ t = i64 \/ t = u32 \/ t = u64.

Lemma upcasted_big t : is_ity t -> big_ity (upcasted t).
Proof.
  unfold is_ity, big_ity. simpl. intros H.
  repeat (destruct H as [<-|H]; [vm_compute; tauto|]). contradiction.
Qed.

Lemma big_bounds t : big_ity t ->
  (imin t = if signed t then - 2 ^ (bits t - 1) else 0) /\
  (imax t = 2 ^ (if signed t then bits t - 1 else bits t) - 1) /\ (bits t = 32 \/ bits t = 64).
Proof.
  intros [ -> | [ -> | [ -> | -> ]]]; vm_compute; intuition.
Qed.

Lemma arith_cases m t z : big_ity t ->
  (in_range t z -> arith m t z = Ok z) /\
  (arith m t z = Undef \/ exists w, arith m t z = Ok w /\ in_range t w /\
     (m = iso -> signed t = true -> w = z)) /\
  (arith m t z = Undef -> m = iso /\ signed t = true /\ ~ in_range t z).
Proof.
  intros B. unfold arith, in_rangeb, in_range.
  assert (W : imin t <= wrap t z <= imax t).
  { unfold wrap, imin, imax. destruct B as [ -> | [ -> | [ -> | -> ]]]; cbn [bits signed i32 i64 u32 u64 andb];
      try (destruct (_ <=? _) eqn:?); cbn in *; lia. }
  assert (WI : signed t = false -> imin t <= z <= imax t -> wrap t z = z).
  { unfold wrap, imin, imax. intros S. rewrite S. simpl. intros R. apply Z.mod_small. lia. }
  destruct (signed t) eqn:S.
  - destruct ((imin t <=? z) && (z <=? imax t)) eqn:R.
    + split; [auto|split]; [|discriminate]. right. exists z. split; [reflexivity|]. split; [lia|auto].
    + split; [intros; lia|]. destruct m; split.
      * now left.
      * intros _. repeat split; auto. lia.
      * right. eexists. split; [reflexivity|]. split; [exact W|discriminate].
      * discriminate.
  - split; [intros R; now rewrite WI|]. split; [|discriminate].
    right. eexists. split; [reflexivity|]. split; [exact W|discriminate].
Qed.

Definition inv_val (m : overflow_mode) (t : ity) (neg : bool) (v X : Z) : Prop :=
  (v = X /\ in_range t X) \/ (65536 <= mg neg v /\ ~ in_range t X /\ ~ (m = iso /\ signed t = true)).

Lemma mg_limit t neg x : big_ity t -> (neg = true -> signed t = true) ->
  0 <= mg neg x -> (in_range t x <-> mg neg x <= (if neg then - imin t else imax t)).
Proof.
  intros B N. unfold mg, in_range. destruct neg.
  - assert (0 <= imax t) by (destruct (big_bounds t B) as (_ & -> & _); destruct B as [ -> | [ -> | [ -> | -> ]]]; simpl; lia).
    lia.
  - assert (imin t <= 0) by (destruct (big_bounds t B) as (-> & _ & _); destruct B as [ -> | [ -> | [ -> | -> ]]]; simpl; lia).
    lia.
Qed.

Lemma limit_lower t neg : big_ity t -> (neg = true -> signed t = true) ->
  2 ^ 31 - 1 <= (if neg then - imin t else imax t).
Proof.
  intros B N. destruct (big_bounds t B) as (-> & -> & _).
  destruct B as [ -> | [ -> | [ -> | -> ]]]; destruct neg; cbn; try lia; specialize (N eq_refl); discriminate.
Qed.

Lemma acc_mono base neg ds : 2 <= base -> Forall (fun d => 0 <= d < base) ds ->
  forall X, 0 <= mg neg X -> mg neg X <= mg neg (acc base neg X ds).
Proof.
  intros Hb. induction ds as [|d ds IH]; intros F X HX; [unfold acc; simpl; lia|].
  inversion F; subst. unfold acc in *. simpl.
  etransitivity; [|apply IH; auto]; destruct neg; unfold mg in *; nia.
Qed.

Lemma code_digits_forall base l : Forall (fun d => 0 <= d < base) (code_digits base l).
Proof.
  induction l as [|c l IH]; simpl; [constructor|].
  destruct (char_to_digit c base) eqn:E; constructor; auto. eapply char_to_digit_bound; eauto.
Qed.

Lemma parse_int_loop_ok m t base neg : big_ity t -> 2 <= base <= 36 -> (neg = true -> signed t = true) ->
  forall fuel r value maybe digit X,
  rwf r -> (length (view_remaining r) < fuel)%nat ->
  arith m t (value * base) = Ok maybe -> 0 <= digit < base ->
  0 <= mg neg value -> 0 <= mg neg X -> inv_val m t neg value X ->
  let ds := code_digits base (view_remaining r) in
  let V := acc base neg (if neg then X * base - digit else X * base + digit) ds in
  match parse_int_loop fuel m t base neg r value maybe digit with
  | (Ok w, r') => (w = V /\ in_range t V /\ r' = set_pos r (rpos r + length ds)) \/
                  (65536 <= mg neg w /\ ~ in_range t V /\ ~ (m = iso /\ signed t = true))
  | (Err e, _) => e = out_of_range /\ ~ in_range t V
  | (Undef, _) => m = iso /\ signed t = true /\ ~ in_range t V
  | (Abort, _) => False
  end.
Proof.
  intros B Hb N. induction fuel as [|fuel IH]; intros r value maybe digit X W Hf HM Hd Hv HX I ds V; [lia|].
  cbn [parse_int_loop].
  set (X' := if neg then X * base - digit else X * base + digit) in *.
  set (z := if neg then maybe - digit else maybe + digit).
  assert (HX' : 0 <= mg neg X') by (unfold X', mg in *; destruct neg; nia).
  assert (GX : mg neg X' = mg neg X * base + digit) by (unfold X', mg; destruct neg; lia).
  assert (ML := mg_limit t neg X B N HX). assert (ML' := mg_limit t neg X' B N HX').
  assert (LL := limit_lower t neg B N).
  set (lim := if neg then - imin t else imax t) in *.
  assert (HV : mg neg X' <= mg neg V) by (apply acc_mono; [lia|apply code_digits_forall|exact HX']).
  assert (MV := mg_limit t neg V B N ltac:(lia)). fold lim in MV.
  (* what the addition gives *)
  destruct (arith_cases m t z B) as (AZ1 & AZ2 & AZ3).
  destruct (arith_cases m t (value * base) B) as (AM1 & AM2 & AM3).
  assert (Key : (arith m t z = Undef /\ m = iso /\ signed t = true /\ ~ in_range t X') \/
                (exists w, arith m t z = Ok w /\ (mg neg w < mg neg value -> ~ in_range t X') /\
                           (mg neg value <= mg neg w -> inv_val m t neg w X'))).
  { destruct I as [(-> & RX)|(HB & NX & NI)].
    - destruct (Z_le_gt_dec (mg neg X') lim) as [G|G].
      + (* exact *)
        assert (RP : in_range t (X * base)).
        { apply (mg_limit t neg); auto; fold lim; unfold mg in *; destruct neg; nia. }
        specialize (AM1 RP). rewrite AM1 in HM. inversion HM; subst maybe.
        assert (z = X') by reflexivity. rewrite H. rewrite H in *. right. exists X'.
        assert (RX' : in_range t X') by (apply ML'; exact G).
        split; [auto|]. split; [intros; exfalso; unfold mg in *; destruct neg; nia|].
        intros _. left. auto.
      + assert (NX' : ~ in_range t X') by (rewrite ML'; lia).
        destruct AZ2 as [U|(w & U & RW & UI)].
        * left. destruct (AZ3 U) as (? & ? & ?). auto.
        * right. exists w. split; [exact U|]. split; [auto|]. intros Hle. right.
          split; [|split; auto].
          -- assert (mg neg X * 36 + 36 > 2 ^ 31 - 1) by nia. lia.
          -- intros (Hm & Hs). specialize (UI Hm Hs).
             (* iso and signed: both operations were exact, so w = X' in range *)
             destruct AM2 as [AM2|(wm & AM2 & _ & EM)]; [congruence|].
             rewrite AM2 in HM. inversion HM; subst wm. specialize (EM Hm Hs).
             apply NX'. subst w. unfold z in RW. rewrite EM in RW. exact RW.
    - assert (NX' : ~ in_range t X').
      { rewrite ML'. rewrite ML in NX. nia. }
      destruct AZ2 as [U|(w & U & RW & UI)].
      * exfalso. destruct (AZ3 U) as (? & ? & ?). tauto.
      * right. exists w. split; [exact U|]. split; [auto|]. intros Hle. right.
        split; [lia|]. split; auto. }
  destruct Key as [(-> & -> & S & NX')|(w & -> & K1 & K2)].
  { split; [reflexivity|]. split; [exact S|]. rewrite MV. rewrite ML' in NX'. lia. }
  destruct (if neg then value <? w else w <? value) eqn:C.
  { split; [reflexivity|]. rewrite MV. assert (NX' : ~ in_range t X') by (apply K1; unfold mg; destruct neg; lia).
    rewrite ML' in NX'. lia. }
  assert (Hle : mg neg value <= mg neg w) by (unfold mg; destruct neg; lia).
  specialize (K2 Hle). clear K1.
  assert (Eds : ds = code_digits base (view_remaining r)) by reflexivity. clearbody ds.
  destruct (peek_cases r W) as [(c & s & Es & ->)|(Es & ->)]; rewrite Es in Eds; simpl in Eds.
  - destruct (char_to_digit c base) as [d'|] eqn:EC.
    + assert (Hd' := char_to_digit_bound _ _ _ EC).
      assert (CR : (1 <= cnt_remaining r)%nat) by (rewrite <- view_length, Es; simpl; lia).
      set (X2 := if neg then X' * base - d' else X' * base + d').
      assert (EV : V = acc base neg X2 (code_digits base s)) by (unfold V; rewrite Eds; reflexivity).
      assert (GX2 : mg neg X2 = mg neg X' * base + d') by (unfold X2, mg; destruct neg; lia).
      assert (HV2 : mg neg X2 <= mg neg V) by (rewrite EV; apply acc_mono; [lia|apply code_digits_forall|nia]).
      destruct (arith_cases m t (w * base) B) as (BM1 & BM2 & BM3).
      destruct BM2 as [U|(mb & U & RW & UI)]; rewrite U.
      * destruct (BM3 U) as (Hm & Hs & NR). split; [exact Hm|]. split; [exact Hs|].
        destruct K2 as [(-> & RX')|(_ & _ & K)]; [|tauto].
        intros RV. apply NR. apply MV in RV.
        apply (mg_limit t neg); auto; fold lim; unfold mg in *; destruct neg; nia.
      * specialize (IH (pop r 1) w mb d' X').
        rewrite view_pop, Es in IH by lia. cbn [skipn] in IH.
        assert (W1 : rwf (pop r 1)) by (rewrite pop_pos by lia; apply rwf_set; auto).
        rewrite Es in Hf. simpl in Hf.
        specialize (IH W1 ltac:(lia) U Hd' ltac:(lia) HX' K2).
        cbv zeta in IH. fold X2 in IH. rewrite <- EV in IH.
        destruct (parse_int_loop fuel m t base neg (pop r 1) w mb d') as [[w2|e| |] r2]; auto.
        destruct IH as [(IH1 & IH2 & IH3)|IH]; [left|right; exact IH].
        split; [exact IH1|]. split; [exact IH2|]. rewrite IH3, pop_pos by lia.
        rewrite Eds. unfold set_pos. simpl. f_equal. lia.
    + unfold V. rewrite Eds. unfold acc. simpl. destruct K2 as [(-> & RX')|K2]; [left|right; exact K2].
      repeat split; auto; try apply RX'. rewrite Nat.add_0_r. now rewrite set_pos_same.
  - unfold V. rewrite Eds. unfold acc. simpl. destruct K2 as [(-> & RX')|K2]; [left|right; exact K2].
    repeat split; auto; try apply RX'. rewrite Nat.add_0_r. now rewrite set_pos_same.
Qed.

(** Characters on which the code's digits agree with real digits. *)
Definition digits_agree (base : Z) (s : list Z) : Prop :=
  Forall is_byte s /\ (base <= 10 \/ stops_clean base s).

Lemma is_digit_not_colon base c : is_digit base c = true -> ~ (58 <= c <= 64).
Proof. unfold is_digit, digit_value. intros H1 H2. replace ((48 <=? c) && (c <=? 57)) with false in H1 by lia.
  replace ((97 <=? c) && (c <=? 122)) with false in H1 by lia. replace ((65 <=? c) && (c <=? 90)) with false in H1 by lia. discriminate.
Qed.

Lemma digits_agree_head base c s : digits_agree base (c :: s) -> base <= 10 \/ ~ (58 <= c <= 64).
Proof.
  intros (_ & [H|H]); [auto|right]. unfold stops_clean in H. cbn [digit_run] in H.
  destruct (is_digit base c) eqn:D; [now apply (is_digit_not_colon base)|exact H].
Qed.

Lemma char_to_digit_spec base c : is_byte c -> base <= 36 -> (base <= 10 \/ ~ (58 <= c <= 64)) ->
  char_to_digit c base = (if is_digit base c then digit_value c else None).
Proof.
  unfold is_byte, char_to_digit, is_digit, digit_value, schar. intros HB Hb Hc.
  repeat match goal with
         | |- context [if ?b then _ else _] =>
           lazymatch b with context [if _ then _ else _] => fail | _ => destruct b eqn:? end
         end; try reflexivity; try (f_equal; lia); exfalso; lia.
Qed.

Lemma digits_agree_tail base c s : is_digit base c = true -> digits_agree base (c :: s) -> digits_agree base s.
Proof.
  intros D (H1 & H2). split; [now inversion H1|]. destruct H2 as [H2|H2]; [auto|right].
  unfold stops_clean in *. cbn [digit_run] in H2. rewrite D in H2. exact H2.
Qed.

Lemma code_digits_spec base s : base <= 36 -> digits_agree base s ->
  length (code_digits base s) = length (digit_run base s) /\
  forall neg x, acc base neg x (code_digits base s) =
    if neg then - fold_left (fun a c => a * base + match digit_value c with Some v => v | None => 0 end) (digit_run base s) (- x)
    else fold_left (fun a c => a * base + match digit_value c with Some v => v | None => 0 end) (digit_run base s) x.
Proof.
  intros Hb. induction s as [|c s IH]; intros DA.
  - split; [reflexivity|]. intros [] x; unfold acc; simpl; lia.
  - assert (HC1 := digits_agree_head _ _ _ DA). assert (HB : is_byte c) by (destruct DA as (HB & _); now inversion HB).
    simpl. rewrite char_to_digit_spec by auto.
    destruct (is_digit base c) eqn:D.
    + destruct (IH (digits_agree_tail _ _ _ D DA)) as (IH1 & IH2). destruct (digit_value c) as [d|] eqn:Ed.
      * split; [simpl; now rewrite IH1|]. intros neg x. unfold acc in *. simpl. rewrite IH2, Ed.
        destruct neg; f_equal; f_equal; lia.
      * unfold is_digit in D. now rewrite Ed in D.
    + split; [reflexivity|]. intros [] x; unfold acc; simpl; lia.
Qed.

Definition exactly_parsed (m : overflow_mode) (t : ity) (v : Z) : Prop :=
  in_range (upcasted t) v \/ (bits t <= 16 /\ ~ (m = iso /\ signed t = true)).

Lemma denotes_nonneg base s : 2 <= base -> 0 <= denotes base (digit_run base s).
Proof.
  intros Hb. unfold denotes. set (f := fun _ _ : Z => _). set (a := 0) at 2. assert (H : 0 <= a) by (unfold a; lia). clearbody a. revert a H.
  induction s as [|c s IH]; intros a Ha; cbn [digit_run fold_left]; [lia|].
  destruct (is_digit base c) eqn:D; [|simpl; lia]. cbn [fold_left]. apply IH. unfold f.
  unfold is_digit in D. destruct (digit_value c) as [d|] eqn:E; [|discriminate].
  assert (0 <= d). { unfold digit_value in E. repeat match type of E with context [if ?b then _ else _] => destruct b eqn:? end; inversion E; lia. }
  nia.
Qed.

(** Everything [parse_int] can do, in terms of the specification. *)
Lemma parse_int_char m t base r :
  is_ity t -> 2 <= base <= 36 -> rwf r -> Forall is_byte (view_remaining r) ->
  (base <= 10 \/ stops_clean base (snd (split_sign (view_remaining r)))) ->
  let s := view_remaining r in
  let spec := read_int_spec (imin t) (imax t) base s in
  (exactly_parsed m t (literal_value base s) ->
   parse_int m t base r = (fst spec, set_pos r (rpos r + snd spec))) /\
  (m = iso -> signed t = true ->
   parse_int m t base r = (fst spec, set_pos r (rpos r + snd spec)) \/
   fst (parse_int m t base r) = Undef /\ ~ in_range (upcasted t) (literal_value base s)).
Proof.
  intros HT Hb W DA1 DA2 s spec.
  unfold parse_int, parse_sign_and_int.
  assert (PS : (s = [] /\ parse_sign r = (Err eof, r)) \/
    exists neg body, split_sign s = (neg, body) /\ s <> [] /\
      (length body <= length s)%nat /\
      parse_sign r = (Ok neg, set_pos r (rpos r + (length s - length body))) /\
      skipn (length s - length body) s = body /\ digits_agree base body).
  { unfold parse_sign, s. destruct (peek_cases r W) as [(c & s' & Es & ->)|(Es & ->)].
    - right. assert (CR : (1 <= cnt_remaining r)%nat) by (rewrite <- view_length, Es; simpl; lia).
      rewrite Es in *.
      destruct (c =? ch_plus) eqn:E1; [|destruct (c =? ch_minus) eqn:E2].
      + replace c with 43 in * by lia. exists false, s'. simpl split_sign. rewrite pop_pos by lia.
        replace (length (43%Z :: s') - length s')%nat with 1%nat by (cbn [length]; lia).
        repeat split; auto; try discriminate; try (simpl; lia); now inversion DA1.
      + replace c with 45 in * by lia. exists true, s'. simpl split_sign. rewrite pop_pos by lia.
        replace (length (45%Z :: s') - length s')%nat with 1%nat by (cbn [length]; lia).
        repeat split; auto; try discriminate; try (simpl; lia); now inversion DA1.
      + exists false, (c :: s'). rewrite Nat.sub_diag, Nat.add_0_r, set_pos_same.
        assert (SP : split_sign (c :: s') = (false, c :: s')).
        2: { rewrite SP in *. repeat split; auto; try discriminate; apply DA. }
        unfold split_sign. assert (c <> 43 /\ c <> 45) as (N1 & N2) by lia. clear -N1 N2.
        destruct c as [|p|p]; try reflexivity.
        do 6 (destruct p as [p|p|]; try reflexivity; try lia).
    - left. rewrite Es. split; reflexivity. }
  destruct PS as [(Es & ->)|(neg & body & Esp & Ns & Hlen & -> & Hsk & DAb)].
  { unfold spec, read_int_spec. rewrite Es. simpl. rewrite Nat.add_0_r, set_pos_same. auto. }
  cbn [sbind].
  set (k := (length s - length body)%nat) in *.
  set (r1 := set_pos r (rpos r + k)).
  assert (Hk : (k <= cnt_remaining r)%nat) by (rewrite <- view_length; unfold k, s; lia).
  assert (W1 : rwf r1) by (apply rwf_set; auto).
  assert (V1 : view_remaining r1 = body) by (unfold r1; rewrite view_set_pos; exact Hsk).
  unfold detail_parse_int.
  replace (is_valid_number_base base) with true by (unfold is_valid_number_base; lia).
  cbn [negb]. unfold read_char.
  destruct (peek_cases r1 W1) as [(c & body' & Eb & ->)|(Eb & ->)]; rewrite V1 in Eb.
  2:{ cbn [sbind]. unfold spec, read_int_spec. rewrite Esp, Eb. simpl. rewrite Nat.add_0_r, set_pos_same. auto. }
  cbn [sbind]. unfold spec, read_int_spec, literal_value. rewrite Esp, Eb in *.
  assert (Bc : is_byte c) by (destruct DAb as (Bb & _); now inversion Bb).
  assert (Cc := digits_agree_head _ _ _ DAb).
  rewrite (char_to_digit_spec base c Bc ltac:(lia) Cc).
  cbn [digit_run]. destruct (is_digit base c) eqn:D.
  2:{ simpl. rewrite Nat.add_0_r, set_pos_same. auto. }
  apply (digits_agree_tail _ _ _ D) in DAb.
  destruct (digit_value c) as [d|] eqn:Ed; [|unfold is_digit in D; now rewrite Ed in D].
  assert (Hd : 0 <= d < base).
  { apply (char_to_digit_bound c base). rewrite char_to_digit_spec by (auto; lia). now rewrite D, Ed. }
  assert (RD := upcasted_big t HT).
  assert (SU : signed (upcasted t) = signed t).
  { unfold is_ity in HT. simpl in HT. repeat (destruct HT as [<-|HT]; [reflexivity|]). contradiction. }
  assert (LO : (0 <=? imin t) = negb (signed t)).
  { unfold is_ity in HT. simpl in HT. repeat (destruct HT as [<-|HT]; [reflexivity|]). contradiction. }
  rewrite LO, SU. rewrite (andb_comm neg).
  destruct (negb (signed t) && neg) eqn:UN.
  { rewrite andb_false_r. simpl. rewrite Nat.add_0_r, set_pos_same. auto. }
  cbn [negb]. rewrite andb_true_r.
  assert (NEG : signed t && neg = neg) by (destruct (signed t), neg; auto; discriminate).
  rewrite NEG.
  set (r2 := set_pos r1 (rpos r1 + 1)).
  assert (V2 : view_remaining r2 = body') by (unfold r2; rewrite view_set_pos, V1; reflexivity).
  assert (W2 : rwf r2) by (apply rwf_set; auto; rewrite <- view_length, V1; simpl; lia).
  assert (LP := parse_int_loop_ok m (upcasted t) base neg RD Hb).
  specialize (LP ltac:(intros ->; rewrite SU; destruct (signed t); auto; discriminate)).
  specialize (LP (S (length (rtext r2))) r2 0 0 d 0 W2).
  rewrite V2 in LP. specialize (LP ltac:(rewrite <- V2, view_length; unfold cnt_remaining; lia)).
  assert (R0 : in_range (upcasted t) 0).
  { destruct RD as [->|[->|[->| ->]]]; vm_compute; split; discriminate. }
  specialize (LP ltac:(apply (arith_cases m (upcasted t) 0 RD); exact R0) Hd ltac:(destruct neg; simpl; lia)
                 ltac:(destruct neg; simpl; lia) (or_introl (conj eq_refl R0))).
  cbv zeta in LP.
  destruct (code_digits_spec base body' ltac:(lia) DAb) as (CL & CV).
  set (run := c :: digit_run base body') in *.
  set (V := if neg then - denotes base run else denotes base run) in *.
  assert (EV : acc base neg (if neg then 0 * base - d else 0 * base + d) (code_digits base body') = V).
  { rewrite CV. unfold V, run, denotes. simpl. rewrite Ed. destruct neg; f_equal; f_equal; lia. }
  rewrite EV, CL in LP.
  assert (NAR : bits t <= 16 \/ upcasted t = t).
  { unfold is_ity in HT. simpl in HT. repeat (destruct HT as [<-|HT]; [vm_compute; try (left; discriminate); right; reflexivity|]). contradiction. }
  assert (NARB : bits t <= 16 -> imin (upcasted t) <= imin t /\ imax t <= imax (upcasted t) /\ imax t < 65536 /\ -65536 < imin t).
  { intros HN. unfold is_ity in HT. simpl in HT.
    repeat (destruct HT as [<-|HT]; [vm_compute in HN |- *; repeat split; auto; try discriminate; try (exfalso; now apply HN)|]). contradiction. }
  assert (FIN : (rpos r2 + length (digit_run base body') = rpos r + (k + length run))%nat).
  { unfold r2, r1, run. simpl. lia. }
  destruct (parse_int_loop (S (length (rtext r2))) m (upcasted t) base neg r2 0 0 d) as [[w|e| |] r'].
  - destruct LP as [(-> & RV & ->)|(BG & NR & NI)].
    + assert (G : (if (V <? imin t) || (imax t <? V) then (Err out_of_range, r)
                   else (Ok V, set_pos r2 (rpos r2 + length (digit_run base body')))) =
          (let spec := if (imin t <=? V) && (V <=? imax t) then (Ok V, (length s - length (c :: body') + length run)%nat) else (Err out_of_range, O) in
           (fst spec, set_pos r (rpos r + snd spec)))).
      { destruct ((imin t <=? V) && (V <=? imax t)) eqn:E.
        - replace ((V <? imin t) || (imax t <? V)) with false by lia. cbv zeta. cbn [fst snd]. rewrite FIN. unfold k. rewrite Eb. reflexivity.
        - replace ((V <? imin t) || (imax t <? V)) with true by lia. simpl. rewrite Nat.add_0_r, set_pos_same. reflexivity. }
      split; intros; [exact G|left; exact G].
    + split; [|intros; exfalso; rewrite SU in NI; tauto].
      intros [EP|(EP & _)]; [contradiction|]. specialize (NARB EP). unfold in_range in NR.
      replace ((w <? imin t) || (imax t <? w)) with true by (unfold mg in BG; destruct neg; lia).
      replace ((imin t <=? V) && (V <=? imax t)) with false by lia.
      simpl. rewrite Nat.add_0_r, set_pos_same. reflexivity.
  - destruct LP as (-> & NR).
    assert ((imin t <=? V) && (V <=? imax t) = false).
    { unfold in_range in NR. destruct NAR as [N|N]; [specialize (NARB N)|rewrite N in NR]; lia. }
    rewrite H. simpl. rewrite Nat.add_0_r, set_pos_same. auto.
  - destruct LP as (Hm & Hs & NR). split.
    + intros [EP|(_ & EP)]; [contradiction|]. rewrite SU in Hs. tauto.
    + intros _ _. right. simpl. auto.
  - contradiction.
Qed.

(** ** Delimiters *)

Lemma find_index_some p l i : find_index p l = Some i ->
  exists a c b, l = a ++ c :: b /\ length a = i /\ p c = true /\ Forall (fun x => p x = false) a.
Proof.
  revert i. induction l as [|x l IH]; intros i H; simpl in H; [discriminate|].
  destruct (p x) eqn:E.
  - inversion H; subst. exists [], x, l. repeat split; auto.
  - destruct (find_index p l) as [j|]; [|discriminate]. inversion H; subst.
    destruct (IH j eq_refl) as (a & c & b & -> & <- & Hc & Ha).
    exists (x :: a), c, b. repeat split; auto.
Qed.

Lemma find_index_none p l : find_index p l = None <-> Forall (fun x => p x = false) l.
Proof.
  induction l as [|x l IH]; simpl; [split; auto|].
  destruct (p x) eqn:E.
  - split; [discriminate|]. intros H; inversion H; congruence.
  - destruct (find_index p l); split; simpl; try discriminate; auto.
    + intros H. inversion H; subst. apply IH in H3. discriminate.
    + intros _. constructor; auto. now apply IH.
Qed.

Lemma find_index_first p a c b : Forall (fun x => p x = false) a -> p c = true ->
  find_index p (a ++ c :: b) = Some (length a).
Proof.
  induction a as [|x a IH]; intros Ha Hc; simpl; [now rewrite Hc|].
  inversion Ha; subst. rewrite H1. rewrite IH by auto. reflexivity.
Qed.

Lemma prefixb_spec d l : prefixb d l = true <-> exists b, l = d ++ b.
Proof.
  revert l. induction d as [|x d IH]; intros l; simpl.
  - split; eauto.
  - destruct l as [|y l].
    + split; [discriminate|]. intros (b & H); discriminate.
    + rewrite andb_true_iff, IH, Z.eqb_eq. split.
      * intros (-> & b & ->). now exists b.
      * intros (b & H). inversion H; subst. eauto.
Qed.

Lemma find_str_some d l i : find_str d l = Some i ->
  exists a b, l = a ++ d ++ b /\ length a = i.
Proof.
  revert i. induction l as [|x l IH]; intros i H; cbn [find_str] in H.
  - destruct (prefixb d []) eqn:E; [|discriminate]. inversion H; subst.
    apply prefixb_spec in E. destruct E as (b & E). exists [], b. split; auto.
  - destruct (prefixb d (x :: l)) eqn:E.
    + inversion H; subst. apply prefixb_spec in E. destruct E as (b & E). exists [], b. split; auto.
    + destruct (find_str d l) as [j|]; [|discriminate]. inversion H; subst.
      destruct (IH j eq_refl) as (a & b & -> & <-). exists (x :: a), b. split; auto.
Qed.

Lemma find_str_none d l : find_str d l = None <-> forall a b, l <> a ++ d ++ b.
Proof.
  split.
  - induction l as [|x l IH]; cbn [find_str]; intros H a b E.
    + destruct (prefixb d []) eqn:P; [discriminate|].
      destruct a; [|discriminate]. simpl in E.
      assert (prefixb d [] = true) by (apply prefixb_spec; eauto). congruence.
    + destruct (prefixb d (x :: l)) eqn:P; [discriminate|].
      destruct a as [|y a].
      * assert (prefixb d (x :: l) = true) by (apply prefixb_spec; eauto). congruence.
      * inversion E; subst. destruct (find_str d (a ++ d ++ b)); [discriminate|]. eapply IH; eauto.
  - intros H. destruct (find_str d l) eqn:E; [|reflexivity].
    apply find_str_some in E. destruct E as (a & b & E & _). exfalso. eapply H; eauto.
Qed.

Lemma find_str_least d l i : find_str d l = Some i ->
  forall a b, l = a ++ d ++ b -> (i <= length a)%nat.
Proof.
  revert i. induction l as [|x l IH]; intros i H a b E; cbn [find_str] in H.
  - destruct (prefixb d []); [|discriminate]. inversion H; lia.
  - destruct (prefixb d (x :: l)) eqn:P; [inversion H; lia|].
    destruct (find_str d l) as [j|] eqn:F; [|discriminate]. inversion H; subst.
    destruct a as [|y a].
    + assert (prefixb d (x :: l) = true) by (apply prefixb_spec; eauto). congruence.
    + inversion E; subst. simpl. specialize (IH j eq_refl a b eq_refl). lia.
Qed.

Lemma find_str_first s d a : before_first s d a -> find_str d s = Some (length a).
Proof.
  intros ((b & E) & L). destruct (find_str d s) as [i|] eqn:F.
  - f_equal. assert (i <= length a)%nat by (eapply find_str_least; eauto).
    apply find_str_some in F. destruct F as (a' & b' & E' & <-).
    specialize (L a' b' E'). lia.
  - rewrite find_str_none in F. exfalso. eapply F; eauto.
Qed.

Definition until_result (o : read_until_options) (a d : list Z) : list Z * nat :=
  (if include_delimiter o then a ++ d else a,
   if keep_delimiter o then length a else (length a + length d)%nat).

Lemma view_split r x : rwf r -> rtext r = firstn (rpos r) (rtext r) ++ x -> view_remaining r = x.
Proof. intros W H. unfold view_remaining. now rewrite <- (firstn_skipn (rpos r) (rtext r)) in H at 1; apply app_inv_head in H. Qed.

Lemma firstn_app_le {A} n (l1 l2 : list A) : (n <= length l1)%nat -> firstn n (l1 ++ l2) = firstn n l1.
Proof. intros H. rewrite firstn_app. replace (n - length l1)%nat with O by lia. simpl. apply app_nil_r. Qed.

Lemma firstn_app_exact {A} (l1 l2 : list A) : firstn (length l1) (l1 ++ l2) = l1.
Proof. rewrite firstn_app, Nat.sub_diag, firstn_all. simpl. apply app_nil_r. Qed.

Lemma skipn_app_exact {A} (l1 l2 : list A) : skipn (length l1) (l1 ++ l2) = l2.
Proof. rewrite skipn_app, Nat.sub_diag, skipn_all. reflexivity. Qed.

Lemma at_eof_nonempty r c s : rwf r -> view_remaining r = c :: s -> at_eof r = false.
Proof.
  unfold rwf, at_eof. intros W H. assert (L := view_length r). rewrite H in L. unfold cnt_remaining in L. simpl in L.
  apply Nat.eqb_neq. lia.
Qed.

Lemma read_until_match_found r o a d b : rwf r -> view_remaining r = a ++ d ++ b -> (0 < length (d ++ b))%nat ->
  read_until_match r (rpos r + length a) o (length d) =
  (Ok (fst (until_result o a d)), set_pos r (rpos r + snd (until_result o a d))).
Proof.
  intros W E L. unfold read_until_match.
  assert (LE := view_length r). rewrite E in LE. unfold cnt_remaining in LE. rewrite !app_length in LE.
  rewrite app_length in L. unfold rwf in W.
  replace (at_eof r) with false by (unfold at_eof; symmetry; apply Nat.eqb_neq; lia).
  replace (rpos r + length a =? length (rtext r))%nat with false by (symmetry; apply Nat.eqb_neq; lia).
  change (skipn (rpos r) (rtext r)) with (view_remaining r). rewrite E.
  unfold until_result. simpl fst. simpl snd. f_equal.
  - f_equal. destruct (include_delimiter o).
    + replace (rpos r + length a + length d - rpos r)%nat with (length (a ++ d)) by (rewrite app_length; lia).
      rewrite app_assoc. apply firstn_app_exact.
    + replace (rpos r + length a - rpos r)%nat with (length a) by lia. apply firstn_app_exact.
  - destruct (keep_delimiter o); simpl; f_equal. lia.
Qed.

Lemma read_until_match_none r o n : rwf r -> view_remaining r <> [] ->
  read_until_match r (length (rtext r)) o n =
  if ignore_eof o then (Err invalid_data, r) else (Ok (view_remaining r), set_pos r (rpos r + length (view_remaining r))).
Proof.
  intros W E. unfold read_until_match.
  destruct (view_remaining r) as [|c s] eqn:Ev; [congruence|].
  rewrite (at_eof_nonempty r c s W Ev). rewrite Nat.eqb_refl, <- Ev, view_length.
  unfold cnt_remaining, rwf in *. replace (rpos r + (length (rtext r) - rpos r))%nat with (length (rtext r)) by lia.
  destruct (ignore_eof o); reflexivity.
Qed.

Lemma read_until_match_eof r m o n : rwf r -> view_remaining r = [] -> read_until_match r m o n = (Err eof, r).
Proof.
  intros W E. unfold read_until_match, at_eof.
  assert (L := view_length r). rewrite E in L. unfold cnt_remaining, rwf in *. simpl in L.
  replace (length (rtext r) =? rpos r)%nat with true by (symmetry; apply Nat.eqb_eq; lia). reflexivity.
Qed.

Lemma read_until_spec r p o : rwf r ->
  (view_remaining r = [] -> read_until r p o = (Err eof, r)) /\
  (view_remaining r <> [] -> Forall (fun c => p c = false) (view_remaining r) ->
     read_until r p o = if ignore_eof o then (Err invalid_data, r)
       else (Ok (view_remaining r), set_pos r (rpos r + length (view_remaining r)))) /\
  (forall a c b, view_remaining r = a ++ c :: b -> Forall (fun x => p x = false) a -> p c = true ->
     read_until r p o = (Ok (if include_delimiter o then a ++ [c] else a),
       set_pos r (rpos r + (if keep_delimiter o then length a else length a + 1)))).
Proof.
  intros W. unfold read_until. split; [|split].
  - intros E. now apply read_until_match_eof.
  - intros E F. apply find_index_none in F. rewrite F. now apply read_until_match_none.
  - intros a c b E Ha Hc. rewrite E, (find_index_first p a c b Ha Hc).
    apply (read_until_match_found r o a [c] b); auto. simpl. lia.
Qed.

Lemma read_until_pos_pred r p o :
  read_until_pos r (find_index p (view_remaining r)) o 1 = read_until r p o.
Proof. unfold read_until_pos, read_until. destruct (find_index p (view_remaining r)); reflexivity. Qed.

Lemma read_until_str_spec r d o : rwf r ->
  (view_remaining r = [] -> read_until_str r d o = (Err eof, r)) /\
  (view_remaining r <> [] -> (forall a b, view_remaining r <> a ++ d ++ b) ->
     read_until_str r d o = if ignore_eof o then (Err invalid_data, r)
       else (Ok (view_remaining r), set_pos r (rpos r + length (view_remaining r)))) /\
  (forall a, view_remaining r <> [] -> before_first (view_remaining r) d a ->
     read_until_str r d o = (Ok (if include_delimiter o then a ++ d else a),
       set_pos r (rpos r + (if keep_delimiter o then length a else length a + length d)))).
Proof.
  intros W. unfold read_until_str, read_until_pos. split; [|split].
  - intros E. now apply read_until_match_eof.
  - intros E F. apply find_str_none in F. rewrite F. now apply read_until_match_none.
  - intros a NE BF. rewrite (find_str_first _ _ _ BF). destruct BF as ((b & E) & L).
    apply (read_until_match_found r o a d b); auto.
    destruct (d ++ b) as [|y l] eqn:Edb; simpl; [|lia]. exfalso.
    apply app_eq_nil in Edb. destruct Edb as (-> & ->).
    rewrite app_nil_r in E. specialize (L [] (view_remaining r) eq_refl).
    destruct a; simpl in *; [congruence|lia].
Qed.

(** ** Histories of calls *)

Definition within (r : reader) (v : rval) : Prop :=
  match v with
  | VUnit | VInt _ => True
  | VChar c => nth_error (rtext r) (rpos r) = Some c
  | VView s => exists b, (rpos r + length s <= length (rtext r))%nat /\ rtext r = firstn (rpos r) (rtext r) ++ s ++ b
  end.

Lemma within_view r s b : rwf r -> view_remaining r = s ++ b -> within r (VView s).
Proof.
  unfold rwf, view_remaining, within. intros W E. exists b. rewrite <- E, firstn_skipn.
  split; [|reflexivity]. assert (L := skipn_length (rpos r) (rtext r)). rewrite E, app_length in L. lia.
Qed.

Lemma parse_int_basic m t base r : is_ity t -> rwf r ->
  match parse_int m t base r with
  | (Ok z, r') => rwf r' /\ rtext r' = rtext r
  | (Err _, r') => r' = r
  | (Undef, r') => m = iso /\ signed t = true /\ rwf r' /\ rtext r' = rtext r
  | (Abort, _) => False
  end.
Proof.
  intros HT W. unfold parse_int, parse_sign_and_int.
  assert (PS : match parse_sign r with
               | (Ok _, r') => rwf r' /\ rtext r' = rtext r
               | (Err _, r') => r' = r | _ => False end).
  { unfold parse_sign. destruct (peek_cases r W) as [(c & s' & Es & ->)|(Es & ->)]; [|reflexivity].
    assert (rwf (pop r 1)). { unfold pop, rwf, set_pos, cnt_remaining in *. destruct (_ <=? _)%nat eqn:?; simpl; lia. }
    assert (rtext (pop r 1) = rtext r) by (unfold pop, set_pos; destruct (_ <=? _)%nat; reflexivity).
    destruct (c =? ch_plus); [auto|]. destruct (c =? ch_minus); auto. }
  destruct (parse_sign r) as [[neg|e| |] r1]; try contradiction; cbn [sbind]; [|reflexivity].
  destruct PS as (W1 & T1).
  assert (HS : signed (upcasted t) = signed t).
  { unfold is_ity in HT. simpl in HT. repeat (destruct HT as [<-|HT]; [reflexivity|]). contradiction. }
  assert (Loop : forall m t base neg fuel r value maybe digit, rwf r -> (length (view_remaining r) < fuel)%nat ->
    big_ity t ->
    match parse_int_loop fuel m t base neg r value maybe digit with
    | (Ok z, r') => rwf r' /\ rtext r' = rtext r
    | (Err _, r') => True
    | (Undef, r') => m = iso /\ signed t = true /\ rwf r' /\ rtext r' = rtext r
    | (Abort, _) => False
    end).
  { clear. intros m t base neg. induction fuel as [|fuel IH]; intros r value maybe digit W F B; [lia|].
    cbn [parse_int_loop].
    destruct (arith_cases m t (if neg then maybe - digit else maybe + digit) B) as (_ & A & A2).
    destruct A as [A|(w & A & _)]; rewrite A; [destruct (A2 A) as (? & ? & _); auto|].
    destruct (if neg then value <? w else w <? value); [exact I|].
    destruct (peek_cases r W) as [(c & s' & Es & ->)|(Es & ->)]; [|auto].
    destruct (char_to_digit c base) as [d|]; [|auto].
    assert (CR : (1 <= cnt_remaining r)%nat) by (rewrite <- view_length, Es; simpl; lia).
    assert (W1 : rwf (pop r 1)) by (rewrite pop_pos by lia; apply rwf_set; auto).
    assert (T1 : rtext (pop r 1) = rtext r) by (rewrite pop_pos by lia; reflexivity).
    destruct (arith_cases m t (w * base) B) as (_ & A' & A2').
    destruct A' as [A'|(mb & A' & _)]; rewrite A'; [destruct (A2' A') as (? & ? & _); auto|].
    specialize (IH (pop r 1) w mb d W1). rewrite view_pop, Es, T1 in IH by lia. rewrite Es in F. simpl in *.
    apply IH; [lia|exact B]. }
  unfold detail_parse_int. destruct (is_valid_number_base base); cbn [negb]; [|reflexivity].
  unfold read_char. destruct (peek_cases r1 W1) as [(c & s' & Es & ->)|(Es & ->)]; cbn [sbind]; [|reflexivity].
  destruct (char_to_digit c base) as [d|]; [|reflexivity].
  destruct (_ && _); [reflexivity|].
  assert (CR : (1 <= cnt_remaining r1)%nat) by (rewrite <- view_length, Es; simpl; lia).
  set (r2 := set_pos r1 (rpos r1 + 1)).
  assert (W2 : rwf r2) by (apply rwf_set; auto).
  specialize (Loop m (upcasted t) base (signed (upcasted t) && neg) (S (length (rtext r2))) r2 0 0 d W2).
  specialize (Loop ltac:(rewrite view_length; unfold cnt_remaining; lia) (upcasted_big t HT)).
  destruct (parse_int_loop _ _ _ _ _ _ _ _ _) as [[z|e| |] r']; auto.
  - destruct (_ || _); [reflexivity|]. destruct Loop as (L1 & L2). split; [exact L1|]. now rewrite L2.
  - destruct Loop as (L1 & L2 & L3 & L4). rewrite HS in L2. repeat split; auto. now rewrite L4.
Qed.

Lemma read_until_match_inv r i o n : rwf r -> (rpos r <= i)%nat ->
  (i = length (rtext r) \/ (i + n <= length (rtext r))%nat) ->
  match read_until_match r i o n with
  | (Ok s, r') => rwf r' /\ rtext r' = rtext r /\ exists b, view_remaining r = s ++ b
  | (Err _, r') => r' = r
  | _ => False
  end.
Proof.
  intros W H1 H2. unfold read_until_match.
  destruct (at_eof r); [reflexivity|].
  destruct (i =? length (rtext r))%nat eqn:E.
  - destruct (ignore_eof o); cbn [negb]; [reflexivity|]. unfold rwf. simpl. repeat split; auto.
    exists []. now rewrite app_nil_r.
  - unfold rwf. simpl. split; [|split; [reflexivity|]].
    + destruct (keep_delimiter o); simpl; lia.
    + eexists. symmetry. apply firstn_skipn.
Qed.

Lemma find_index_bound p l i : find_index p l = Some i -> (i + 1 <= length l)%nat.
Proof.
  intros H. apply find_index_some in H. destruct H as (a & c & b & -> & <- & _). rewrite app_length. simpl. lia.
Qed.

Lemma find_str_bound d l i : find_str d l = Some i -> (i + length d <= length l)%nat.
Proof.
  intros H. apply find_str_some in H. destruct H as (a & b & -> & <-). rewrite !app_length. lia.
Qed.

Lemma run_rop_inv r op : rwf r -> rop_ok op ->
  match run_rop r op with
  | (Ok v, r') => rwf r' /\ rtext r' = rtext r /\ within r v
  | (Err _, r') => r' = r
  | (Undef, r') => (exists t b, op = RParseInt iso t b /\ signed t = true) /\ rwf r' /\ rtext r' = rtext r
  | (Abort, _) => False
  end.
Proof.
  intros W OK. destruct op; cbn [run_rop rop_ok] in *.
  - unfold pop. destruct (_ <=? _)%nat eqn:E; unfold rwf, set_pos, cnt_remaining in *; simpl; repeat split; auto; lia.
  - unfold unpop. destruct (_ <=? _)%nat eqn:E; unfold rwf, set_pos in *; simpl; repeat split; auto; lia.
  - destruct (peek_cases r W) as [(c & s' & Es & ->)|(Es & ->)]; cbn; auto.
    repeat split; auto. apply skipn_eq_cons in Es. tauto.
  - unfold read_char. destruct (peek_cases r W) as [(c & s' & Es & ->)|(Es & ->)]; cbn; auto.
    assert (CR : (1 <= cnt_remaining r)%nat) by (rewrite <- view_length, Es; simpl; lia).
    split; [now apply (rwf_set r 1)|]. split; auto. apply skipn_eq_cons in Es. tauto.
  - unfold read_n_chars. destruct (_ <=? _)%nat eqn:E; [|reflexivity].
    cbn [rmap sbind]. split; [apply rwf_set; auto; lia|]. split; [reflexivity|].
    eapply within_view; [exact W|]. symmetry. apply firstn_skipn.
  - unfold read_remaining. split; [unfold rwf; simpl; lia|]. split; [reflexivity|].
    eapply (within_view r _ []); [exact W|]. now rewrite app_nil_r.
  - assert (P := parse_int_basic m t base r OK W). unfold rmap.
    destruct (parse_int m t base r) as [[z|e| |] r']; cbn [sbind]; auto.
    + destruct P; repeat split; auto.
    + destruct P as (-> & P2 & P3 & P4). split; [eauto|]. auto.
  - assert (P := read_until_match_inv r (match find_index p (view_remaining r) with Some i => (rpos r + i)%nat | None => length (rtext r) end) o 1 W).
    unfold read_until, rmap.
    assert (L := view_length r). unfold cnt_remaining in L. unfold rwf in W.
    destruct (find_index p (view_remaining r)) as [i|] eqn:F; [apply find_index_bound in F|];
      specialize (P ltac:(lia) ltac:(lia));
      destruct (read_until_match _ _ _ _) as [[s|e| |] r']; cbn [sbind]; auto; try contradiction;
      destruct P as (P1 & P2 & b & P3); repeat split; auto; eapply within_view; eauto.
  - assert (P := read_until_match_inv r (match find_index (Z.eqb c) (view_remaining r) with Some i => (rpos r + i)%nat | None => length (rtext r) end) o 1 W).
    unfold read_until_char, read_until, rmap.
    assert (L := view_length r). unfold cnt_remaining in L. unfold rwf in W.
    destruct (find_index (Z.eqb c) (view_remaining r)) as [i|] eqn:F; [apply find_index_bound in F|];
      specialize (P ltac:(lia) ltac:(lia));
      destruct (read_until_match _ _ _ _) as [[s|e| |] r']; cbn [sbind]; auto; try contradiction;
      destruct P as (P1 & P2 & b & P3); repeat split; auto; eapply within_view; eauto.
  - assert (P := read_until_match_inv r (match find_str d (view_remaining r) with Some i => (rpos r + i)%nat | None => length (rtext r) end) o (length d) W).
    unfold read_until_str, read_until_pos, rmap.
    assert (L := view_length r). unfold cnt_remaining in L. unfold rwf in W.
    destruct (find_str d (view_remaining r)) as [i|] eqn:F; [apply find_str_bound in F|];
      specialize (P ltac:(lia) ltac:(lia));
      destruct (read_until_match _ _ _ _) as [[s|e| |] r']; cbn [sbind]; auto; try contradiction;
      destruct P as (P1 & P2 & b & P3); repeat split; auto; eapply within_view; eauto.
  - assert (P := read_until_match_inv r (match find_index (mem g) (view_remaining r) with Some i => (rpos r + i)%nat | None => length (rtext r) end) o 1 W).
    unfold read_until_any_of, read_until_pos, rmap.
    assert (L := view_length r). unfold cnt_remaining in L. unfold rwf in W.
    destruct (find_index _ (view_remaining r)) as [i|] eqn:F; [apply find_index_bound in F|];
      specialize (P ltac:(lia) ltac:(lia));
      destruct (read_until_match _ _ _ _) as [[s|e| |] r']; cbn [sbind]; auto; try contradiction;
      destruct P as (P1 & P2 & b & P3); repeat split; auto; eapply within_view; eauto.
  - assert (P := read_until_match_inv r (match find_index (fun c => negb (mem g c)) (view_remaining r) with Some i => (rpos r + i)%nat | None => length (rtext r) end) o 1 W).
    unfold read_until_none_of, read_until_pos, rmap.
    assert (L := view_length r). unfold cnt_remaining in L. unfold rwf in W.
    destruct (find_index _ (view_remaining r)) as [i|] eqn:F; [apply find_index_bound in F|];
      specialize (P ltac:(lia) ltac:(lia));
      destruct (read_until_match _ _ _ _) as [[s|e| |] r']; cbn [sbind]; auto; try contradiction;
      destruct P as (P1 & P2 & b & P3); repeat split; auto; eapply within_view; eauto.
  - unfold read_if_match_char. destruct (peek_cases r W) as [(x & s' & Es & ->)|(Es & ->)]; cbn [rmap sbind]; auto.
    destruct (x =? c) eqn:E; cbn [rmap sbind]; auto.
    assert (CR : (1 <= cnt_remaining r)%nat) by (rewrite <- view_length, Es; simpl; lia).
    split; [now apply (rwf_set r 1)|]. split; auto. apply skipn_eq_cons in Es. simpl.
    replace c with x by lia. tauto.
  - unfold read_if_match_str. destruct (cnt_remaining r <? length s)%nat eqn:E; [reflexivity|].
    destruct (prefixb _ _); [|reflexivity].
    cbn [rmap sbind]. split; [apply rwf_set; auto; lia|]. split; [reflexivity|].
    eapply within_view; [exact W|]. symmetry. apply firstn_skipn.
Qed.

Lemma run_rops_inv ops : forall r, rwf r -> Forall rop_ok ops ->
  let (os, r') := run_rops r ops in rwf r' /\ rtext r' = rtext r.
Proof.
  induction ops as [|op ops IH]; intros r W F; simpl; [auto|].
  inversion F; subst. assert (P := run_rop_inv r op W H1).
  destruct (run_rop r op) as [o r1].
  assert (rwf r1 /\ rtext r1 = rtext r) as (W1 & T1).
  { destruct o; intuition; subst; auto. }
  specialize (IH r1 W1 H2). destruct (run_rops r1 ops) as [os r2]. destruct IH as (? & ?).
  split; [auto|congruence].
Qed.
