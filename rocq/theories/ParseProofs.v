(** Proofs about Reader.v: everything that [parse_int] can do. *)
From Verif Require Import Base Conversion Reader Specs Format Scan.
From Verif Require Import Lib SpecNum SpecDigits SpecReader SpecSpecs SpecString SpecScan.
From Verif Require Import ConversionProofs ReaderProofs SpecsProofs DigitProofs ScanSpecs ScanNumber ScanInt.

Lemma split_signed neg sign body : signed_text neg sign -> (sign = [] -> forall c l, body = c :: l -> c <> 43 /\ c <> 45) -> split_sign (sign ++ body) = (neg, body).
Proof.
  intros HS HN. destruct neg; cbn [signed_text] in HS; [now subst|]. destruct HS as [-> | ->]; [|reflexivity]. cbn [app]. destruct body as [|c l]; [reflexivity|]. destruct (HN eq_refl c l eq_refl) as [N1 N2].
  unfold split_sign. destruct c as [|p|p]; try reflexivity. do 6 (destruct p as [p|p|]; try reflexivity; try lia).
Qed.

(** An overflow that was not noticed. *)
Definition unnoticed (m : overflow_mode) (t : ity) (V v : Z) : Prop :=
  32 <= bits t /\ in_range t v /\ ~ (m = iso /\ signed t = true) /\ exists k, v = V + k * 2 ^ bits t.

Lemma parse_plain m t base r : is_ity t -> 2 <= base <= 36 -> rwf r -> Forall is_byte (view_remaining r) -> Forall (fun c => ~ odd_char c) (view_remaining r) ->
  let s := view_remaining r in
  let spec := read_int_spec (imin t) (imax t) base s in
  parse_int m t base r = (fst spec, set_pos r (rpos r + snd spec)) \/
  ~ in_range (upcasted t) (literal_value base s) /\
  ((exists v, parse_int m t base r = (Ok v, set_pos r (rpos r + literal_length base s)) /\ unnoticed m t (literal_value base s) v) \/
   (fst (parse_int m t base r) = Undef /\ m = iso /\ signed t = true)).
Proof.
  intros IT Hb W HB HO s spec.
  assert (AG : forall l, Forall is_byte l -> Forall (fun c => ~ odd_char c) l -> digits_agree base l).
  { intros l B O. split; [exact B|]. right. unfold stops_clean. destruct (skipn _ l) as [|c x] eqn:E; [exact Logic.I|]. assert (I : In c l) by (rewrite <- (firstn_skipn (length (digit_run base l)) l), E; apply in_or_app; right; now left).
    rewrite Forall_forall in O. exact (O c I). }
  assert (DEC : {in_range (upcasted t) (literal_value base s)} + {~ in_range (upcasted t) (literal_value base s)}).
  { unfold in_range. destruct (Z_le_dec (imin (upcasted t)) (literal_value base s)); [|right; lia]. destruct (Z_le_dec (literal_value base s) (imax (upcasted t))); [left|right]; lia. }
  destruct DEC as [DEC|DEC].
  { left. apply parse_int_char; auto; [|now left]. right. destruct (sign_cases r W) as [(V & _)|(neg & sign & body & V & _ & HS & HN & _)]; [now rewrite V|].
    rewrite V, (split_signed _ _ _ HS HN). cbn [snd]. rewrite V in HB, HO. apply Forall_app in HB, HO. assert (A := AG body (proj2 HB) (proj2 HO)). destruct A as [_ [A|A]]; [|exact A].
    unfold stops_clean. destruct (skipn _ body) as [|c x] eqn:E; [exact Logic.I|]. assert (I : In c body) by (rewrite <- (firstn_skipn (length (digit_run base body)) body), E; apply in_or_app; right; now left).
    destruct HO as [_ HO]. rewrite Forall_forall in HO. exact (HO c I). }
  destruct (upcasted_facts t IT) as (SU & RU & UC). assert (B := upcasted_big t IT).
  assert (LO : (0 <=? imin t) = negb (signed t)).
  { unfold is_ity in IT. cbn [In] in IT. repeat (destruct IT as [<-|IT]; [reflexivity|]). contradiction. }
  unfold parse_int, parse_sign_and_int. destruct (sign_cases r W) as [(V & _)|(neg & sign & body & V & NE & HS & HN & ->)].
  { exfalso. apply DEC. unfold s. rewrite V. unfold literal_value. cbn. destruct B as [->|[->|[->| ->]]]; vm_compute; split; discriminate. }
  assert (SP : split_sign s = (neg, body)) by (unfold s; rewrite V; now apply split_signed).
  assert (LS : (length s - length body = length sign)%nat) by (unfold s; rewrite V, app_length; lia).
  cbn [sbind]. set (r1 := set_pos r (rpos r + length sign)).
  assert (CR : (length sign <= cnt_remaining r)%nat) by (rewrite <- view_length, V, app_length; lia).
  assert (W1 : rwf r1) by (now apply rwf_set).
  assert (V1 : view_remaining r1 = body) by (unfold r1; rewrite view_set_pos, V; apply skipn_app_exact).
  assert (DA : digits_agree base (view_remaining r1)) by (rewrite V1; rewrite V in HB, HO; apply Forall_app in HB, HO; apply AG; tauto).
  assert (X := clean_int m (upcasted t) base neg r1 B Hb W1 DA). cbv zeta in X. assert (Y := fun w r' => detail_wraps m (upcasted t) base neg r1 w r' B Hb W1 DA). rewrite V1 in X, Y.
  assert (LV : literal_value base s = mg neg (denotes base (digit_run base body))) by (unfold literal_value; now rewrite SP). rewrite <- LV in X, Y.
  assert (NR : (imin t <=? literal_value base s) && (literal_value base s <=? imax t) = false) by (assert (NR := fun H => DEC (RU _ H)); unfold in_range in NR; lia).
  assert (SPEC : spec = (match body with [] => Err eof | _ => match digit_run base body with [] => Err invalid_data | _ => Err out_of_range end end, O)).
  { unfold spec, read_int_spec. rewrite SP. destruct body as [|c l]; [reflexivity|]. destruct (digit_run base (c :: l)) as [|d ds] eqn:ED; [reflexivity|]. unfold mg in LV. now rewrite <- LV, NR. }
  unfold literal_length. rewrite SP, LS, SPEC. cbn [fst snd]. rewrite Nat.add_0_r, set_pos_same. set (run := digit_run base body) in *.
  destruct (detail_parse_int m (upcasted t) base neg r1) as [[w|e| |] r'].
  - destruct X as (RN & NS & -> & RW & [->|(BG & _ & NI)]); [contradiction|]. destruct UC as [(HBt & UT)|(HBt & NAR)].
    + rewrite UT in *. right. split; [exact DEC|]. left. exists w. unfold in_range in RW. replace ((w <? imin t) || (imax t <? w)) with false by lia.
      split; [unfold r1, set_pos; cbn; do 2 f_equal; lia|]. split; [exact HBt|]. split; [exact RW|]. split; [exact NI|]. exact (Y w _ eq_refl).
    + left. replace ((w <? imin t) || (imax t <? w)) with true.
      * destruct body as [|c l]; [contradiction|]. destruct run; [contradiction|]. reflexivity.
      * destruct (NAR _ BG) as [N1 N2]. unfold mg, in_range in *. destruct neg; lia.
  - left. destruct X as [(E & ->)|[(E1 & E2 & ->)|(E1 & -> & _)]].
    + rewrite E. reflexivity.
    + destruct body; [contradiction|]. rewrite E2. reflexivity.
    + destruct body; [contradiction|]. destruct run; [contradiction|]. reflexivity.
  - right. split; [exact DEC|]. right. cbn. rewrite SU in X. tauto.
  - contradiction.
Qed.

Theorem parse_any m t base r : is_ity t -> 2 <= base <= 36 -> rwf r -> Forall is_byte (view_remaining r) ->
  let s := map as_digit (view_remaining r) in
  let spec := read_int_spec (imin t) (imax t) base s in
  parse_int m t base r = (fst spec, set_pos r (rpos r + snd spec)) \/
  ~ in_range (upcasted t) (literal_value base s) /\
  ((exists v, parse_int m t base r = (Ok v, set_pos r (rpos r + literal_length base s)) /\ unnoticed m t (literal_value base s) v) \/
   (fst (parse_int m t base r) = Undef /\ m = iso /\ signed t = true)).
Proof.
  intros IT Hb W HB s spec. assert (W' : rwf (plainly r)) by (unfold rwf, plainly; cbn; rewrite map_length; exact W).
  assert (B' : Forall is_byte (view_remaining (plainly r))) by (rewrite plainly_view; apply Forall_map; eapply Forall_impl; [|exact HB]; apply as_digit_byte).
  assert (O' : Forall (fun c => ~ odd_char c) (view_remaining (plainly r))) by (rewrite plainly_view; apply Forall_map, Forall_forall; intros c _; apply as_digit_odd).
  assert (X := parse_plain m t base (plainly r) IT Hb W' B' O'). cbv zeta in X. rewrite plainly_view in X. fold s in X. fold spec in X. rewrite plainly_parse in X by exact HB.
  assert (T := parse_text m t base r). change (rpos (plainly r)) with (rpos r) in X. destruct X as [X|(X1 & [(v & X2 & X3)|X2])].
  - left. now apply both_move.
  - right. split; [exact X1|]. left. exists v. split; [now apply both_move|exact X3].
  - right. split; [exact X1|]. right. exact X2.
Qed.
