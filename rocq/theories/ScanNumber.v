(** Proofs about Scan.v: reading numbers. *)
From Verif Require Import Base Conversion Reader Specs Format Scan.
From Verif Require Import Lib SpecNum SpecDigits SpecReader SpecSpecs SpecString SpecScan.
From Verif Require Import ConversionProofs ReaderProofs SpecsProofs DigitProofs ScanSpecs.

(** ** Digits *)
Lemma loop_result m t base neg : big_ity t -> forall fuel r value maybe digit w r',
  rwf r -> (length (view_remaining r) < fuel)%nat ->
  parse_int_loop fuel m t base neg r value maybe digit = (Ok w, r') ->
  in_range t w /\ r' = set_pos r (rpos r + length (code_digits base (view_remaining r))).
Proof.
  intros B. induction fuel as [|fuel IH]; intros r value maybe digit w r' W HF H; [lia|]. cbn [parse_int_loop] in H.
  destruct (arith_cases m t (if neg then maybe - digit else maybe + digit) B) as (_ & A & _).
  destruct A as [A|(x & A & RX & _)]; rewrite A in H; [discriminate|].
  destruct (if neg then value <? x else x <? value); [discriminate|].
  destruct (peek_cases r W) as [(c & s & Es & EP)|(Es & EP)]; rewrite EP in H; rewrite Es; cbn [code_digits].
  - destruct (char_to_digit c base) as [d|] eqn:EC.
    + destruct (arith_cases m t (x * base) B) as (_ & A' & _). destruct A' as [A'|(y & A' & _)]; rewrite A' in H; [discriminate|].
      assert (CR : (1 <= cnt_remaining r)%nat) by (rewrite <- view_length, Es; cbn; lia).
      apply IH in H; [|rewrite pop_pos by lia; apply rwf_set; auto|rewrite view_pop, Es by lia; rewrite Es in HF; cbn in *; lia].
      destruct H as [H1 ->]. split; [exact H1|]. rewrite view_pop, Es by lia. cbn [skipn length]. rewrite pop_pos by lia. unfold set_pos. cbn. f_equal. lia.
    + injection H as <- <-. split; [exact RX|]. cbn. now rewrite Nat.add_0_r, set_pos_same.
  - injection H as <- <-. split; [exact RX|]. cbn. now rewrite Nat.add_0_r, set_pos_same.
Qed.

Lemma clean_int m t base neg r : big_ity t -> 2 <= base <= 36 -> rwf r -> digits_agree base (view_remaining r) ->
  let run := digit_run base (view_remaining r) in
  let V := mg neg (denotes base run) in
  match detail_parse_int m t base neg r with
  | (Ok w, r') => run <> [] /\ (neg = true -> signed t = true) /\ r' = set_pos r (rpos r + length run) /\ in_range t w /\
      (w = V \/ (65536 <= mg neg w /\ ~ in_range t V /\ ~ (m = iso /\ signed t = true)))
  | (Err e, _) => (view_remaining r = [] /\ e = eof) \/ (view_remaining r <> [] /\ run = [] /\ e = invalid_data) \/
      (run <> [] /\ e = out_of_range /\ ((neg = true /\ signed t = false) \/ ~ in_range t V))
  | (Undef, _) => m = iso /\ signed t = true /\ run <> [] /\ ~ in_range t V
  | (Abort, _) => False
  end.
Proof.
  intros B Hb W DA run V. unfold detail_parse_int. replace (is_valid_number_base base) with true by (unfold is_valid_number_base; lia). cbn [negb]. unfold read_char.
  destruct (peek_cases r W) as [(c & s & Es & ->)|(Es & ->)]; cbn [sbind]; [|left; auto].
  assert (Bc : is_byte c) by (destruct DA as (X & _); rewrite Es in X; now inversion X).
  rewrite Es in DA. assert (Cc := digits_agree_head _ _ _ DA). rewrite (char_to_digit_spec base c Bc ltac:(lia) Cc).
  assert (Er : run = digit_run base (c :: s)) by (unfold run; now rewrite Es). clearbody run. cbn [digit_run] in Er.
  destruct (is_digit base c) eqn:D; [|right; left; subst run; rewrite Es; split; [discriminate|auto]].
  apply (digits_agree_tail _ _ _ D) in DA. destruct (digit_value c) as [d|] eqn:Ed; [|unfold is_digit in D; now rewrite Ed in D].
  assert (Hd : 0 <= d < base) by (apply (char_to_digit_bound c base); rewrite char_to_digit_spec by (auto; lia); now rewrite D, Ed).
  assert (RN : run <> []) by (subst run; discriminate).
  destruct (negb (signed t) && neg) eqn:UN; [right; right; split; [exact RN|]; split; [reflexivity|left; destruct (signed t), neg; try discriminate; auto]|].
  assert (NEG : signed t && neg = neg) by (destruct (signed t), neg; auto; discriminate). rewrite NEG.
  assert (NS : neg = true -> signed t = true) by (intros ->; destruct (signed t); [reflexivity|discriminate]).
  set (r2 := set_pos r (rpos r + 1)).
  assert (V2 : view_remaining r2 = s) by (unfold r2; rewrite view_set_pos, Es; reflexivity).
  assert (W2 : rwf r2) by (apply rwf_set; auto; rewrite <- view_length, Es; cbn; lia).
  assert (F2 : (length (view_remaining r2) < S (length (rtext r2)))%nat) by (rewrite view_length; unfold cnt_remaining; lia).
  assert (R0 : in_range t 0) by (destruct B as [->|[->|[->| ->]]]; vm_compute; split; discriminate).
  assert (LP := parse_int_loop_ok m t base neg B Hb NS (S (length (rtext r2))) r2 0 0 d 0 W2 F2).
  specialize (LP (proj1 (arith_cases m t 0 B) R0) Hd ltac:(destruct neg; cbn; lia) ltac:(destruct neg; cbn; lia) (or_introl (conj eq_refl R0))). cbv zeta in LP.
  rewrite V2 in LP. destruct (code_digits_spec base s ltac:(lia) DA) as (CL & CV).
  assert (EV : acc base neg (if neg then 0 * base - d else 0 * base + d) (code_digits base s) = V).
  { rewrite CV. unfold V, mg, denotes. rewrite Er. cbn [fold_left]. rewrite Ed. destruct neg; f_equal; f_equal; lia. }
  rewrite EV in LP. destruct (parse_int_loop (S (length (rtext r2))) m t base neg r2 0 0 d) as [[w|e| |] r'] eqn:EL.
  - destruct (loop_result m t base neg B _ _ _ _ _ _ _ W2 F2 EL) as [RW ->]. split; [exact RN|]. split; [exact NS|]. split; [|split; [exact RW|]].
    + rewrite V2, CL, Er. unfold r2, set_pos. cbn. f_equal. lia.
    + destruct LP as [(-> & _)|LP]; [now left|now right].
  - right; right. destruct LP as [-> LP]. auto.
  - destruct LP as (H1 & H2 & H3). auto.
  - exact LP.
Qed.

(** ** Numbers *)
Fixpoint taken_run (base : Z) (s : list Z) : list Z :=
  match s with
  | c :: s => if taken_digit base c then c :: taken_run base s else []
  | [] => []
  end.
Lemma taken_run_map base s : digit_run base (map as_digit s) = map as_digit (taken_run base s).
Proof. induction s as [|c s IH]; [reflexivity|]. cbn [map digit_run taken_run]. fold (taken_digit base c). destruct (taken_digit base c); [|reflexivity]. cbn. now rewrite IH. Qed.

Lemma detail_int m t base neg r : big_ity t -> 2 <= base <= 36 -> rwf r -> Forall is_byte (view_remaining r) ->
  let run := taken_run base (view_remaining r) in
  let V := mg neg (taken_number base run) in
  match detail_parse_int m t base neg r with
  | (Ok w, r') => run <> [] /\ (neg = true -> signed t = true) /\ r' = set_pos r (rpos r + length run) /\ in_range t w /\
      (w = V \/ (65536 <= mg neg w /\ ~ in_range t V /\ ~ (m = iso /\ signed t = true) /\ exists k, w = V + k * 2 ^ bits t))
  | (Err e, _) => (view_remaining r = [] /\ e = eof) \/ (view_remaining r <> [] /\ run = [] /\ e = invalid_data) \/
      (run <> [] /\ e = out_of_range /\ ((neg = true /\ signed t = false) \/ ~ in_range t V))
  | (Undef, _) => m = iso /\ signed t = true /\ run <> [] /\ ~ in_range t V
  | (Abort, _) => False
  end.
Proof.
  intros B Hb W HB run V. assert (X := clean_int m t base neg (plainly r) B Hb). assert (W' : rwf (plainly r)) by (unfold rwf, plainly; cbn; rewrite map_length; exact W). specialize (X W' (plainly_agree base r HB)). cbv zeta in X.
  assert (Y := fun w r' => detail_wraps m t base neg (plainly r) w r' B Hb W' (plainly_agree base r HB)). rewrite plainly_detail in X, Y by exact HB. assert (T := detail_text m t base neg r).
  rewrite plainly_view, taken_run_map in X, Y. rewrite map_length in X. fold run in X, Y. fold (taken_number base run) in X, Y. fold V in X, Y.
  assert (N : map as_digit run <> [] <-> run <> []) by (destruct run; cbn; split; congruence). assert (N' : map as_digit run = [] <-> run = []) by (destruct run; cbn; split; congruence).
  assert (M' : map as_digit (view_remaining r) = [] <-> view_remaining r = []) by (destruct (view_remaining r); cbn; split; congruence).
  destruct (detail_parse_int m t base neg r) as [[w|e| |] r'] eqn:E; cbn [both fst snd] in *.
  - destruct X as (X1 & X2 & X3 & X4 & X5). split; [tauto|]. split; [exact X2|]. split; [|split; [exact X4|]].
    + destruct r as [T0 p0], r' as [T1 p1]. cbn in T. subst T1. unfold plainly, set_pos in *. cbn in *. injection X3 as ->. reflexivity.
    + destruct X5 as [X5|(X5 & X6 & X7)]; [now left|right]. split; [exact X5|]. split; [exact X6|]. split; [exact X7|]. apply (Y w (plainly r')). reflexivity.
  - tauto.
  - tauto.
  - exact X.
Qed.

Lemma taken_run_split base s : exists rest, s = taken_run base s ++ rest /\ Forall (fun c => taken_digit base c = true) (taken_run base s) /\
  forall c l, rest = c :: l -> taken_digit base c = false.
Proof.
  induction s as [|c s IH]; [exists []; repeat split; [constructor|discriminate]|]. cbn [taken_run]. destruct (taken_digit base c) eqn:E.
  - destruct IH as (rest & E1 & F & HR). exists rest. split; [cbn [app]; f_equal; exact E1|]. split; [constructor; auto|exact HR].
  - exists (c :: s). split; [reflexivity|]. split; [constructor|]. intros ? ? [= <- _]. exact E.
Qed.
Lemma taken_run_app base ds rest : Forall (fun c => taken_digit base c = true) ds -> (forall c l, rest = c :: l -> taken_digit base c = false) -> taken_run base (ds ++ rest) = ds.
Proof.
  intros F HR. induction F as [|c ds Hc F IH]; cbn [app taken_run].
  - destruct rest as [|c l]; [reflexivity|]. cbn. now rewrite (HR c l eq_refl).
  - rewrite Hc. f_equal. exact IH.
Qed.

(** How a number is read, in a text which ends after [rest]. *)
Definition number_in (s : scan_specs) (input : list Z) (neg : bool) (base : Z) (sign p ds rest : list Z) : Prop :=
  input = sign ++ p ++ ds ++ rest /\ signed_text neg sign /\ digits_of base ds /\ number_form s base p ds (rest = []) /\
  forall c l, rest = c :: l -> taken_digit base c = false.

(** What the digits [ds] may be read as. *)
Definition value_read (m : overflow_mode) (t : ity) (neg : bool) (base : Z) (ds : list Z) (w : Z) : Prop :=
  in_range t w /\ (w = number_value neg base ds \/ (65536 <= mg neg w /\ ~ in_range t (number_value neg base ds) /\ ~ (m = iso /\ signed t = true) /\ exists k, w = number_value neg base ds + k * 2 ^ bits t)).

Definition good_type (s : scan_specs) : Prop := In (sc_type s) [0; 98; 100; 111; 120].

Lemma sign_cases r : rwf r ->
  (view_remaining r = [] /\ parse_sign r = (Err eof, r)) \/
  exists neg sign body, view_remaining r = sign ++ body /\ sign ++ body <> [] /\ signed_text neg sign /\
    (sign = [] -> forall c l, body = c :: l -> c <> 43 /\ c <> 45) /\ parse_sign r = (Ok neg, set_pos r (rpos r + length sign)).
Proof.
  intros W. unfold parse_sign. destruct (peek_cases r W) as [(c & s & Es & ->)|(Es & ->)]; [right|left; auto].
  assert (CR : (1 <= cnt_remaining r)%nat) by (rewrite <- view_length, Es; cbn; lia). change ch_plus with 43. change ch_minus with 45.
  destruct (c =? 43) eqn:E1; [|destruct (c =? 45) eqn:E2].
  - exists false, [43], s. replace c with 43 in Es by lia. split; [exact Es|]. split; [discriminate|]. split; [right; reflexivity|]. split; [discriminate|]. now rewrite pop_pos by lia.
  - exists true, [45], s. replace c with 45 in Es by lia. split; [exact Es|]. split; [discriminate|]. split; [reflexivity|]. split; [discriminate|]. now rewrite pop_pos by lia.
  - exists false, [], (c :: s). split; [exact Es|]. split; [discriminate|]. split; [left; reflexivity|]. split; [intros _ ? ? [= <- <-]; lia|]. cbn. now rewrite Nat.add_0_r, set_pos_same.
Qed.

Lemma reader_at T n : (n <= length T)%nat -> (skipn n T = [] /\ peek (mk_reader T n) = Err eof /\ read_char (mk_reader T n) = (Err eof, mk_reader T n)) \/
  exists c l, skipn n T = c :: l /\ skipn (S n) T = l /\ (S n <= length T)%nat /\ peek (mk_reader T n) = Ok c /\ read_char (mk_reader T n) = (Ok c, mk_reader T (S n)) /\ pop (mk_reader T n) 1 = mk_reader T (S n).
Proof.
  intros H. destruct (skipn n T) as [|c l] eqn:E.
  - left. split; [reflexivity|]. assert (P : peek (mk_reader T n) = Err eof) by (apply peek_nil; [exact H|exact E]). split; [exact P|]. unfold read_char. now rewrite P.
  - right. exists c, l. destruct (read_at T n c l E) as [R S]. split; [reflexivity|]. split; [exact S|]. split; [apply skip_bound in E; lia|]. split; [now apply (peek_at T n c l)|]. split; [exact R|].
    apply skip_bound in E. unfold pop, cnt_remaining, set_pos. cbn [rtext rpos]. replace (1 <=? length T - n)%nat with true by lia. f_equal. lia.
Qed.

(** The base and the prefix that stand in front of [body]. *)
Definition form (s : scan_specs) (base : Z) (p body : list Z) : Prop :=
  if (sc_type s =? 0) && sc_alternate s
  then base_prefix base p /\ (base = 10 -> exists c l, body = c :: l /\ (c <> 48 \/ l = []))
  else letter_base (sc_type s) base /\ (if sc_alternate s then base_prefix base p else p = []).

Definition base_stage (s : scan_specs) (r : reader) : outcome Z * reader :=
  if (sc_type s =? no_type) && sc_alternate s then
    sdo (base, r) <- (determine_base r, r) ;;
    if base =? 10 then (Ok base, r)
    else
      let r := pop r (if base =? 8 then 1 else 2) in
      sdo (_, r) <- disallow_sign r ;; (Ok base, r)
  else
    sdo (base, r) <- (get_base (sc_type s), r) ;;
    if sc_alternate s && negb (base =? 10) then
      sdo (_, r) <- parse_alternate_form r base ;;
      sdo (_, r) <- disallow_sign r ;; (Ok base, r)
    else (Ok base, r).
Lemma read_number_stages m t s r : read_number m t s r = (sdo (neg, r) <- parse_sign r ;; sdo (base, r) <- base_stage s r ;; detail_parse_int m t base neg r).
Proof. reflexivity. Qed.

Lemma disallow_at T n : (n <= length T)%nat ->
  (exists e, disallow_sign (mk_reader T n) = (Err e, mk_reader T n)) \/ (disallow_sign (mk_reader T n) = (Ok tt, mk_reader T n) /\ exists c l, skipn n T = c :: l /\ c <> 43 /\ c <> 45).
Proof.
  intros H. unfold disallow_sign, peek_s. destruct (reader_at T n H) as [(E & -> & _)|(c & l & E & _ & _ & -> & _)]; cbn [sbind]; [left; eauto|].
  change ch_plus with 43. change ch_minus with 45. destruct ((c =? 43) || (c =? 45)) eqn:EC; [left; eauto|right]. split; [reflexivity|]. exists c, l. split; [exact E|lia].
Qed.
Lemma disallow_ok T n c l : skipn n T = c :: l -> c <> 43 -> c <> 45 -> disallow_sign (mk_reader T n) = (Ok tt, mk_reader T n).
Proof.
  intros E H1 H2. unfold disallow_sign, peek_s. rewrite (peek_at T n c l E). cbn [sbind]. change ch_plus with 43. change ch_minus with 45. now replace ((c =? 43) || (c =? 45)) with false by lia.
Qed.

Lemma pop2 T n a b l : skipn n T = a :: b :: l -> pop (mk_reader T n) 2 = mk_reader T (S (S n)) /\ skipn (S (S n)) T = l /\ (S (S n) <= length T)%nat.
Proof.
  intros E. assert (L := f_equal (@length Z) E). rewrite skipn_length in L. cbn in L. unfold pop, cnt_remaining, set_pos. cbn [rtext rpos].
  replace (2 <=? length T - n)%nat with true by lia. split; [f_equal; lia|]. split; [|lia]. replace (S (S n)) with (n + length [a; b])%nat by (cbn; lia). now apply skip_part.
Qed.

Lemma base_stage_at s T n : good_type s -> (n <= length T)%nat ->
  (exists e r', base_stage s (mk_reader T n) = (Err e, r')) \/
  exists base p body, skipn n T = p ++ body /\ form s base p body /\ base_stage s (mk_reader T n) = (Ok base, mk_reader T (n + length p)).
Proof.
  intros GT HN. unfold base_stage, form. change no_type with 0. destruct ((sc_type s =? 0) && sc_alternate s) eqn:EA.
  - unfold determine_base. destruct (reader_at T n HN) as [(E & _ & ->)|(c & l & E & E1 & H1 & _ & -> & P1)]; [left; cbn; eauto|].
    destruct (c =? 48) eqn:EC; cbn [negb].
    2:{ right. exists 10, [], (c :: l). split; [exact E|]. split; [split; [right; right; right; auto|intros _; exists c, l; split; [reflexivity|left; lia]]|]. cbn. now rewrite Nat.add_0_r. }
    assert (c = 48) as -> by lia. clear EC. destruct (reader_at T (S n) H1) as [(E2 & _ & ->)|(c2 & l2 & E2 & E3 & H2 & _ & -> & _)].
    { right. exists 10, [], (48 :: l). split; [exact E|]. split; [split; [right; right; right; auto|intros _; exists 48, l; split; [reflexivity|right; congruence]]|]. cbn. now rewrite Nat.add_0_r. }
    assert (E4 : skipn n T = 48 :: c2 :: l2) by congruence. destruct (pop2 T n 48 c2 l2 E4) as (P2 & _ & _).
    destruct ((c2 =? 98) || (c2 =? 66)) eqn:EB; [|destruct ((c2 =? 120) || (c2 =? 88)) eqn:EX].
    + cbn [sbind]. change (2 =? 10) with false. change (2 =? 8) with false. cbv iota. rewrite P2.
      destruct (disallow_at T (S (S n)) H2) as [(e & ->)|(-> & _)]; cbn [sbind]; [left; eauto|right]. exists 2, [48; c2], l2. split; [exact E4|].
      split; [|do 2 f_equal; cbn; lia]. split; [left; split; [reflexivity|]; assert (c2 = 98 \/ c2 = 66) as [-> | ->] by lia; auto|lia].
    + cbn [sbind]. change (16 =? 10) with false. change (16 =? 8) with false. cbv iota. rewrite P2.
      destruct (disallow_at T (S (S n)) H2) as [(e & ->)|(-> & _)]; cbn [sbind]; [left; eauto|right]. exists 16, [48; c2], l2. split; [exact E4|].
      split; [|do 2 f_equal; cbn; lia]. split; [right; right; left; split; [reflexivity|]; assert (c2 = 120 \/ c2 = 88) as [-> | ->] by lia; auto|lia].
    + cbn [sbind]. change (8 =? 10) with false. change (8 =? 8) with true. cbv iota. rewrite P1.
      destruct (disallow_at T (S n) H1) as [(e & ->)|(-> & _)]; cbn [sbind]; [left; eauto|right]. exists 8, [48], (c2 :: l2). split; [exact E4|].
      split; [|do 2 f_equal; cbn; lia]. split; [right; left; auto|lia].
  - assert (GB : exists base, get_base (sc_type s) = Ok base /\ letter_base (sc_type s) base).
    { unfold good_type in GT. unfold letter_base. cbn [In] in GT. destruct GT as [<-|[<-|[<-|[<-|[<-|[]]]]]]; cbn; eexists; (split; [reflexivity|tauto]). }
    destruct GB as (base & -> & LB). cbn [sbind].
    destruct (sc_alternate s) eqn:AL; cbn [andb].
    2:{ right. exists base, [], (skipn n T). split; [reflexivity|]. split; [auto|]. cbn. now rewrite Nat.add_0_r. }
    destruct (base =? 10) eqn:E10; cbn [negb].
    { right. exists base, [], (skipn n T). split; [reflexivity|]. split; [|cbn; now rewrite Nat.add_0_r]. split; [exact LB|]. right; right; right. split; [lia|reflexivity]. }
    unfold parse_alternate_form, read_if_match_char. destruct (reader_at T n HN) as [(E & -> & _)|(c & l & E & E1 & H1 & -> & _ & P1)]; [left; cbn; eauto|].
    destruct (c =? 48) eqn:EC; [|left; cbn; eauto]. assert (c = 48) as -> by lia. cbn [sbind]. unfold set_pos. cbn [rtext rpos]. rewrite Nat.add_1_r.
    destruct (base =? 8) eqn:E8.
    { cbn [sbind]. destruct (disallow_at T (S n) H1) as [(e & ->)|(-> & _)]; cbn [sbind]; [left; eauto|right]. exists base, [48], l. split; [exact E|]. split; [|do 2 f_equal; cbn; lia]. split; [exact LB|]. right; left. split; [lia|reflexivity]. }
    destruct (reader_at T (S n) H1) as [(E2 & _ & ->)|(c2 & l2 & E2 & E3 & H2 & _ & -> & _)]; [left; cbn; eauto|]. cbn [sbind].
    assert (E4 : skipn n T = 48 :: c2 :: l2) by congruence.
    destruct (base =? 2) eqn:EB2.
    + destruct ((c2 =? 98) || (c2 =? 66)) eqn:EB; [|left; cbn; eauto]. cbn [sbind].
      destruct (disallow_at T (S (S n)) H2) as [(e & ->)|(-> & _)]; cbn [sbind]; [left; eauto|right]. exists base, [48; c2], l2. split; [exact E4|]. split; [|do 2 f_equal; cbn; lia].
      split; [exact LB|]. left. split; [lia|]. assert (c2 = 98 \/ c2 = 66) as [-> | ->] by lia; auto.
    + destruct ((c2 =? 120) || (c2 =? 88)) eqn:EB; [|left; cbn; eauto]. cbn [sbind].
      destruct (disallow_at T (S (S n)) H2) as [(e & ->)|(-> & _)]; cbn [sbind]; [left; eauto|right]. exists base, [48; c2], l2. split; [exact E4|]. split; [|do 2 f_equal; cbn; lia].
      split; [exact LB|]. right; right; left. split; [|assert (c2 = 120 \/ c2 = 88) as [-> | ->] by lia; auto].
      unfold letter_base in LB. cbn [In] in LB. repeat (destruct LB as [LB|LB]; [injection LB as _ <-; lia|]). contradiction.
Qed.

(** With a first character [d] that is a digit of the base. *)
Lemma digit_plain base d : base <= 16 -> taken_digit base d = true -> d <> 43 /\ d <> 45 /\ d <> 120 /\ d <> 88 /\ (base <= 10 -> d <> 98 /\ d <> 66).
Proof.
  unfold taken_digit, as_digit, is_digit, digit_value. intros HB H. destruct ((58 <=? d) && (d <=? 64)) eqn:E0; [lia|].
  destruct ((48 <=? d) && (d <=? 57)) eqn:E1; [lia|]. destruct ((97 <=? d) && (d <=? 122)) eqn:E2; [lia|]. destruct ((65 <=? d) && (d <=? 90)) eqn:E3; [lia|discriminate].
Qed.
Lemma base_stage_fwd s T n base p ds rest : good_type s -> skipn n T = p ++ ds ++ rest -> digits_of base ds -> number_form s base p ds (rest = []) ->
  base_stage s (mk_reader T n) = (Ok base, mk_reader T (n + length p)).
Proof.
  intros GT E [DN DF] NF. destruct ds as [|d ds]; [congruence|]. assert (D := Forall_inv DF). clear DN.
  assert (HN : (n <= length T)%nat) by (destruct (skipn n T) eqn:X; [destruct p; discriminate|apply skip_bound in X; lia]).
  unfold base_stage. change no_type with 0. unfold number_form in NF. destruct ((sc_type s =? 0) && sc_alternate s) eqn:EA.
  - destruct NF as [BP H10]. unfold determine_base.
    destruct BP as [(-> & BP)|[(-> & ->)|[(-> & BP)|(-> & ->)]]].
    + assert (exists b, p = [48; b] /\ (b = 98 \/ b = 66)) as (b & -> & HB) by (destruct BP as [-> | ->]; [exists 98|exists 66]; auto). cbn [app] in E.
      destruct (read_at T n _ _ E) as [-> E1]. destruct (read_at T (S n) _ _ E1) as [-> E2]. change (48 =? 48) with true. cbn [negb]. replace ((b =? 98) || (b =? 66)) with true by lia. cbn [sbind]. change (2 =? 10) with false. change (2 =? 8) with false. cbv iota zeta.
      destruct (pop2 T n _ _ _ E) as (-> & _ & _). destruct (digit_plain 2 d) as (N1 & N2 & _); [lia|exact D|]. rewrite (disallow_ok T (S (S n)) d (ds ++ rest) E2 N1 N2). cbn. do 2 f_equal. lia.
    + change (str "0") with [48] in E. cbn [app] in E. destruct (read_at T n _ _ E) as [-> E1]. destruct (read_at T (S n) _ _ E1) as [-> E2]. cbn [Z.eqb negb].
      destruct (digit_plain 8 d) as (N1 & N2 & N3 & N4 & N5); [lia|exact D|]. change (48 =? 48) with true. cbn [negb]. replace ((d =? 98) || (d =? 66)) with false by lia. replace ((d =? 120) || (d =? 88)) with false by lia.
      cbn [sbind]. change (8 =? 10) with false. change (8 =? 8) with true. cbv iota zeta. assert (P1 : pop (mk_reader T n) 1 = mk_reader T (S n)).
      { assert (X := skip_bound _ _ _ _ E). unfold pop, cnt_remaining, set_pos. cbn [rtext rpos]. replace (1 <=? length T - n)%nat with true by lia. f_equal. lia. }
      rewrite P1, (disallow_ok T (S n) d (ds ++ rest) E1 N1 N2). cbn. do 2 f_equal. lia.
    + assert (exists b, p = [48; b] /\ (b = 120 \/ b = 88)) as (b & -> & HB) by (destruct BP as [-> | ->]; [exists 120|exists 88]; auto). cbn [app] in E.
      destruct (read_at T n _ _ E) as [-> E1]. destruct (read_at T (S n) _ _ E1) as [-> E2]. change (48 =? 48) with true. cbn [negb]. replace ((b =? 98) || (b =? 66)) with false by lia. replace ((b =? 120) || (b =? 88)) with true by lia. cbn [sbind]. change (16 =? 10) with false. change (16 =? 8) with false. cbv iota zeta.
      destruct (pop2 T n _ _ _ E) as (-> & _ & _). destruct (digit_plain 16 d) as (N1 & N2 & _); [lia|exact D|]. rewrite (disallow_ok T (S (S n)) d (ds ++ rest) E2 N1 N2). cbn. do 2 f_equal. lia.
    + cbn [app] in E. cbn [hd] in H10. destruct (read_at T n _ _ E) as [-> E1]. cbn [length]. rewrite Nat.add_0_r. destruct (H10 eq_refl) as [H|[H HR]].
      * replace (d =? 48) with false by lia. reflexivity.
      * injection H as -> ->. subst rest. change (48 =? 48) with true. cbn [negb]. assert (L1 : (S n <= length T)%nat) by (apply skip_bound in E; lia).
        destruct (reader_at T (S n) L1) as [(_ & _ & ->)|(c & l & X & _)]; [reflexivity|]. rewrite E1 in X. discriminate.
  - destruct NF as [LB PF]. assert (GB : get_base (sc_type s) = Ok base).
    { unfold letter_base in LB. cbn [In] in LB. destruct LB as [LB|[LB|[LB|[LB|[LB|[]]]]]]; injection LB as <- <-; reflexivity. }
    rewrite GB. cbn [sbind]. destruct (sc_alternate s) eqn:AL; cbn [andb]; [|subst p; cbn; now rewrite Nat.add_0_r].
    unfold parse_alternate_form, read_if_match_char.
    destruct PF as [(-> & BP)|[(-> & ->)|[(-> & BP)|(-> & ->)]]].
    + assert (exists b, p = [48; b] /\ (b = 98 \/ b = 66)) as (b & -> & HB) by (destruct BP as [-> | ->]; [exists 98|exists 66]; auto). cbn [app] in E.
      rewrite (peek_at T n _ _ E). change (48 =? 48) with true. change (2 =? 10) with false. change (2 =? 8) with false. change (2 =? 2) with true. cbn [negb sbind]. assert (E1 := proj2 (read_at T n _ _ E)). unfold set_pos. cbn [rtext rpos]. rewrite Nat.add_1_r.
      destruct (read_at T (S n) _ _ E1) as [-> E2]. cbn [sbind]. replace ((b =? 98) || (b =? 66)) with true by lia. cbn [sbind].
      destruct (digit_plain 2 d) as (N1 & N2 & _); [lia|exact D|]. rewrite (disallow_ok T (S (S n)) d (ds ++ rest) E2 N1 N2). cbn. do 2 f_equal. lia.
    + change (str "0") with [48] in E. cbn [app] in E. rewrite (peek_at T n _ _ E). change (48 =? 48) with true. change (8 =? 10) with false. change (8 =? 8) with true. cbn [negb sbind]. assert (E1 := proj2 (read_at T n _ _ E)). unfold set_pos. cbn [rtext rpos]. rewrite Nat.add_1_r.
      destruct (digit_plain 8 d) as (N1 & N2 & N3 & N4 & N5); [lia|exact D|]. rewrite (disallow_ok T (S n) d (ds ++ rest) E1 N1 N2). cbn. do 2 f_equal. lia.
    + assert (exists b, p = [48; b] /\ (b = 120 \/ b = 88)) as (b & -> & HB) by (destruct BP as [-> | ->]; [exists 120|exists 88]; auto). cbn [app] in E.
      rewrite (peek_at T n _ _ E). change (48 =? 48) with true. change (16 =? 10) with false. change (16 =? 8) with false. change (16 =? 2) with false. cbn [negb sbind]. assert (E1 := proj2 (read_at T n _ _ E)). unfold set_pos. cbn [rtext rpos]. rewrite Nat.add_1_r.
      destruct (read_at T (S n) _ _ E1) as [-> E2]. cbn [sbind]. replace ((b =? 120) || (b =? 88)) with true by lia. cbn [sbind].
      destruct (digit_plain 16 d) as (N1 & N2 & _); [lia|exact D|]. rewrite (disallow_ok T (S (S n)) d (ds ++ rest) E2 N1 N2). cbn. do 2 f_equal. lia.
    + cbn. now rewrite Nat.add_0_r.
Qed.

Lemma form_base s base p body : form s base p body -> good_type s -> 2 <= base <= 16.
Proof.
  unfold form, good_type. intros H GT. destruct ((sc_type s =? 0) && sc_alternate s) eqn:E.
  - destruct H as [[(-> & _)|[(-> & _)|[(-> & _)|(-> & _)]]] _]; lia.
  - destruct H as [LB _]. unfold letter_base in LB. cbn [In] in LB. destruct LB as [LB|[LB|[LB|[LB|[LB|[]]]]]]; injection LB as _ <-; lia.
Qed.
Lemma number_form_base s base p ds last : number_form s base p ds last -> good_type s -> 2 <= base <= 16.
Proof.
  unfold number_form, good_type. intros H GT. destruct ((sc_type s =? 0) && sc_alternate s) eqn:E.
  - destruct H as [[(-> & _)|[(-> & _)|[(-> & _)|(-> & _)]]] _]; lia.
  - destruct H as [LB _]. unfold letter_base in LB. cbn [In] in LB. destruct LB as [LB|[LB|[LB|[LB|[LB|[]]]]]]; injection LB as _ <-; lia.
Qed.

Lemma number_forward m t s T n neg base sign p ds rest : good_type s -> number_in s (skipn n T) neg base sign p ds rest ->
  read_number m t s (mk_reader T n) = detail_parse_int m t base neg (mk_reader T (n + length sign + length p)).
Proof.
  intros GT (E & HS & HD & HF & HR). rewrite read_number_stages.
  assert (HN : (n <= length T)%nat).
  { destruct (skipn n T) eqn:X; [|apply skip_bound in X; lia]. destruct HD as [HD _]. destruct sign; [|discriminate]. destruct p; [|discriminate]. destruct ds; [congruence|discriminate]. }
  assert (PS : parse_sign (mk_reader T n) = (Ok neg, mk_reader T (n + length sign))).
  { destruct (sign_cases (mk_reader T n) HN) as [(V & _)|(neg' & sign' & body' & V & NE & HS' & HB' & ->)]; [exfalso|].
    - change (view_remaining (mk_reader T n)) with (skipn n T) in V. rewrite V in E. destruct HD as [HD _]. destruct sign; [|discriminate]. destruct p; [|discriminate]. destruct ds; [congruence|discriminate].
    - change (view_remaining (mk_reader T n)) with (skipn n T) in V. cbn [set_pos rpos rtext].
      assert (PD : exists c l, p ++ ds ++ rest = c :: l /\ c <> 43 /\ c <> 45).
      { assert (HB := number_form_base _ _ _ _ _ HF GT).
        destruct p as [|c p].
        - destruct HD as [HD0 HD1]. destruct ds as [|d ds]; [congruence|]. exists d, (ds ++ rest). split; [reflexivity|]. destruct (digit_plain base d) as (N1 & N2 & _); [lia|now inversion HD1|auto].
        - exists c, (p ++ ds ++ rest). split; [reflexivity|]. assert (c = 48); [|lia]. unfold number_form in HF.
          assert (BP : base_prefix base (c :: p)) by (destruct ((sc_type s =? 0) && sc_alternate s); [tauto|]; destruct HF as [_ HF]; destruct (sc_alternate s); [exact HF|discriminate]).
          destruct BP as [(_ & [BP|BP])|[(_ & BP)|[(_ & [BP|BP])|(_ & BP)]]]; try discriminate; injection BP as BP _; exact BP. }
      destruct PD as (c & l & EP & C1 & C2). rewrite E, EP in V.
      assert (neg = neg' /\ sign = sign') as [-> ->]; [|reflexivity].
      unfold signed_text in HS, HS'. destruct neg, neg'.
      + subst. auto.
      + exfalso. subst sign. destruct HS' as [-> | ->]; [|discriminate]. cbn in V. destruct body' as [|x body']; [discriminate|]. injection V as <- _. destruct (HB' eq_refl 45 body' eq_refl). congruence.
      + exfalso. subst sign'. destruct HS as [-> | ->]; [|discriminate]. cbn in V. injection V as -> _. congruence.
      + destruct HS as [-> | ->], HS' as [-> | ->]; auto; exfalso; cbn in V.
        * injection V as -> _. congruence.
        * destruct body' as [|x body']; [discriminate|]. injection V as <- _. destruct (HB' eq_refl 43 body' eq_refl). congruence. }
  rewrite PS. cbn [sbind]. assert (E1 : skipn (n + length sign) T = p ++ ds ++ rest) by (apply (skip_part _ _ _ _ E)).
  rewrite (base_stage_fwd s T _ base p ds rest GT E1 HD HF). reflexivity.
Qed.

Theorem read_number_at m t s T n : big_ity t -> good_type s -> (n <= length T)%nat -> Forall is_byte (skipn n T) ->
  match read_number m t s (mk_reader T n) with
  | (Ok w, r') => exists neg base sign p ds rest, number_in s (skipn n T) neg base sign p ds rest /\
      r' = mk_reader T (n + length (sign ++ p ++ ds)) /\ (neg = true -> signed t = true) /\ value_read m t neg base ds w
  | (Err e, _) => forall neg base sign p ds rest, number_in s (skipn n T) neg base sign p ds rest ->
      e = out_of_range /\ ((neg = true /\ signed t = false) \/ ~ in_range t (number_value neg base ds))
  | (Undef, _) => m = iso /\ signed t = true /\ exists neg base sign p ds rest, number_in s (skipn n T) neg base sign p ds rest /\ ~ in_range t (number_value neg base ds)
  | (Abort, _) => False
  end.
Proof.
  intros B GT HN CL.
  assert (ERR : forall e r', read_number m t s (mk_reader T n) = (Err e, r') -> forall neg base sign p ds rest, number_in s (skipn n T) neg base sign p ds rest ->
      e = out_of_range /\ ((neg = true /\ signed t = false) \/ ~ in_range t (number_value neg base ds))).
  { intros e r' H neg base sign p ds rest HI. rewrite (number_forward m t s T n _ _ _ _ _ _ GT HI) in H. destruct HI as (E & HS & HD & HF & HR).
    assert (E2 : skipn (n + length sign + length p) T = ds ++ rest) by (rewrite app_assoc in E; rewrite <- Nat.add_assoc, <- app_length; apply (skip_part _ _ _ _ E)).
    assert (HB := number_form_base _ _ _ _ _ HF GT).
    assert (HN2 : (n + length sign + length p <= length T)%nat) by (destruct HD as [HD _]; destruct ds; [congruence|]; apply skip_bound in E2; lia).
    assert (DA : Forall is_byte (skipn (n + length sign + length p) T)).
    { replace (n + length sign + length p)%nat with (n + (length sign + length p))%nat by lia. rewrite <- skipn_skipn_nat. now apply forall_skipn. }
    assert (X := detail_int m t base neg (mk_reader T (n + length sign + length p)) B ltac:(lia) HN2 DA). cbv zeta in X. rewrite H in X.
    change (view_remaining (mk_reader T (n + length sign + length p))) with (skipn (n + length sign + length p) T) in X. rewrite E2, (taken_run_app base ds rest) in X by (apply HD || exact HR).
    destruct X as [(X & _)|[(_ & X & _)|(_ & -> & X)]]; [destruct HD as [HD _]; destruct ds; [congruence|discriminate]|destruct HD; congruence|]. split; [reflexivity|exact X]. }
  destruct (read_number m t s (mk_reader T n)) as [[w|e| |] r'] eqn:ER; [| exact (ERR e r' eq_refl) | | ]; clear ERR; rewrite read_number_stages in ER;
    (destruct (sign_cases (mk_reader T n) HN) as [(V & EP)|(neg & sign & body & V & NE & HS & HB' & EP)]; rewrite EP in ER; cbn [sbind] in ER; [discriminate|]);
    change (view_remaining (mk_reader T n)) with (skipn n T) in V; cbn [set_pos rpos rtext] in ER; unfold set_pos in ER; cbn [rtext rpos] in ER;
    (assert (HN1 : (n + length sign <= length T)%nat) by (assert (L := f_equal (@length Z) V); rewrite skipn_length, app_length in L; lia));
    assert (E1 := skip_part _ _ _ _ V);
    (destruct (base_stage_at s T (n + length sign) GT HN1) as [(e & r2 & EB)|(base & p & body2 & E2 & HF & EB)]; rewrite EB in ER; cbn [sbind] in ER; [discriminate|]);
    assert (HB := form_base _ _ _ _ HF GT);
    (assert (HN2 : (n + length sign + length p <= length T)%nat) by (assert (L := f_equal (@length Z) E2); rewrite skipn_length, app_length in L; lia));
    assert (E3 := skip_part _ _ _ _ E2);
    (assert (DA : Forall is_byte (skipn (n + length sign + length p) T)) by (replace (n + length sign + length p)%nat with (n + (length sign + length p))%nat by lia; rewrite <- skipn_skipn_nat; now apply forall_skipn));
    assert (X := detail_int m t base neg (mk_reader T (n + length sign + length p)) B ltac:(lia) HN2 DA); cbv zeta in X; rewrite ER in X;
    change (view_remaining (mk_reader T (n + length sign + length p))) with (skipn (n + length sign + length p) T) in X; try rewrite E3 in X.
  1,2: destruct (taken_run_split base body2) as (rest & ES & FD & HR);
    assert (NI : taken_run base body2 <> [] -> number_in s (skipn n T) neg base sign p (taken_run base body2) rest);
    [intros RN; split; [rewrite V; f_equal; rewrite <- E1, E2; f_equal; exact ES|]; split; [exact HS|]; split; [split; assumption|]; split; [|exact HR];
     unfold number_form, form in *; destruct ((sc_type s =? 0) && sc_alternate s); [|exact HF]; destruct HF as [HF1 HF2]; split; [exact HF1|]; intros H10; destruct (HF2 H10) as (c & l & -> & HC);
     cbn [taken_run] in *; destruct (taken_digit base c); [|congruence]; cbn [hd]; destruct HC as [HC| ->]; [now left|]; cbn [taken_run app] in *; destruct (Z.eq_dec c 48) as [-> |NC]; [right|now left]; injection ES as <-; auto|].
  - destruct X as (RN & NS & -> & RW & VV). exists neg, base, sign, p, (taken_run base body2), rest. split; [now apply NI|]. split; [|split; [exact NS|]].
    + unfold set_pos. cbn. f_equal. rewrite !app_length. lia.
    + split; [exact RW|]. exact VV.
  - destruct X as (H1 & H2 & RN & H4). split; [exact H1|]. split; [exact H2|]. exists neg, base, sign, p, (taken_run base body2), rest. split; [now apply NI|exact H4].
  - exact X.
Qed.
