(** Proofs about Specs.v: what specifications are accepted and what they mean. *)
From Verif Require Import Base Conversion Reader Specs Lib SpecNum SpecReader SpecFormat SpecSpecs.
From Verif Require Import ReaderProofs.

(** ** Validation and parsing agree *)
Lemma sbind_ok {A B S} (m : outcome A * S) (f : A -> S -> outcome B * S) b s' :
  sbind m f = (Ok b, s') -> exists a s, m = (Ok a, s) /\ f a s = (Ok b, s').
Proof. destruct m as [[a|e| |] s]; cbn; intros H; try discriminate. eauto. Qed.

Lemma assume_ok {A S} (m : outcome A * S) a s : m = (Ok a, s) -> assume m = (Ok a, s).
Proof. now intros ->. Qed.

Lemma wrap_i32 w : 0 <= w <= imax i32 -> wrap i32 w = w.
Proof. unfold imax, wrap. cbn. intros H. rewrite Z.mod_small by lia. replace (2 ^ (32 - 1) <=? w) with false by lia. reflexivity. Qed.

Lemma parse_int_nonneg r w r' : parse_int fwrapv u32 10 r = (Ok w, r') -> 0 <= w.
Proof.
  unfold parse_int. destruct (parse_sign_and_int fwrapv (upcasted u32) 10 r) as [[v|e| |] r1]; try discriminate.
  cbn [sbind]. destruct (_ || _) eqn:E; intros H; [discriminate|]. injection H as <- <-. change (imin u32) with 0 in E. lia.
Qed.

Ltac sinv H :=
  let a := fresh "x" in let s := fresh "r" in let E := fresh "E" in
  apply sbind_ok in H; destruct H as (a & s & E & H).

Theorem parse_same r s0 s r' : validate_format_specs r s0 = (Ok s, r') -> parse_format_specs r s0 = (Ok s, r').
Proof.
  intros H. unfold validate_format_specs in H. unfold parse_format_specs.
  sinv H. rewrite (assume_ok _ _ _ E). cbn [sbind]. destruct (x =? ch_rbrace); [exact H|]. destruct (x =? ch_lbrace); [discriminate|].
  sinv H. rewrite (assume_ok _ _ _ E0). cbn [sbind].
  assert (RC : forall r c r1 (k : Z -> reader -> outcome (Z * format_specs) * reader), read_char r = (Ok c, r1) -> sbind (assume (read_char r)) k = k c r1).
  { intros ? ? ? k RC. now rewrite RC. }
  sinv H.
  match goal with |- sbind ?m _ = _ => assert (X : m = (Ok x1, r2)) end.
  { destruct (align_of x0); [|destruct (align_of x)]; [| |exact E1]; sinv E1; (rewrite (RC _ _ _ _ E2); exact E1). }
  rewrite X; clear X; cbn [sbind]. destruct x1 as [c1 s1]. clear E E0 E1.
  sinv H. match goal with |- sbind ?m _ = _ => assert (X : m = (Ok x1, r3)) end.
  { destruct ((c1 =? ch_plus) || (c1 =? ch_minus) || (c1 =? 32)); [|exact E]. sinv E. rewrite (RC _ _ _ _ E0). exact E. }
  rewrite X; clear X; cbn [sbind]. destruct x1 as [c2 s2]. clear E.
  sinv H. match goal with |- sbind ?m _ = _ => assert (X : m = (Ok x1, r4)) end.
  { destruct (c2 =? ch_hash); [|exact E]. sinv E. rewrite (RC _ _ _ _ E0). exact E. }
  rewrite X; clear X; cbn [sbind]. destruct x1 as [c3 s3]. clear E.
  sinv H. match goal with |- sbind ?m _ = _ => assert (X : m = (Ok x1, r5)) end.
  { destruct (c3 =? 48); [|exact E]. sinv E. rewrite (RC _ _ _ _ E0). exact E. }
  rewrite X; clear X; cbn [sbind]. destruct x1 as [c4 s4]. clear E.
  sinv H. match goal with |- sbind ?m _ = _ => assert (X : m = (Ok x1, r6)) end.
  { destruct (isdigit c4); [|exact E]. sinv E. cbv zeta. rewrite (assume_ok _ _ _ E0). cbn [sbind]. destruct (imax i32 <? x2) eqn:EM; [discriminate|].
    sinv E. rewrite (RC _ _ _ _ E1). rewrite wrap_i32; [exact E|]. split; [eapply parse_int_nonneg; eauto|lia]. }
  rewrite X; clear X; cbn [sbind]. destruct x1 as [c5 s5]. clear E.
  sinv H. match goal with |- sbind ?m _ = _ => assert (X : m = (Ok x1, r7)) end.
  { destruct (c5 =? 46); [|exact E]. destruct (match peek r6 with Ok n => _ | _ => _ end); [discriminate|]. sinv E. rewrite (assume_ok _ _ _ E0). cbn [sbind]. destruct (imax i32 <? x2) eqn:EM; [discriminate|].
    sinv E. rewrite (RC _ _ _ _ E1). rewrite wrap_i32; [exact E|]. split; [eapply parse_int_nonneg; eauto|lia]. }
  rewrite X; clear X; cbn [sbind]. destruct x1 as [c6 s6]. clear E.
  sinv H. destruct x1 as [c7 s7]. destruct (c7 =? ch_rbrace) eqn:EB; [|discriminate]. injection H as -> ->.
  destruct (isalpha c6 || (c6 =? ch_question)); [|injection E as _ -> ->; reflexivity]. sinv E. injection E as -> <- <-. f_equal.
  unfold read_char in E0. unfold pop. destruct (peek r7) as [c| | |] eqn:EP; try discriminate. injection E0 as _ <-.
  unfold peek, at_eof in EP. destruct (length (rtext r7) =? rpos r7)%nat eqn:EE; [discriminate|].
  destruct (nth_error (rtext r7) (rpos r7)) eqn:EN; [|discriminate]. assert (rpos r7 < length (rtext r7))%nat by (apply nth_error_Some; congruence).
  unfold cnt_remaining. replace (1 <=? length (rtext r7) - rpos r7)%nat with true by lia. reflexivity.
Qed.

(** ** Reading characters at an offset of a text *)
Lemma read_at T n c l : skipn n T = c :: l -> read_char (mk_reader T n) = (Ok c, mk_reader T (S n)) /\ skipn (S n) T = l.
Proof.
  intros H. unfold read_char. rewrite (peek_cons (mk_reader T n) c l H). cbn. rewrite Nat.add_1_r. split; [reflexivity|].
  apply skipn_eq_cons in H. tauto.
Qed.
Lemma peek_at T n c l : skipn n T = c :: l -> peek (mk_reader T n) = Ok c.
Proof. intros H. now rewrite (peek_cons (mk_reader T n) c l H). Qed.
Lemma peek_inv T n c : peek (mk_reader T n) = Ok c -> exists l, skipn n T = c :: l.
Proof.
  unfold peek, at_eof. cbn. destruct (length T =? n)%nat; [discriminate|]. destruct (nth_error T n) eqn:E; [|discriminate]. intros [= <-].
  exists (skipn (S n) T). clear -E. revert T E. induction n as [|n IH]; intros [|x T] E; try discriminate; cbn in *; [congruence|]. rewrite IH by exact E. now destruct T.
Qed.
Lemma read_inv T n c r' : read_char (mk_reader T n) = (Ok c, r') -> r' = mk_reader T (S n) /\ exists l, skipn n T = c :: l.
Proof.
  unfold read_char. destruct (peek (mk_reader T n)) as [x| | |] eqn:E; try discriminate. intros [= -> <-]. unfold set_pos. cbn. rewrite Nat.add_1_r. split; [reflexivity|].
  eapply peek_inv; eauto.
Qed.
Lemma forall_skipn {A} (P : A -> Prop) n l : Forall P l -> Forall P (skipn n l).
Proof. revert l. induction n as [|n IH]; intros l H; [exact H|]. destruct l as [|x l]; [constructor|]. inversion H; subst. now apply IH. Qed.
Lemma skip_part {A} (T : list A) n part l : skipn n T = part ++ l -> skipn (n + length part) T = l.
Proof. intros H. rewrite <- skipn_skipn_nat, H. apply skipn_app_exact. Qed.

(** ** The stages of a specification *)

(** [r] stands behind the character [c]. *)
Definition flag_stage (test : Z -> bool) (f : format_specs -> Z -> format_specs) (c : Z) (s : format_specs) (r : reader) : outcome (Z * format_specs) * reader :=
  if test c then sdo (c', r) <- read_char r ;; (Ok (c', f s c), r) else (Ok (c, s), r).

Lemma flag_stage_ok test f T n c l s c' s' r' : skipn n T = c :: l ->
  flag_stage test f c s (mk_reader T (S n)) = (Ok (c', s'), r') <->
  exists part l', c :: l = part ++ c' :: l' /\ r' = mk_reader T (S (n + length part)) /\
    ((part = [] /\ test c' = false /\ s' = s) \/ (part = [c] /\ test c = true /\ s' = f s c)).
Proof.
  intros H. destruct (read_at _ _ _ _ H) as [_ HS]. unfold flag_stage. destruct (test c) eqn:ET.
  - split.
    + intros E. sinv E. injection E as -> <- <-. apply read_inv in E0. destruct E0 as (-> & l0 & E0). rewrite HS in E0. clear HS. subst l.
      exists [c], l0. cbn [app length]. rewrite Nat.add_1_r. auto 6.
    + intros (part & l' & E & -> & [(-> & X & _)|(-> & _ & ->)]).
      * cbn in E. injection E as -> ->. congruence.
      * cbn in E. injection E as ->. destruct (read_at _ _ _ _ HS) as [-> _]. cbn [sbind length]. now rewrite Nat.add_1_r.
  - split.
    + intros [= -> -> <-]. exists [], l. cbn [app length]. rewrite Nat.add_0_r. auto 6.
    + intros (part & l' & E & -> & [(-> & X & ->)|(-> & X & _)]).
      * cbn in E. injection E as -> ->. cbn. now rewrite Nat.add_0_r.
      * congruence.
Qed.

Definition align_stage (c c2 : Z) (s : format_specs) (r : reader) : outcome (Z * format_specs) * reader :=
  match align_of c2 with
  | Some a => let r := pop r 1 in sdo (c', r) <- read_char r ;; (Ok (c', set_fill (set_align s a) c), r)
  | None =>
    match align_of c with
    | Some a => sdo (c', r) <- read_char r ;; (Ok (c', set_align s a), r)
    | None => (Ok (c, s), r)
    end
  end.
Definition width_stage (c : Z) (s : format_specs) (r : reader) : outcome (Z * format_specs) * reader :=
  if isdigit c then
    let r := unpop r 1 in
    sdo (w, r) <- parse_int fwrapv u32 10 r ;;
    if imax i32 <? w then (Err invalid_format, r)
    else sdo (c', r) <- read_char r ;; (Ok (c', set_width s w), r)
  else (Ok (c, s), r).
Definition precision_stage (c : Z) (s : format_specs) (r : reader) : outcome (Z * format_specs) * reader :=
  if c =? 46 then
    if match peek r with Ok n => negb (isdigit n) | _ => false end then (Err invalid_format, r)
    else
      sdo (p, r) <- parse_int fwrapv u32 10 r ;;
      if imax i32 <? p then (Err invalid_format, r)
      else sdo (c', r) <- read_char r ;; (Ok (c', set_precision s p), r)
  else (Ok (c, s), r).
Definition is_sign (c : Z) := (c =? ch_plus) || (c =? ch_minus) || (c =? 32).
Definition is_type (c : Z) := isalpha c || (c =? ch_question).

Lemma validate_stages r s : validate_format_specs r s =
  sdo (c, r) <- read_char r ;;
  if c =? ch_rbrace then (Ok s, r)
  else if c =? ch_lbrace then (Err invalid_format, r)
  else
    sdo (c2, r) <- peek_s r ;;
    sdo (cs, r) <- align_stage c c2 s r ;;
    sdo (cs, r) <- flag_stage is_sign set_sign (fst cs) (snd cs) r ;;
    sdo (cs, r) <- flag_stage (fun c => c =? ch_hash) (fun s _ => set_alternate s true) (fst cs) (snd cs) r ;;
    sdo (cs, r) <- flag_stage (fun c => c =? 48) (fun s _ => apply_zero_flag s) (fst cs) (snd cs) r ;;
    sdo (cs, r) <- width_stage (fst cs) (snd cs) r ;;
    sdo (cs, r) <- precision_stage (fst cs) (snd cs) r ;;
    sdo (cs, r) <- flag_stage is_type set_type (fst cs) (snd cs) r ;;
    if fst cs =? ch_rbrace then (Ok (snd cs), r) else (Err invalid_format, r).
Proof.
  assert (X : forall (A : Type) (m : outcome (Z * format_specs) * reader) (f g : Z * format_specs -> reader -> outcome A * reader),
     (forall c s r, f (c, s) r = g (c, s) r) -> sbind m f = sbind m g).
  { intros A [[[c s']|e| |] r'] f g E; cbn; auto. }
  unfold validate_format_specs. destruct (read_char r) as [[c| | |] r1]; cbn [sbind]; try reflexivity.
  destruct (c =? ch_rbrace); [reflexivity|]. destruct (c =? ch_lbrace); [reflexivity|].
  destruct (peek_s r1) as [[c2| | |] r2]; cbn [sbind]; try reflexivity.
  repeat (apply X; intros). reflexivity.
Qed.

(** *** Numbers *)
Lemma digit10 c : is_digit 10 c = ((48 <=? c) && (c <=? 57)).
Proof.
  unfold is_digit, digit_value. destruct ((48 <=? c) && (c <=? 57)) eqn:E; [lia|].
  destruct ((97 <=? c) && (c <=? 122)) eqn:E1; [lia|]. destruct ((65 <=? c) && (c <=? 90)) eqn:E2; lia.
Qed.
Lemma digits_run ds l : digits_text ds -> (forall c t, l = c :: t -> ~ (48 <= c <= 57)) -> digit_run 10 (ds ++ l) = ds.
Proof.
  intros (_ & F) HL. induction F as [|c ds Hc F IH]; cbn [app digit_run].
  - destruct l as [|c t]; [reflexivity|]. cbn [digit_run]. rewrite digit10. specialize (HL _ _ eq_refl). replace ((48 <=? c) && (c <=? 57)) with false by lia. reflexivity.
  - rewrite digit10. replace ((48 <=? c) && (c <=? 57)) with true by lia. now rewrite IH.
Qed.
Lemma split_digits c l : 48 <= c <= 57 -> exists ds rest, c :: l = ds ++ rest /\ digits_text ds /\ (forall x t, rest = x :: t -> ~ (48 <= x <= 57)).
Proof.
  revert c. induction l as [|d l IH]; intros c Hc.
  - exists [c], []. split; [reflexivity|]. split; [split; [discriminate|now repeat constructor]|]. discriminate.
  - destruct (Z_le_dec 48 d) as [H1|H1]; [destruct (Z_le_dec d 57) as [H2|H2]|].
    + destruct (IH d ltac:(lia)) as (ds & rest & E & (N & F) & HR). exists (c :: ds), rest. rewrite E. split; [reflexivity|]. split; [split; [discriminate|constructor; auto]|exact HR].
    + exists [c], (d :: l). split; [reflexivity|]. split; [split; [discriminate|now repeat constructor]|]. intros x t [= -> ->]. lia.
    + exists [c], (d :: l). split; [reflexivity|]. split; [split; [discriminate|now repeat constructor]|]. intros x t [= -> ->]. lia.
Qed.

Lemma denotes_nonneg_digits ds : digits_text ds -> 0 <= denotes 10 ds.
Proof. intros H. rewrite <- (digits_run ds [] H) by discriminate. now apply denotes_nonneg. Qed.

Lemma split_sign_digit c l : 48 <= c <= 57 -> split_sign (c :: l) = (false, c :: l).
Proof.
  intros H. unfold split_sign. destruct c as [|p|p]; try reflexivity. do 6 (destruct p as [p|p|]; try reflexivity; try lia).
Qed.

Lemma parse_number T n ds rest : Forall is_byte T -> skipn n T = ds ++ rest -> (n <= length T)%nat -> digits_text ds -> (forall x t, rest = x :: t -> ~ (48 <= x <= 57)) ->
  denotes 10 ds < 2 ^ 32 -> parse_int fwrapv u32 10 (mk_reader T n) = (Ok (denotes 10 ds), mk_reader T (n + length ds)).
Proof.
  intros HB HS HN HD HR HV. assert (HD0 := denotes_nonneg_digits ds HD).
  assert (HB' : Forall is_byte (view_remaining (mk_reader T n))) by (unfold view_remaining; now apply forall_skipn).
  destruct HD as (HNE & HF) eqn:EHD. clear EHD. destruct ds as [|c ds]; [congruence|]. assert (Hc : 48 <= c <= 57) by now inversion HF.
  destruct (parse_int_char fwrapv u32 10 (mk_reader T n)) as [P _]; try assumption; try lia.
  { unfold is_ity. cbn. tauto. }
  assert (V : view_remaining (mk_reader T n) = (c :: ds) ++ rest) by exact HS.
  rewrite V in P. unfold literal_value, read_int_spec in P. cbn [app] in P. rewrite split_sign_digit in P by assumption.
  change (c :: ds ++ rest) with ((c :: ds) ++ rest) in P. rewrite digits_run in P by assumption. cbn [app] in P.
  change (imin u32) with 0 in P. change (imax u32) with (2 ^ 32 - 1) in P. replace ((0 <=? denotes 10 (c :: ds)) && (denotes 10 (c :: ds) <=? 2 ^ 32 - 1)) with true in P by lia.
  cbn [negb andb] in P. rewrite Nat.sub_diag in P. cbn [fst snd Nat.add] in P. apply P. left. split; [exact HD0|]. change (imax (upcasted u32)) with (2 ^ 32 - 1). lia.
Qed.

Lemma parse_int_loop_run m t base neg : forall fuel r value maybe digit w r',
  parse_int_loop fuel m t base neg r value maybe digit = (Ok w, r') ->
  rwf r -> r' = set_pos r (rpos r + length (code_digits base (view_remaining r))).
Proof.
  induction fuel as [|fuel IH]; intros r value maybe digit w r' H W; cbn [parse_int_loop] in H; [discriminate|].
  destruct (arith m t (if neg then maybe - digit else maybe + digit)) as [x| | |]; try discriminate.
  destruct (if neg then value <? x else x <? value); [discriminate|].
  destruct (peek_cases r W) as [(c & s & Es & Ep)|(Es & Ep)]; rewrite Ep in H; rewrite Es; cbn [code_digits].
  - destruct (char_to_digit c base) as [d|] eqn:ED.
    + destruct (arith m t (x * base)) as [y| | |]; try discriminate. assert (CR : (1 <= cnt_remaining r)%nat) by (rewrite <- view_length, Es; cbn; lia).
      apply IH in H; [|rewrite pop_pos by lia; apply rwf_set; auto]. rewrite H. rewrite view_pop, Es by lia. rewrite pop_pos by lia. cbn [skipn set_pos rtext rpos length].
      unfold set_pos. cbn. f_equal. lia.
    + injection H as _ <-. cbn. now rewrite Nat.add_0_r, set_pos_same.
  - injection H as _ <-. cbn. now rewrite Nat.add_0_r, set_pos_same.
Qed.

Lemma parse_number_inv T n ds rest w r' : Forall is_byte T -> skipn n T = ds ++ rest -> (n <= length T)%nat -> digits_text ds -> (forall x t, rest = x :: t -> ~ (48 <= x <= 57)) ->
  parse_int fwrapv u32 10 (mk_reader T n) = (Ok w, r') -> r' = mk_reader T (n + length ds) /\ 0 <= w /\ (denotes 10 ds < 2 ^ 32 -> w = denotes 10 ds).
Proof.
  intros HB HS HN HD HR H. split; [|split].
  - assert (HD' := HD). destruct HD as (HNE & HF). destruct ds as [|c ds]; [congruence|]. assert (Hc : 48 <= c <= 57) by now inversion HF.
    unfold parse_int, parse_sign_and_int, parse_sign in H. cbn [app] in HS. rewrite (peek_at _ _ _ _ HS) in H.
    replace (c =? ch_plus) with false in H by (change ch_plus with 43; lia). replace (c =? ch_minus) with false in H by (change ch_minus with 45; lia).
    cbn [sbind] in H. unfold detail_parse_int in H. change (negb (is_valid_number_base 10)) with false in H. cbv iota in H.
    destruct (read_at _ _ _ _ HS) as [RA RS]. rewrite RA in H. cbn [sbind] in H.
    assert (BC : is_byte c) by (unfold is_byte; lia).
    rewrite char_to_digit_spec in H by (auto; lia). rewrite digit10 in H. replace ((48 <=? c) && (c <=? 57)) with true in H by lia.
    unfold digit_value in H. replace ((48 <=? c) && (c <=? 57)) with true in H by lia. change (signed (upcasted u32)) with false in H. cbn [negb andb] in H.
    destruct (parse_int_loop _ _ _ _ _ _ _ _ _) as [[v| | |] r1] eqn:EL; try discriminate.
    destruct ((v <? imin u32) || (imax u32 <? v)); [discriminate|]. injection H as <- <-.
    apply parse_int_loop_run in EL.
    + rewrite EL. unfold set_pos, view_remaining. cbn [rtext rpos]. rewrite RS.
      assert (FB : Forall is_byte (ds ++ rest)) by (rewrite <- RS; now apply forall_skipn).
      destruct (code_digits_spec 10 (ds ++ rest)) as [CL _]; [lia|split; [assumption|left; lia]|]. rewrite CL.
      assert (DR : digit_run 10 (c :: ds ++ rest) = c :: ds) by (apply (digits_run (c :: ds) rest); assumption). cbn [digit_run] in DR.
      rewrite digit10 in DR. replace ((48 <=? c) && (c <=? 57)) with true in DR by lia. injection DR as ->. f_equal. cbn [length]. lia.
    + unfold rwf. cbn. assert (L := f_equal (@length Z) HS). rewrite skipn_length in L. cbn in L. lia.
  - eapply parse_int_nonneg; eauto.
  - intros HV. rewrite (parse_number T n ds rest) in H by assumption. congruence.
Qed.

Lemma isdigit_byte c : is_byte c -> isdigit c = ((48 <=? c) && (c <=? 57)).
Proof. unfold is_byte, isdigit, schar. intros H. cbv zeta. change ch_0 with 48. change ch_9 with 57. destruct (c <? 128) eqn:E; lia. Qed.
Lemma is_type_byte c : is_byte c -> is_type c = true <-> is_letter c \/ c = 63.
Proof. unfold is_byte, is_type, isalpha, schar, is_letter. intros H. cbv zeta. change ch_question with 63. destruct (c <? 128) eqn:E; lia. Qed.

Lemma head_byte T n c l : Forall is_byte T -> skipn n T = c :: l -> is_byte c.
Proof. intros H E. assert (X := forall_skipn _ n _ H). rewrite E in X. now inversion X. Qed.
Lemma skip_bound {A} (T : list A) n c l : skipn n T = c :: l -> (n < length T)%nat.
Proof. intros H. assert (L := f_equal (@length A) H). rewrite skipn_length in L. cbn in L. lia. Qed.

Lemma number_end ds rest c' l' : digits_text ds -> ds ++ rest = ds ++ c' :: l' -> rest = c' :: l'.
Proof. intros _ H. now apply app_inv_head in H. Qed.

Lemma width_stage_sound T n c l s c' s' r' : Forall is_byte T -> skipn n T = c :: l ->
  width_stage c s (mk_reader T (S n)) = (Ok (c', s'), r') ->
  exists part l', c :: l = part ++ c' :: l' /\ r' = mk_reader T (S (n + length part)) /\
    ((part = [] /\ s' = s) \/ (exists w, number_read part w /\ hd 0 part = c /\ s' = set_width s w)).
Proof.
  intros HB HS H. unfold width_stage in H. assert (BC := head_byte _ _ _ _ HB HS). rewrite isdigit_byte in H by exact BC.
  destruct ((48 <=? c) && (c <=? 57)) eqn:ED.
  - cbv zeta in H. change (unpop (mk_reader T (S n)) 1) with (mk_reader T (S n - 1)) in H. cbn [Nat.sub] in H. rewrite Nat.sub_0_r in H. sinv H.
    destruct (split_digits c l ltac:(lia)) as (ds & rest & E1 & HD & HR).
    assert (HS' := HS). rewrite E1 in HS'.
    destruct (parse_number_inv T n ds rest x r HB HS' ltac:(apply skip_bound in HS; lia) HD HR E) as (-> & W0 & W1).
    destruct (imax i32 <? x) eqn:EM; [discriminate|]. sinv H. injection H as -> <- <-. apply read_inv in E0. destruct E0 as (-> & l0 & E0).
    rewrite (skip_part T n ds rest HS') in E0. subst rest. exists ds, l0. split; [exact E1|]. split; [reflexivity|]. right. exists x.
    split; [split; [exact HD|]; split; [change (imax i32) with (2 ^ 31 - 1) in EM; lia|exact W1]|]. split; [|reflexivity].
    destruct HD as [NE _]. destruct ds; [congruence|]. cbn in E1. now injection E1 as <- _.
  - injection H as -> -> <-. exists [], l. cbn [app length]. rewrite Nat.add_0_r. auto 6.
Qed.

Lemma width_stage_complete T n c l s part c' l' : Forall is_byte T -> skipn n T = c :: l -> c :: l = part ++ c' :: l' -> ~ (48 <= c' <= 57) ->
  (part = [] -> width_stage c s (mk_reader T (S n)) = (Ok (c', s), mk_reader T (S n))) /\
  (forall w, number_read part w -> denotes 10 part < 2 ^ 32 -> width_stage c s (mk_reader T (S n)) = (Ok (c', set_width s w), mk_reader T (S (n + length part)))).
Proof.
  intros HB HS HE HC. unfold width_stage. assert (BC := head_byte _ _ _ _ HB HS). rewrite isdigit_byte by exact BC. split.
  - intros ->. cbn in HE. injection HE as -> ->. replace ((48 <=? c') && (c' <=? 57)) with false by lia. reflexivity.
  - intros w (HD & HW & HV) HL. specialize (HV HL). assert (HD' := HD). destruct HD' as [NE HF]. destruct part as [|d part]; [congruence|].
    assert (d = c) by (cbn in HE; congruence). subst d. assert (Hc : 48 <= c <= 57) by now inversion HF.
    replace ((48 <=? c) && (c <=? 57)) with true by lia. cbv zeta. change (unpop (mk_reader T (S n)) 1) with (mk_reader T (S n - 1)). cbn [Nat.sub]. rewrite Nat.sub_0_r.
    rewrite HE in HS. rewrite (parse_number T n (c :: part) (c' :: l') HB HS ltac:(apply skip_bound in HS; lia) HD ltac:(intros x t [= <- <-]; exact HC) HL).
    cbn [sbind]. replace (imax i32 <? denotes 10 (c :: part)) with false by (change (imax i32) with (2 ^ 31 - 1); lia).
    apply skip_part in HS. destruct (read_at _ _ _ _ HS) as [-> _]. cbn [sbind]. now subst w.
Qed.

Lemma precision_stage_sound T n c l s c' s' r' : Forall is_byte T -> skipn n T = c :: l ->
  precision_stage c s (mk_reader T (S n)) = (Ok (c', s'), r') ->
  exists part l', c :: l = part ++ c' :: l' /\ r' = mk_reader T (S (n + length part)) /\
    ((part = [] /\ s' = s) \/ (exists ds w, part = 46 :: ds /\ number_read ds w /\ s' = set_precision s w)).
Proof.
  intros HB HS H. unfold precision_stage in H. destruct (c =? 46) eqn:EC.
  - destruct (read_at _ _ _ _ HS) as [_ HS1]. destruct l as [|d l].
    + exfalso. destruct (match peek _ with Ok _ => _ | _ => _ end); [discriminate|]. sinv H.
      assert (LL : (n < length T)%nat) by (eapply skip_bound; eauto).
      assert (PK : peek (mk_reader T (S n)) = Err eof) by (apply peek_nil; [unfold rwf; cbn; lia|exact HS1]).
      unfold parse_int, parse_sign_and_int, parse_sign in E. rewrite PK in E. discriminate.
    + rewrite (peek_at _ _ _ _ HS1) in H. assert (BD := head_byte _ _ _ _ HB HS1). rewrite isdigit_byte in H by exact BD.
      destruct ((48 <=? d) && (d <=? 57)) eqn:ED; [|discriminate]. cbn [negb] in H. sinv H.
      destruct (split_digits d l ltac:(lia)) as (ds & rest & E1 & HD & HR). rewrite E1 in HS1.
      destruct (parse_number_inv T (S n) ds rest x r HB HS1 ltac:(apply skip_bound in HS; lia) HD HR E) as (-> & W0 & W1).
      destruct (imax i32 <? x) eqn:EM; [discriminate|]. sinv H. injection H as -> <- <-. apply read_inv in E0. destruct E0 as (-> & l0 & E0).
      rewrite (skip_part T (S n) ds rest HS1) in E0. subst rest. exists (46 :: ds), l0.
      split; [cbn [app]; rewrite <- E1; f_equal; lia|]. split; [cbn [length]; f_equal; lia|]. right. exists ds, x. split; [reflexivity|].
      split; [split; [exact HD|]; split; [change (imax i32) with (2 ^ 31 - 1) in EM; lia|exact W1]|reflexivity].
  - injection H as -> -> <-. exists [], l. cbn [app length]. rewrite Nat.add_0_r. auto 6.
Qed.

Lemma precision_stage_complete T n c l s part c' l' : Forall is_byte T -> skipn n T = c :: l -> c :: l = part ++ c' :: l' -> ~ (48 <= c' <= 57) ->
  (part = [] -> c' <> 46 -> precision_stage c s (mk_reader T (S n)) = (Ok (c', s), mk_reader T (S n))) /\
  (forall ds w, part = 46 :: ds -> number_read ds w -> denotes 10 ds < 2 ^ 32 ->
     precision_stage c s (mk_reader T (S n)) = (Ok (c', set_precision s w), mk_reader T (S (n + length part)))).
Proof.
  intros HB HS HE HC. unfold precision_stage. split.
  - intros -> NC. cbn in HE. injection HE as -> ->. replace (c' =? 46) with false by lia. reflexivity.
  - intros ds w -> (HD & HW & HV) HL. specialize (HV HL). cbn [app] in HE. injection HE as -> El. change (46 =? 46) with true. cbv iota.
    destruct (read_at _ _ _ _ HS) as [_ HS1]. rewrite El in HS1.
    assert (HD' := HD). destruct HD' as [NE HF]. destruct ds as [|d ds]; [congruence|]. assert (Hd : 48 <= d <= 57) by now inversion HF.
    cbn [app] in HS1. rewrite (peek_at _ _ _ _ HS1). rewrite isdigit_byte by (eapply head_byte; eauto). replace ((48 <=? d) && (d <=? 57)) with true by lia. cbn [negb].
    change (d :: ds ++ c' :: l') with ((d :: ds) ++ c' :: l') in HS1.
    rewrite (parse_number T (S n) (d :: ds) (c' :: l') HB HS1 ltac:(apply skip_bound in HS; lia) HD ltac:(intros x t [= <- <-]; exact HC) HL).
    cbn [sbind]. replace (imax i32 <? denotes 10 (d :: ds)) with false by (change (imax i32) with (2 ^ 31 - 1); lia).
    apply skip_part in HS1. destruct (read_at _ _ _ _ HS1) as [-> _]. cbn [sbind]. subst w. do 2 f_equal. cbn [length]. lia.
Qed.

Lemma align_of_some c a : align_of c = Some a <-> align_char c a.
Proof.
  unfold align_of, align_char. destruct (c =? 60) eqn:E1; [|destruct (c =? 94) eqn:E2; [|destruct (c =? 62) eqn:E3]];
    split; intros H; try (injection H as <-; auto with zarith); try discriminate.
  all: try (left; split; [lia|reflexivity]). all: try (right; left; split; [lia|reflexivity]). all: try (right; right; split; [lia|reflexivity]).
  all: destruct H as [(H & ->)|[(H & ->)|(H & ->)]]; try lia; reflexivity.
Qed.
Lemma align_of_none c : align_of c = None <-> c <> 60 /\ c <> 94 /\ c <> 62.
Proof. unfold align_of. destruct (c =? 60) eqn:E1; [|destruct (c =? 94) eqn:E2; [|destruct (c =? 62) eqn:E3]]; split; intros H; try discriminate; try lia; reflexivity. Qed.

Lemma align_stage_sound T n c c2 l s c' s' r' : skipn n T = c :: c2 :: l -> sp_fill s = 32 -> sp_align s = align_none ->
  c <> 123 -> c <> 125 -> align_stage c c2 s (mk_reader T (S n)) = (Ok (c', s'), r') ->
  exists part l' fill a, c :: c2 :: l = part ++ c' :: l' /\ r' = mk_reader T (S (n + length part)) /\
    align_part part fill a /\ s' = set_fill (set_align s a) fill.
Proof.
  intros HS F0 A0 N1 N2 H. unfold align_stage in H. destruct (read_at _ _ _ _ HS) as [_ HS1]. destruct (read_at _ _ _ _ HS1) as [_ HS2].
  destruct (align_of c2) as [a|] eqn:E2; [apply align_of_some in E2|destruct (align_of c) as [a|] eqn:E1; [apply align_of_some in E1|]].
  - cbv zeta in H. rewrite pop_pos in H by (unfold cnt_remaining; cbn; apply skip_bound in HS1; lia). unfold set_pos in H. cbn [rtext rpos] in H. rewrite Nat.add_1_r in H.
    sinv H. injection H as -> <- <-. apply read_inv in E. destruct E as (-> & l0 & E). rewrite HS2 in E. clear HS1 HS2. subst l.
    exists [c; c2], l0, c, a. split; [reflexivity|]. split; [cbn [length]; f_equal; lia|]. split; [|reflexivity]. right; right. exists c2. auto.
  - sinv H. injection H as -> <- <-. apply read_inv in E. destruct E as (-> & l0 & E). rewrite HS1 in E. clear HS1 HS2. injection E as -> ->.
    exists [c], l0, 32, a. split; [reflexivity|]. split; [cbn [length]; f_equal; lia|]. split; [right; left; exists c; auto|]. destruct s; cbn in *. now subst.
  - injection H as -> -> <-. exists [], (c2 :: l), 32, align_none. split; [reflexivity|]. split; [cbn [length]; f_equal; lia|]. split; [left; auto|].
    destruct s'; cbn in *. now subst.
Qed.

Lemma align_stage_complete T n c c2 l s part c' l' fill a : skipn n T = c :: c2 :: l -> sp_fill s = 32 -> sp_align s = align_none ->
  c :: c2 :: l = part ++ c' :: l' -> align_part part fill a -> ~ In c' [60; 94; 62] -> (part = [] -> ~ In c2 [60; 94; 62]) ->
  align_stage c c2 s (mk_reader T (S n)) = (Ok (c', set_fill (set_align s a) fill), mk_reader T (S (n + length part))).
Proof.
  intros HS F0 A0 HE HP HC HC2. unfold align_stage. destruct (read_at _ _ _ _ HS) as [_ HS1]. destruct (read_at _ _ _ _ HS1) as [_ HS2].
  cbn [In] in HC, HC2. destruct HP as [(-> & -> & ->)|[(x & -> & HX & ->)|(x & -> & HX & N1 & N2)]].
  - cbn in HE. injection HE as -> <-. specialize (HC2 eq_refl). rewrite (proj2 (align_of_none c2)), (proj2 (align_of_none c')) by lia.
    cbn [length]. rewrite Nat.add_0_r. destruct s; cbn in *. now subst.
  - cbn in HE. injection HE as -> -> ->. rewrite (proj2 (align_of_none c')) by lia. rewrite (proj2 (align_of_some x a)) by exact HX.
    destruct (read_at _ _ _ _ HS1) as [-> _]. cbn [sbind length]. rewrite Nat.add_1_r. destruct s; cbn in *. now subst.
  - cbn in HE. injection HE as -> -> ->. rewrite (proj2 (align_of_some x a)) by exact HX. cbv zeta.
    rewrite pop_pos by (unfold cnt_remaining; cbn; apply skip_bound in HS1; lia). unfold set_pos. cbn [rtext rpos]. rewrite Nat.add_1_r.
    destruct (read_at _ _ _ _ HS2) as [-> _]. cbn [sbind length]. do 2 f_equal. lia.
Qed.

(** ** Accepted specifications *)
Theorem validate_sound T n s r' : Forall is_byte T -> validate_format_specs (mk_reader T n) default_specs = (Ok s, r') ->
  exists t rest, skipn n T = t ++ rest /\ spec_text t s /\ r' = mk_reader T (n + length t).
Proof.
  intros HB H. rewrite validate_stages in H. sinv H. apply read_inv in E. destruct E as (-> & l & HS).
  change ch_rbrace with 125 in H. change ch_lbrace with 123 in H. destruct (x =? 125) eqn:E1.
  { injection H as <- <-. exists [125], l. split; [rewrite HS; cbn; f_equal; lia|]. split; [|cbn [length]; f_equal; lia].
    exists [], [], [], [], [], [], [], 32, align_none, 0, false, false, 0, (-1), 0. cbn [app]. unfold align_part, sign_part, flag_part, width_part, precision_part, type_part.
    repeat split; auto. }
  destruct (x =? 123) eqn:E2; [discriminate|]. sinv H. unfold peek_s in E. injection E as E <-. destruct (read_at _ _ _ _ HS) as [_ HS1].
  apply peek_inv in E. destruct E as (l2 & E). rewrite HS1 in E. subst l. rename x0 into c2.
  sinv H. destruct x0 as [c3 s3]. destruct (align_stage_sound T n x c2 l2 default_specs c3 s3 r HS eq_refl eq_refl ltac:(lia) ltac:(lia) E) as (fa & l3 & fill & a & P1 & -> & PA & ->).
  clear E HS1. rewrite P1 in HS. assert (HS0 := HS). apply skip_part in HS. set (n3 := (n + length fa)%nat) in *.
  sinv H. destruct x0 as [c4 s4]. cbn [fst snd] in E. apply (flag_stage_ok _ _ _ _ _ _ _ _ _ _ HS) in E. destruct E as (sg & l4 & P2 & -> & PS).
  rewrite P2 in HS, HS0. apply skip_part in HS. set (n4 := (n3 + length sg)%nat) in *.
  sinv H. destruct x0 as [c5 s5]. cbn [fst snd] in E. apply (flag_stage_ok _ _ _ _ _ _ _ _ _ _ HS) in E. destruct E as (al & l5 & P3 & -> & PL).
  rewrite P3 in HS, HS0. apply skip_part in HS. set (n5 := (n4 + length al)%nat) in *.
  sinv H. destruct x0 as [c6 s6]. cbn [fst snd] in E. apply (flag_stage_ok _ _ _ _ _ _ _ _ _ _ HS) in E. destruct E as (ze & l6 & P4 & -> & PZ).
  rewrite P4 in HS, HS0. apply skip_part in HS. set (n6 := (n5 + length ze)%nat) in *.
  sinv H. destruct x0 as [c7 s7]. cbn [fst snd] in E. apply (width_stage_sound _ _ _ _ _ _ _ _ HB HS) in E. destruct E as (wd & l7 & P5 & -> & PW).
  rewrite P5 in HS, HS0. apply skip_part in HS. set (n7 := (n6 + length wd)%nat) in *.
  sinv H. destruct x0 as [c8 s8]. cbn [fst snd] in E. apply (precision_stage_sound _ _ _ _ _ _ _ _ HB HS) in E. destruct E as (pr & l8 & P6 & -> & PP).
  rewrite P6 in HS, HS0. apply skip_part in HS. set (n8 := (n7 + length pr)%nat) in *. assert (BC8 := head_byte _ _ _ _ HB HS).
  sinv H. destruct x0 as [c9 s9]. cbn [fst snd] in E, H. apply (flag_stage_ok _ _ _ _ _ _ _ _ _ _ HS) in E. destruct E as (ty & l9 & P7 & -> & PT).
  rewrite P7 in HS0. destruct (c9 =? 125) eqn:E9; [|discriminate]. injection H as <- <-. replace c9 with 125 in * by lia.
  exists (fa ++ sg ++ al ++ ze ++ wd ++ pr ++ ty ++ [125]), l9. split; [rewrite HS0, <- !app_assoc; reflexivity|].
  split; [|unfold n8, n7, n6, n5, n4, n3; rewrite !app_length; cbn [length]; f_equal; lia].
  assert (QS : exists sign, sign_part sg sign /\ s4 = set_sign (set_fill (set_align default_specs a) fill) sign).
  { destruct PS as [(-> & _ & ->)|(-> & X & ->)]; [exists 0; split; [left; auto|reflexivity]|].
    exists c3. split; [right; split; [reflexivity|]|reflexivity]. unfold is_sign in X. change ch_plus with 43 in X. change ch_minus with 45 in X. cbn. lia. }
  destruct QS as (sign & QS & ->).
  assert (QL : exists alt, flag_part 35 al alt /\ s5 = set_alternate (set_sign (set_fill (set_align default_specs a) fill) sign) alt).
  { destruct PL as [(-> & _ & ->)|(-> & X & ->)]; [exists false; split; reflexivity|]. exists true. split; [unfold flag_part; f_equal; change ch_hash with 35 in X; lia|reflexivity]. }
  destruct QL as (alt & QL & ->).
  assert (QZ : exists zero, flag_part 48 ze zero /\ s6 = with_zero zero (set_alternate (set_sign (set_fill (set_align default_specs a) fill) sign) alt) /\ (zero = false -> c6 <> 48)).
  { destruct PZ as [(-> & X & ->)|(-> & X & ->)]; [exists false; split; [reflexivity|split; [reflexivity|intros _; lia]]|]. exists true. split; [unfold flag_part; f_equal; lia|]. split; [reflexivity|discriminate]. }
  destruct QZ as (zero & QZ & -> & Q48).
  assert (QW : exists w, width_part zero wd w /\ s7 = set_width (with_zero zero (set_alternate (set_sign (set_fill (set_align default_specs a) fill) sign) alt)) w).
  { destruct PW as [(-> & ->)|(w & X1 & X2 & ->)]; [exists 0; split; [left; auto|]; destruct zero; [destruct a|]; reflexivity|].
    exists w. split; [right; split; [exact X1|]|reflexivity]. intros Z0. rewrite X2. auto. }
  destruct QW as (w & QW & ->).
  assert (QP : exists p, precision_part pr p /\ s8 = set_precision (set_width (with_zero zero (set_alternate (set_sign (set_fill (set_align default_specs a) fill) sign) alt)) w) p).
  { destruct PP as [(-> & ->)|(ds & p & -> & X & ->)]; [exists (-1); split; [left; auto|]; destruct zero; [destruct a|]; reflexivity|].
    exists p. split; [right; eauto|reflexivity]. }
  destruct QP as (p & QP & ->).
  assert (QT : exists type, type_part ty type /\ s9 = set_type (set_precision (set_width (with_zero zero (set_alternate (set_sign (set_fill (set_align default_specs a) fill) sign) alt)) w) p) type).
  { destruct PT as [(-> & _ & ->)|(-> & X & ->)]; [exists 0; split; [left; auto|]; destruct zero; [destruct a|]; reflexivity|].
    exists c8. split; [right; split; [reflexivity|]; now apply is_type_byte|reflexivity]. }
  destruct QT as (type & QT & ->).
  exists fa, sg, al, ze, wd, pr, ty, fill, a, sign, alt, zero, w, p, type. split; [reflexivity|].
  repeat (split; [assumption|]). destruct zero; [destruct a|]; reflexivity.
Qed.

(** *** Completeness *)
Definition first (P : Z -> Prop) (l : list Z) : Prop := exists c t, l = c :: t /\ P c.
Lemma first_weaken (P Q : Z -> Prop) l : (forall c, P c -> Q c) -> first P l -> first Q l.
Proof. intros H (c & t & -> & HP). exists c, t. auto. Qed.
Lemma first_app (P : Z -> Prop) a b : (a <> [] -> first P a) -> first P b -> first P (a ++ b).
Proof. intros HA HB. destruct a as [|x a]; [exact HB|]. destruct (HA ltac:(discriminate)) as (c & t & E & H). injection E as -> ->. exists c, (t ++ b). auto. Qed.

Theorem validate_complete T n t rest s : Forall is_byte T -> skipn n T = t ++ rest -> spec_text t s -> small_numbers t ->
  validate_format_specs (mk_reader T n) default_specs = (Ok s, mk_reader T (n + length t)).
Proof.
  intros HB HS HT HN. destruct HT as (fa & sg & al & ze & wd & pr & ty & fill & a & sign & alt & zero & w & p & type & Et & PA & PS & PL & PZ & PW & PP & PT & ->).
  rewrite validate_stages.
  (* what the rest starts with, from the end *)
  assert (F1 : first (fun c => is_letter c \/ c = 63 \/ c = 125) (ty ++ [125])).
  { apply first_app; [|exists 125, []; auto]. intros NE. destruct PT as [(-> & _)|(-> & H)]; [congruence|]. exists type, []. split; [reflexivity|tauto]. }
  assert (F2 : first (fun c => c = 46 \/ is_letter c \/ c = 63 \/ c = 125) (pr ++ ty ++ [125])).
  { apply first_app; [|eapply first_weaken; [|exact F1]; tauto]. intros NE. destruct PP as [(-> & _)|(ds & -> & _)]; [congruence|]. exists 46, ds. auto. }
  assert (F3 : first (fun c => 48 <= c <= 57 /\ (zero = false -> c <> 48) \/ c = 46 \/ is_letter c \/ c = 63 \/ c = 125) (wd ++ pr ++ ty ++ [125])).
  { apply first_app; [|eapply first_weaken; [|exact F2]; intros x HX; right; exact HX]. intros NE. destruct PW as [(-> & _)|(((_ & HF) & _) & HZ)]; [congruence|].
    destruct wd as [|d wd]; [congruence|]. exists d, wd. split; [reflexivity|]. left. split; [now inversion HF|exact HZ]. }
  assert (F4 : first (fun c => 48 <= c <= 57 \/ c = 46 \/ is_letter c \/ c = 63 \/ c = 125) (ze ++ wd ++ pr ++ ty ++ [125])).
  { apply first_app; [|eapply first_weaken; [|exact F3]; intros x [[HX _]|HX]; [left; exact HX|right; exact HX]]. intros NE. unfold flag_part in PZ. destruct zero; subst ze; [|congruence]. exists 48, []. split; [reflexivity|lia]. }
  assert (F5 : first (fun c => c = 35 \/ 48 <= c <= 57 \/ c = 46 \/ is_letter c \/ c = 63 \/ c = 125) (al ++ ze ++ wd ++ pr ++ ty ++ [125])).
  { apply first_app; [|eapply first_weaken; [|exact F4]; tauto]. intros NE. unfold flag_part in PL. destruct alt; subst al; [|congruence]. exists 35, []. auto. }
  assert (F6 : first (fun c => c = 43 \/ c = 45 \/ c = 32 \/ c = 35 \/ 48 <= c <= 57 \/ c = 46 \/ is_letter c \/ c = 63 \/ c = 125) (sg ++ al ++ ze ++ wd ++ pr ++ ty ++ [125])).
  { apply first_app; [|eapply first_weaken; [|exact F5]; tauto]. intros NE. destruct PS as [(-> & _)|(-> & H)]; [congruence|]. exists sign, []. split; [reflexivity|]. cbn in H. lia. }
  (* numbers are small *)
  assert (SW : forall w, number_read wd w -> denotes 10 wd < 2 ^ 32).
  { intros w' (HD & _). apply (HN (fa ++ sg ++ al ++ ze) wd (pr ++ ty ++ [125])); [rewrite Et, <- !app_assoc; reflexivity|exact HD]. }
  assert (SP : forall ds p, pr = 46 :: ds -> number_read ds p -> denotes 10 ds < 2 ^ 32).
  { intros ds p' -> (HD & _). apply (HN (fa ++ sg ++ al ++ ze ++ wd ++ [46]) ds (ty ++ [125])); [rewrite Et, <- !app_assoc; reflexivity|exact HD]. }
  set (len := length t). assert (LEN : len = (length fa + (length sg + (length al + (length ze + (length wd + (length pr + (length ty + 1)))))))%nat) by (unfold len; rewrite Et, !app_length; reflexivity).
  clearbody len. clear HN.
  assert (T2 : t = [125] \/ exists c c2 l, t = c :: c2 :: l /\ c <> 123 /\ c <> 125 /\ (fa = [] -> ~ In c2 [60; 94; 62])).
  { destruct PA as [(-> & _)|[(c & -> & HC & _)|(c & -> & HC & N1 & N2)]].
    - destruct F6 as (c & l & E & HC). cbn [app] in Et. rewrite Et, E. destruct l as [|c2 l].
      + left. f_equal. rewrite !app_assoc in E. change [c] with ([] ++ [c]) in E. apply app_inj_tail in E. now destruct E as [_ <-].
      + right. assert (NC : c <> 125).
        { intros ->. clear - E PS PL PZ PW PP PT. destruct PS as [(-> & _)|(-> & HS)]; [|cbn [app] in E; injection E as E1 _; cbn in HS; lia].
          cbn [app] in E. unfold flag_part in *. destruct alt; subst al; [discriminate|]. cbn [app] in E. destruct zero; subst ze; [discriminate|]. cbn [app] in E.
          destruct PW as [(-> & _)|(((NE & HF) & _) & _)]; [|destruct wd as [|d wd]; [congruence|cbn [app] in E; injection E as E1 _; inversion HF; lia]].
          cbn [app] in E. destruct PP as [(-> & _)|(ds & -> & _)]; [|discriminate]. cbn [app] in E. destruct PT as [(-> & _)|(-> & H)]; [discriminate|].
          cbn [app] in E. injection E as E1 _. unfold is_letter in H. lia. }
        exists c, c2, l. split; [reflexivity|]. split; [unfold is_letter in HC; lia|]. split; [exact NC|]. intros _.
        (* the second character *)
        assert (S2 : forall (part x : list Z), part ++ x = c :: c2 :: l -> Forall (fun y => y <> 60 /\ y <> 94 /\ y <> 62) part ->
                       (first (fun y => y <> 60 /\ y <> 94 /\ y <> 62) x) -> (length part = 0%nat -> ~ In c2 [60; 94; 62]) -> ~ In c2 [60; 94; 62]).
        { intros part x EQ FP FX H0. destruct part as [|y part]; [now apply H0|]. cbn in EQ. injection EQ as -> EQ. destruct part as [|y part].
          - cbn in EQ. destruct FX as (z & tz & -> & HZ). injection EQ as -> _. cbn. lia.
          - cbn in EQ. injection EQ as -> _. inversion FP as [|? ? _ FP']. inversion FP'. cbn. lia. }
        assert (W : forall (P : Z -> Prop) x, first P x -> (forall y, P y -> y <> 60 /\ y <> 94 /\ y <> 62) -> first (fun y => y <> 60 /\ y <> 94 /\ y <> 62) x)
          by (intros P x HF HI; eapply first_weaken; eauto).
        eapply S2; [exact E| | |].
        { destruct PS as [(-> & _)|(-> & HS')]; [constructor|]. repeat constructor; cbn in HS'; lia. }
        { eapply W; [exact F5|]. unfold is_letter. intros; lia. }
        intros L0. destruct sg; [|discriminate]. cbn [app] in E. eapply S2; [exact E| | |].
        { unfold flag_part in PL. destruct alt; subst al; repeat constructor; lia. }
        { eapply W; [exact F4|]. unfold is_letter. intros; lia. }
        intros L1. destruct al; [|discriminate]. cbn [app] in E. eapply S2; [exact E| | |].
        { unfold flag_part in PZ. destruct zero; subst ze; repeat constructor; lia. }
        { eapply W; [exact F3|]. unfold is_letter. intros; lia. }
        intros L2. destruct ze; [|discriminate]. cbn [app] in E. eapply S2; [exact E| | |].
        { destruct PW as [(-> & _)|(((_ & HF) & _) & _)]; [constructor|]. eapply Forall_impl; [|exact HF]. cbn. intros; lia. }
        { eapply W; [exact F2|]. unfold is_letter. intros; lia. }
        intros L3. destruct wd; [|discriminate]. cbn [app] in E. eapply S2; [exact E| | |].
        { destruct PP as [(-> & _)|(ds & -> & ((_ & HF) & _))]; [constructor|]. constructor; [lia|]. eapply Forall_impl; [|exact HF]. cbn. intros; lia. }
        { eapply W; [exact F1|]. unfold is_letter. intros; lia. }
        intros L4. destruct pr; [|discriminate]. cbn [app] in E. eapply S2; [exact E| | |].
        { destruct PT as [(-> & _)|(-> & HT)]; [constructor|]. repeat constructor; unfold is_letter in HT; lia. }
        { exists 125, []. split; [reflexivity|lia]. }
        intros L5. destruct ty; [|discriminate]. discriminate.
    - right. destruct F6 as (c2 & l & E & HC2). exists c, c2, l. rewrite Et, E. split; [reflexivity|]. unfold align_char in HC. split; [lia|]. split; [lia|discriminate].
    - right. rewrite Et. cbn [app]. exists fill, c, (sg ++ al ++ ze ++ wd ++ pr ++ ty ++ [125]). split; [reflexivity|]. split; [exact N1|]. split; [exact N2|discriminate]. }
  destruct T2 as [T2|(c & c2 & l & T2 & N1 & N2 & NA)].
  { rewrite T2 in HS. cbn [app] in HS. destruct (read_at _ _ _ _ HS) as [-> _]. cbn [sbind]. change (125 =? ch_rbrace) with true. cbv iota.
    rewrite T2 in Et. assert (L := f_equal (@length Z) Et). rewrite !app_length in L. cbn in L.
    assert (fa = []) by (destruct fa; cbn in L; [reflexivity|lia]). assert (sg = []) by (destruct sg; cbn in L; [reflexivity|lia]).
    assert (al = []) by (destruct al; cbn in L; [reflexivity|lia]). assert (ze = []) by (destruct ze; cbn in L; [reflexivity|lia]).
    assert (wd = []) by (destruct wd; cbn in L; [reflexivity|lia]). assert (pr = []) by (destruct pr; cbn in L; [reflexivity|lia]).
    assert (ty = []) by (destruct ty; cbn in L; [reflexivity|lia]). subst fa sg al ze wd pr ty.
    unfold align_part, sign_part, flag_part, width_part, precision_part, type_part, number_read, digits_text in *.
    destruct PA as [(_ & -> & ->)|[(? & ? & _)|(? & ? & _)]]; try discriminate. destruct PS as [(_ & ->)|(? & _)]; try discriminate.
    destruct alt; [discriminate|]. destruct zero; [discriminate|]. destruct PW as [(_ & ->)|(((X & _) & _) & _)]; [|congruence].
    destruct PP as [(_ & ->)|(? & ? & _)]; try discriminate. destruct PT as [(_ & ->)|(? & _)]; try discriminate.
    rewrite LEN. cbn [length Nat.add]. rewrite Nat.add_1_r. reflexivity. }
  assert (HS0 := HS). rewrite T2 in HS. cbn [app] in HS. destruct (read_at _ _ _ _ HS) as [-> HS1]. cbn [sbind].
  change ch_rbrace with 125. change ch_lbrace with 123. replace (c =? 125) with false by lia. replace (c =? 123) with false by lia.
  unfold peek_s. rewrite (peek_at _ _ _ _ HS1). cbn [sbind].
  destruct F6 as (c3 & l3 & E3 & H3).
  assert (HE : c :: c2 :: l ++ rest = fa ++ c3 :: l3 ++ rest).
  { change (c :: c2 :: l ++ rest) with ((c :: c2 :: l) ++ rest). change (c3 :: l3 ++ rest) with ((c3 :: l3) ++ rest). rewrite <- T2, <- E3, Et, <- !app_assoc. reflexivity. }
  rewrite (align_stage_complete T n c c2 (l ++ rest) default_specs fa c3 (l3 ++ rest) fill a HS eq_refl eq_refl HE PA ltac:(unfold is_letter in H3; cbn; lia) NA).
  cbn [sbind fst snd]. rewrite HE in HS. apply skip_part in HS. set (n3 := (n + length fa)%nat) in *. clear HE HS1 N1 N2 NA T2.
  destruct F5 as (c4 & l4 & E4 & H4).
  assert (HE : c3 :: l3 ++ rest = sg ++ c4 :: l4 ++ rest) by (change (c3 :: l3 ++ rest) with ((c3 :: l3) ++ rest); rewrite <- E3, E4, <- !app_assoc; reflexivity).
  rewrite (proj2 (flag_stage_ok is_sign set_sign T n3 c3 (l3 ++ rest) (set_fill (set_align default_specs a) fill) c4 (set_sign (set_fill (set_align default_specs a) fill) sign) (mk_reader T (S (n3 + length sg))) HS)).
  2:{ exists sg, (l4 ++ rest). split; [exact HE|]. split; [reflexivity|]. destruct PS as [(-> & ->)|(-> & HSg)].
      - left. split; [reflexivity|]. split; [|reflexivity]. unfold is_sign, is_letter in *. change ch_plus with 43. change ch_minus with 45. lia.
      - right. cbn in HE. injection HE as -> _. split; [reflexivity|]. split; [|reflexivity]. unfold is_sign. change ch_plus with 43. change ch_minus with 45. cbn in HSg. lia. }
  cbn [sbind fst snd]. rewrite HE in HS. apply skip_part in HS. set (n4 := (n3 + length sg)%nat) in *. clear HE.
  destruct F4 as (c5 & l5 & E5 & H5).
  assert (HE : c4 :: l4 ++ rest = al ++ c5 :: l5 ++ rest) by (change (c4 :: l4 ++ rest) with ((c4 :: l4) ++ rest); rewrite <- E4, E5, <- !app_assoc; reflexivity).
  set (s4 := set_sign (set_fill (set_align default_specs a) fill) sign) in *.
  rewrite (proj2 (flag_stage_ok (fun c => c =? ch_hash) (fun s _ => set_alternate s true) T n4 c4 (l4 ++ rest) s4 c5 (set_alternate s4 alt) (mk_reader T (S (n4 + length al))) HS)).
  2:{ exists al, (l5 ++ rest). split; [exact HE|]. split; [reflexivity|]. unfold flag_part in PL. destruct alt; subst al.
      - right. cbn in HE. injection HE as -> _. auto.
      - left. split; [reflexivity|]. split; [|reflexivity]. unfold is_letter in *. change ch_hash with 35. lia. }
  cbn [sbind fst snd]. rewrite HE in HS. apply skip_part in HS. set (n5 := (n4 + length al)%nat) in *. clear HE.
  destruct F3 as (c6 & l6 & E6 & H6).
  assert (HE : c5 :: l5 ++ rest = ze ++ c6 :: l6 ++ rest) by (change (c5 :: l5 ++ rest) with ((c5 :: l5) ++ rest); rewrite <- E5, E6, <- !app_assoc; reflexivity).
  set (s5 := set_alternate s4 alt) in *.
  rewrite (proj2 (flag_stage_ok (fun c => c =? 48) (fun s _ => apply_zero_flag s) T n5 c5 (l5 ++ rest) s5 c6 (with_zero zero s5) (mk_reader T (S (n5 + length ze))) HS)).
  2:{ exists ze, (l6 ++ rest). split; [exact HE|]. split; [reflexivity|]. unfold flag_part in PZ. destruct zero; subst ze.
      - right. cbn in HE. injection HE as -> _. auto.
      - left. split; [reflexivity|]. split; [|reflexivity]. unfold is_letter in *. lia. }
  cbn [sbind fst snd]. rewrite HE in HS. apply skip_part in HS. set (n6 := (n5 + length ze)%nat) in *. clear HE.
  destruct F2 as (c7 & l7 & E7 & H7).
  assert (HE : c6 :: l6 ++ rest = wd ++ c7 :: l7 ++ rest) by (change (c6 :: l6 ++ rest) with ((c6 :: l6) ++ rest); rewrite <- E6, E7, <- !app_assoc; reflexivity).
  set (s6 := with_zero zero s5) in *.
  destruct (width_stage_complete T n6 c6 (l6 ++ rest) s6 wd c7 (l7 ++ rest) HB HS HE ltac:(unfold is_letter in H7; lia)) as [W1 W2].
  assert (WS : width_stage c6 s6 (mk_reader T (S n6)) = (Ok (c7, set_width s6 w), mk_reader T (S (n6 + length wd)))).
  { destruct PW as [(-> & ->)|(HR & _)]; [|apply W2; eauto]. rewrite (W1 eq_refl). cbn [length]. rewrite Nat.add_0_r. do 3 f_equal.
    unfold s6, s5, s4. destruct zero; [destruct a|]; reflexivity. }
  rewrite WS. clear WS W1 W2. cbn [sbind fst snd]. rewrite HE in HS. apply skip_part in HS. set (n7 := (n6 + length wd)%nat) in *. clear HE.
  destruct F1 as (c8 & l8 & E8 & H8).
  assert (HE : c7 :: l7 ++ rest = pr ++ c8 :: l8 ++ rest) by (change (c7 :: l7 ++ rest) with ((c7 :: l7) ++ rest); rewrite <- E7, E8, <- !app_assoc; reflexivity).
  set (s7 := set_width s6 w) in *.
  destruct (precision_stage_complete T n7 c7 (l7 ++ rest) s7 pr c8 (l8 ++ rest) HB HS HE ltac:(unfold is_letter in H8; lia)) as [W1 W2].
  assert (WS : precision_stage c7 s7 (mk_reader T (S n7)) = (Ok (c8, set_precision s7 p), mk_reader T (S (n7 + length pr)))).
  { destruct PP as [(-> & ->)|(ds & EP & HR)]; [|eapply W2; eauto]. rewrite (W1 eq_refl) by (unfold is_letter in H8; lia). cbn [length]. rewrite Nat.add_0_r. do 3 f_equal.
    unfold s7, s6, s5, s4. destruct zero; [destruct a|]; reflexivity. }
  rewrite WS. clear WS W1 W2. cbn [sbind fst snd]. rewrite HE in HS. apply skip_part in HS. set (n8 := (n7 + length pr)%nat) in *. clear HE.
  assert (HE : c8 :: l8 ++ rest = ty ++ 125 :: rest) by (change (c8 :: l8 ++ rest) with ((c8 :: l8) ++ rest); rewrite <- E8, <- !app_assoc; reflexivity).
  set (s8 := set_precision s7 p) in *. assert (BC := head_byte _ _ _ _ HB HS).
  rewrite (proj2 (flag_stage_ok is_type set_type T n8 c8 (l8 ++ rest) s8 125 (set_type s8 type) (mk_reader T (S (n8 + length ty))) HS)).
  2:{ exists ty, rest. split; [exact HE|]. split; [reflexivity|]. destruct PT as [(-> & ->)|(-> & HTy)].
      - left. split; [reflexivity|]. split; [reflexivity|]. unfold s8, s7, s6, s5, s4. destruct zero; [destruct a|]; reflexivity.
      - right. cbn in HE. injection HE as -> _. split; [reflexivity|]. split; [now apply is_type_byte|reflexivity]. }
  cbn [sbind fst snd]. change (125 =? 125) with true. cbv iota. f_equal.
  - f_equal. unfold s8, s7, s6, s5, s4. destruct zero; [destruct a|]; reflexivity.
  - f_equal. unfold n8, n7, n6, n5, n4, n3. lia.
Qed.

Theorem spec_text_ok t s : Forall is_byte t -> spec_text t s -> specs_ok s.
Proof.
  intros HB (fa & sg & al & ze & wd & pr & ty & fill & a & sign & alt & zero & w & p & type & Et & PA & PS & PL & PZ & PW & PP & PT & ->).
  assert (F : is_byte fill).
  { destruct PA as [(_ & -> & _)|[(c & _ & _ & ->)|(c & -> & _)]]; try (unfold is_byte; lia). rewrite Et in HB. now inversion HB. }
  assert (W : 0 <= w < 2 ^ 31) by (destruct PW as [(_ & ->)|((_ & H & _) & _)]; lia).
  assert (P : -1 <= p < 2 ^ 31) by (destruct PP as [(_ & ->)|(ds & _ & (_ & H & _))]; lia).
  assert (S : In sign [0; 43; 45; 32]) by (destruct PS as [(_ & ->)|(_ & H)]; [cbn; auto|cbn in *; tauto]).
  unfold specs_ok. destruct zero; [destruct a|]; cbn; repeat (split; [auto; unfold is_byte; lia|]); try discriminate; auto.
Qed.

(** ** Checks *)
Lemma mem_iff l x : mem l x = true <-> In x l.
Proof.
  unfold mem. rewrite existsb_exists. split.
  - intros (y & Hy & E). assert (x = y) by lia. now subst y.
  - intros H. exists x. split; [exact H|lia].
Qed.
Lemma check_integral_iff s : check_integral_specs s = Ok tt <-> sp_precision s = -1 /\ int_type_letter (sp_type s).
Proof.
  unfold check_integral_specs, int_type_letter. destruct (sp_precision s =? -1) eqn:EP; cbn [negb].
  - destruct (mem _ _) eqn:M.
    + apply mem_iff in M. split; [intros _|reflexivity]. split; [lia|]. cbn in *. tauto.
    + split; [discriminate|]. intros (_ & H). exfalso. assert (X : mem [0; 100; 120; 88; 98; 66; 99; 111; 79] (sp_type s) = true) by (apply mem_iff; cbn in *; tauto). congruence.
  - split; [discriminate|]. intros [H _]. lia.
Qed.
Lemma plain_iff s : sp_alternate_form s || negb (sp_sign s =? 0) || sp_zero_flag s = false <-> plain_specs s.
Proof.
  unfold plain_specs. destruct (sp_alternate_form s), (sp_zero_flag s), (sp_sign s =? 0) eqn:E; cbn; split; intros H; try discriminate; try (destruct H as (?&?&?); try discriminate); try lia; auto.
Qed.

Theorem check_specs_iff t s : -1 <= sp_precision s -> check_specs t s = Ok tt <-> allowed t s.
Proof.
  intros HP. destruct t as [| |i| | |]; cbn [check_specs allowed].
  - unfold check_bool_specs. destruct (negb (sp_type s =? 0) && negb (sp_type s =? 115)) eqn:E.
    + rewrite check_integral_iff. split; [tauto|]. intros (H1 & [H2|H2]); [tauto|lia].
    + destruct (sp_precision s =? -1) eqn:EP; cbn [negb].
      * split; [intros _|reflexivity]. split; [lia|]. assert (sp_type s = 0 \/ sp_type s = 115) as [H|H] by lia; [left|right; exact H]. rewrite H. cbn. auto.
      * split; [discriminate|]. intros [H _]. lia.
  - unfold check_char_specs. change ch_question with 63. destruct (negb (sp_type s =? 0) && negb (sp_type s =? 99) && negb (sp_type s =? 63)) eqn:E.
    + rewrite check_integral_iff. split; [intros [H1 H2]; split; [exact H1|]; split; [tauto|lia]|]. intros (H1 & [H2|H2] & _); [tauto|lia].
    + assert (T : sp_type s = 0 \/ sp_type s = 99 \/ sp_type s = 63) by lia.
      rewrite <- (plain_iff s). destruct (sp_alternate_form s || negb (sp_sign s =? 0) || sp_zero_flag s); cbn [orb].
      * split; [discriminate|]. intros (_ & _ & H). specialize (H T). discriminate.
      * destruct (sp_precision s =? -1) eqn:EP; cbn [negb]; split; try discriminate; try reflexivity.
        -- intros _. split; [lia|]. split; [|reflexivity]. unfold int_type_letter. destruct T as [-> |[-> | ->]]; cbn; auto 12.
        -- intros [H _]. lia.
  - assert (X : check_integral_specs s = Ok tt \/ exists e, check_integral_specs s = Err e).
    { unfold check_integral_specs. destruct (negb _); [eauto|]. destruct (mem _ _); eauto. }
    assert (I := check_integral_iff s). destruct X as [X|(e & X)]; rewrite X in *; cbn [sbind].
    + destruct I as [I _]. specialize (I eq_refl). destruct I as [I1 I2]. unfold check_unsigned_specs. destruct (signed i); [split; auto; intros _; repeat split; auto; discriminate|].
      destruct (sp_sign s =? 0) eqn:ES; [split; auto; intros _; repeat split; auto; lia|]. split; [discriminate|]. intros (_ & _ & H). specialize (H eq_refl). lia.
    + split; [discriminate|]. intros (H1 & H2 & _). destruct I as [_ I]. specialize (I (conj H1 H2)). discriminate.
  - unfold check_floating_point_specs. destruct (1100 <? sp_precision s) eqn:E; [split; [discriminate|lia]|].
    destruct (mem _ _) eqn:M.
    + apply mem_iff in M. split; [intros _|reflexivity]. split; [lia|]. cbn in *. tauto.
    + split; [discriminate|]. intros (_ & H). exfalso. assert (X : mem [0; 102; 70; 101; 69; 103; 71] (sp_type s) = true) by (apply mem_iff; cbn in *; tauto). congruence.
  - unfold check_pointer_specs. destruct (negb (sp_type s =? 0) && negb (sp_type s =? 112)) eqn:E; [split; [discriminate|lia]|].
    rewrite <- (plain_iff s). destruct (sp_alternate_form s || negb (sp_sign s =? 0) || sp_zero_flag s); cbn [orb]; [split; [discriminate|intros (_ & _ & H); discriminate]|].
    destruct (sp_precision s =? -1) eqn:EP; cbn [negb]; split; try discriminate; try reflexivity; [intros _|lia]. split; [lia|]. split; [lia|reflexivity].
  - unfold check_string_specs. change ch_question with 63. rewrite <- (plain_iff s). destruct (sp_alternate_form s || negb (sp_sign s =? 0) || sp_zero_flag s); cbn [orb]; [split; [discriminate|intros (_ & H); discriminate]|].
    destruct (negb (sp_precision s =? -1) && (sp_type s =? 63)) eqn:E1; cbn [orb]; [split; [discriminate|lia]|].
    destruct (negb (sp_type s =? 0) && negb (sp_type s =? 115) && negb (sp_type s =? 63)) eqn:E2; split; try discriminate; try lia; try reflexivity.
Qed.
