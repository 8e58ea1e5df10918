(** Property C29: scanning what was formatted. *)
From Verif Require Import Base Conversion Reader Bitset Specs FormatArg FloatArg Format Scan.
From Verif Require Import Lib SpecNum SpecDigits SpecReader SpecSpecs SpecFormat SpecField SpecEscape SpecString SpecScan.
From Verif Require Import ConversionProofs ReaderProofs SpecsProofs DigitProofs StringProofs StringLoop StringTop ScanSpecs ScanLoop ScanInt ScanTop PropsFormat PropsScan.
Import SpecString.

(** ** Values that are formatted and scanned *)

(** The argument of a value; integers of 8 and 16 bits are passed to the
    formatter as integers of 32 bits. *)
Definition arg_of (tv : sty * sval) : fty * fval :=
  match tv with
  | (SInt t, NInt z) => (FCore (TInt (upcasted t)), VCore (AInt (upcasted t) z))
  | (SChar, NChar c) => (FCore TChar, VCore (AChar c))
  | (SStr, NStr s) => (FCore TStr, VCore (AStr s))
  | _ => (FMono, VMono)
  end.
Definition value_ok (tv : sty * sval) : Prop :=
  match tv with
  | (SInt t, NInt z) => is_ity t /\ in_range t z
  | (SChar, NChar c) => is_byte c
  | (SStr, NStr s) => Forall is_byte s /\ Z.of_nat (length (escape_text s)) + 2 < 2 ^ 31
  | _ => False
  end.

(** The text of a specification with an optional # and an optional type. *)
Definition short_spec (alt : bool) (type : Z) : list Z :=
  (if alt then [35] else []) ++ (if type =? 0 then [] else [type]) ++ [125].

(** The fields whose output is read back in front of the items [following]:
    - integers with one of the types b, d, o, x or none, if no character follows
      that is taken for a digit; a zero is not read back with # and without type
      (unless it is the last of the text) or with #o;
    - characters;
    - texts at the end of the string or in front of a character that does not
      occur in them; this can be a doubled brace if no further field follows. *)
Definition round_kind (alt : bool) (type : Z) (t : sty) (v : sval) (following : list item) : Prop :=
  match t, v with
  | SInt _, NInt z => exists base, letter_base type base /\
      (alt = true -> z = 0 -> type <> 111 /\ (type = 0 -> following = [])) /\
      (following = [] \/ exists c l, (following = Literal c :: l \/ following = Brace c :: l) /\ taken_digit base c = false)
  | SChar, NChar _ => alt = false /\ (type = 0 \/ type = 99)
  | SStr, NStr x => alt = false /\ (type = 0 \/ type = 115) /\
      (following = [] \/ exists c l, ~ In c x /\ (following = Literal c :: l /\ braces_follow l = false \/ following = Brace c :: l /\ field_follows l = false))
  | _, _ => False
  end.
Definition round_field (t : sty) (v : sval) (spec : list Z) (following : list item) : Prop :=
  exists alt type, spec = short_spec alt type /\ round_kind alt type t v following.
Fixpoint round_fields (pairs : list (sty * sval)) (its : list item) (ns : list nat) : Prop :=
  match its, ns with
  | [], [] => True
  | Literal _ :: its, ns | Brace _ :: its, ns => round_fields pairs its ns
  | Field _ _ spec :: its, n :: ns => (exists t v, nth_error pairs n = Some (t, v) /\ round_field t v spec its) /\ round_fields pairs its ns
  | _, _ => False
  end.
Definition round_items (pairs : list (sty * sval)) (its : list item) (ns : list nat) : Prop :=
  Forall item_ok its /\ numbering (indices its) ns /\ round_fields pairs its ns.

(** ** Specifications *)
Definition format_of (alt : bool) (type : Z) : format_specs := mk_specs 32 align_none 0 alt false 0 (-1) type.
Lemma round_letter alt type t v foll : round_kind alt type t v foll -> type = 0 \/ is_letter type.
Proof.
  unfold is_letter. destruct t, v; try contradiction; cbn [round_kind].
  - lia.
  - intros (base & [H|[H|[H|[H|[H|[]]]]]] & _); injection H as <- _; lia.
  - lia.
Qed.
Lemma short_format alt type : type = 0 \/ is_letter type -> spec_text (short_spec alt type) (format_of alt type).
Proof.
  intros HT. exists [], [], (if alt then [35] else []), [], [], [], (if type =? 0 then [] else [type]), 32, align_none, 0, alt, false, 0, (-1), type.
  split; [reflexivity|]. split; [left; auto|]. split; [left; auto|]. split; [now destruct alt|]. split; [reflexivity|]. split; [left; auto|]. split; [left; auto|]. split; [|reflexivity].
  destruct (type =? 0) eqn:E; [left; split; [reflexivity|lia]|right; split; [reflexivity|]]. left. destruct HT as [-> |HT]; [discriminate|exact HT].
Qed.
Lemma short_scan alt type : type = 0 \/ is_letter type -> scan_spec_text (short_spec alt type) (mk_scan alt type (-1)).
Proof.
  intros HT. exists (if alt then [35] else []), [], (if type =? 0 then [] else [type]), alt, (-1), type. split; [reflexivity|]. split; [now destruct alt|]. split; [now left|]. split; [|reflexivity].
  destruct (type =? 0) eqn:E; [left; split; [reflexivity|lia]|right; split; [reflexivity|]]. destruct HT as [-> |HT]; [discriminate|exact HT].
Qed.
Lemma no_digits_small t : Forall (fun c => ~ 48 <= c <= 57) t -> small_numbers t.
Proof. intros H a d b -> (HN & HD). exfalso. rewrite !Forall_app in H. destruct H as (_ & H & _). destruct d as [|c d]; [congruence|]. apply Forall_inv in H. apply Forall_inv in HD. tauto. Qed.
Lemma short_clean alt type : type = 0 \/ is_letter type -> Forall is_byte (short_spec alt type) /\ small_numbers (short_spec alt type).
Proof.
  intros HT. assert (H : Forall (fun c => is_byte c /\ ~ 48 <= c <= 57) (short_spec alt type)).
  { unfold short_spec, is_letter, is_byte in *. apply Forall_app. split; [destruct alt; repeat constructor; lia|]. apply Forall_app. split; [|repeat constructor; lia]. destruct (type =? 0) eqn:E; repeat constructor; lia. }
  split; [|apply no_digits_small]; revert H; apply Forall_impl; tauto.
Qed.
Lemma round_allowed alt type t v foll : round_kind alt type t v foll -> value_ok (t, v) ->
  (exists c, fst (arg_of (t, v)) = FCore c /\ allowed c (format_of alt type)) /\ scan_allowed t (mk_scan alt type (-1)).
Proof.
  destruct t, v; try contradiction; cbn [round_kind].
  - intros (-> & HT) _. cbn. split; [|cbn; lia]. exists TChar. split; [reflexivity|]. cbn. unfold int_type_letter, plain_specs. cbn. intuition lia.
  - intros (base & HB & _) _. assert (HT : In type (0 :: str "bdox")) by (destruct HB as [H|[H|[H|[H|[H|[]]]]]]; injection H as <- _; cbn; tauto). split; [|exact HT].
    eexists. split; [reflexivity|]. cbn. unfold int_type_letter. split; [reflexivity|]. split; [cbn in *; tauto|reflexivity].
  - intros (-> & HT & _) _. cbn. split; [|tauto]. exists TStr. split; [reflexivity|]. cbn. unfold plain_specs. cbn. tauto.
Qed.

(** ** What is printed is read *)
Lemma no_padding a s body out : sp_width s = 0 -> field a s body out -> out = body.
Proof.
  intros HW (l & r & -> & HL & _). rewrite HW in HL. rewrite !app_length, !repeat_length in HL. assert (l = 0 /\ r = 0)%nat as (-> & ->) by lia. cbn. now rewrite app_nil_r.
Qed.
Lemma digit_byte base c : is_digit base c = true -> is_byte c.
Proof.
  unfold is_digit, digit_value, is_byte. destruct ((48 <=? c) && (c <=? 57)) eqn:E1; [intros _; lia|]. destruct ((97 <=? c) && (c <=? 122)) eqn:E2; [intros _; lia|]. destruct ((65 <=? c) && (c <=? 90)) eqn:E3; [intros _; lia|discriminate].
Qed.
Lemma before_char c x l b : ~ In c x -> before_first (x ++ (c :: l) ++ b) (c :: l) x.
Proof.
  intros HN. split; [eauto|]. induction x as [|y x IH]; intros a' b' E; [cbn; lia|]. destruct a' as [|z a']; cbn in E; [exfalso; injection E as <- _; apply HN; now left|]. injection E as <- E. cbn. apply le_n_S. eapply IH; [intros H; apply HN; now right|exact E].
Qed.
Lemma attempts_free c l x : ~ In c x -> attempts (c :: l) x.
Proof. intros HN. induction x as [|y x IH]; [constructor|]. apply (attempts_fail (c :: l) 0 y x); [cbn; lia|cbn; intros [= ->]; apply HN; now left|]. apply IH. intros H. apply HN. now right. Qed.
Lemma piece_reads alt type t v foll o out :
  value_ok (t, v) -> round_kind alt type t v foll -> plain_shows (arg_of (t, v)) (short_spec alt type) o ->
  (foll = [] -> out = []) -> (exists b, out = literal_text foll ++ b) ->
  field_reads reads_exactly takes t (mk_scan alt type (-1)) foll o out v /\ Forall is_byte o.
Proof.
  intros HV HK HS HE HF. assert (HT := round_letter _ _ _ _ _ HK). assert (HC := short_clean alt type HT). destruct HC as (HB & HSm).
  assert (HCore : exists a, snd (arg_of (t, v)) = VCore a /\ core_field (format_of alt type) a o).
  { unfold plain_shows in HS. destruct t, v; try contradiction; cbn [arg_of fst snd] in *; inversion HS as [? ? ? fs a ? HSp HA| | | | | | | | | | |]; subst; rewrite (spec_text_unique _ _ _ HB HSm HSp (short_format alt type HT)) in HA; (eexists; split; [reflexivity|]).
    - destruct HA as [(_ & HA)|((HD & _) & _)]; [exact HA|]. exfalso. change (type = 63) in HD. cbn in HK. lia.
    - destruct HA as [(_ & HA)|([] & _)]. exact HA.
    - destruct HA as [(_ & HA)|([] & _)]. exact HA. }
  destruct HCore as (a & Ea & HCore). destruct t, v; try contradiction; cbn [arg_of snd] in Ea; injection Ea as <-; cbn [round_kind core_field] in HK, HCore.
  - destruct HK as (-> & HK). unfold char_field in HCore. cbn [format_of sp_type] in HCore. assert (E : (type =? 0) || (type =? 99) || (type =? ch_question) = true) by (destruct HK as [-> | ->]; reflexivity).
    rewrite E in HCore. apply no_padding in HCore; [|reflexivity]. unfold char_body in HCore. cbn [format_of sp_type] in HCore. assert (E' : (type =? ch_question) = false) by (destruct HK as [-> | ->]; reflexivity). rewrite E' in HCore. subst o.
    split; [reflexivity|]. repeat constructor. apply HV. apply HV.
  - destruct HK as (base & HLb & HZ & HFo). destruct HV as (HI & HV).
    assert (HT99 : (type =? 99) = false) by (destruct HLb as [H|[H|[H|[H|[H|[]]]]]]; injection H as <- _; reflexivity). unfold any_int_field in HCore. cbn [format_of sp_type] in HCore. rewrite HT99 in HCore.
    destruct HCore as (prefix & base' & upper & digits & HIn & HCan & HNum). cbn [format_of sp_type sp_alternate_form number_field sp_zero_flag] in *. unfold number_field in HNum. cbn [sp_zero_flag] in HNum. apply no_padding in HNum; [|reflexivity].
    destruct HCan as (HDs & HDen & HLead). assert (HD : Forall (fun c => is_digit base' c = true) digits) by (eapply Forall_impl; [|exact HDs]; tauto). destruct (taken_of_digits _ _ HD) as (HTk & HTn).
    assert (HNe : digits <> []) by (destruct HLead as [-> |(? & ? & -> & _)]; discriminate). set (p := if alt && negb ((type =? 111) && (z =? 0)) then prefix else []) in *.
    assert (HP : base' = base /\ (if alt then base_prefix base p else p = []) /\ Forall is_byte p /\ (alt = true -> type = 0 -> base = 10)).
    { unfold p. cbn in HLb. destruct HLb as [H|[H|[H|[H|[H|[]]]]]]; injection H as <- <-; cbn in HIn; (destruct HIn as [H|[H|[H|[H|[H|[H|[H|[]]]]]]]]; try discriminate H); injection H as <- <- _; destruct alt; cbn [andb];
        (split; [reflexivity|]); (split; [|split; [|intros; (reflexivity || discriminate)]]); unfold base_prefix; try tauto; try reflexivity; try (constructor; fail); try bytes.
      - assert (E : z =? 0 = false) by (destruct (z =? 0) eqn:E; [|reflexivity]; exfalso; destruct (HZ eq_refl ltac:(lia)) as (N & _); congruence). rewrite E. cbn. tauto.
      - destruct (z =? 0); cbn; bytes. }
    destruct HP as (-> & HPx & HPb & HAlt). assert (HSg : sign_text (mk_specs 32 align_none 0 alt false 0 (-1) type) (z <? 0) = if z <? 0 then [45] else []) by (unfold sign_text; destruct (z <? 0); reflexivity). unfold format_of in HNum. rewrite HSg in HNum.
    rewrite <- app_assoc in HNum. split.
    + exists (z <? 0), base, digits. split; [|split; [|split; [exact HV|]]].
      * exists (if z <? 0 then [45] else []), p. split; [exact HNum|]. split; [destruct (z <? 0); cbn; auto|]. split; [split; assumption|]. split.
        -- unfold number_form. cbn [sc_type sc_alternate sc_width]. destruct ((type =? 0) && alt) eqn:E.
           ++ assert (alt = true /\ type = 0) as (-> & ->) by (destruct alt; split; lia). split; [exact HPx|]. intros ->. destruct HLead as [-> |(c & l & -> & N)]; [|left; exact N]. right. split; [reflexivity|]. left. apply HE, (HZ eq_refl); [|reflexivity].
              change (denotes 10 [48]) with 0 in HDen. lia.
           ++ split; [exact HLb|]. exact HPx.
        -- cbn [sc_width]. change (-1 =? -1) with true. cbv iota. intros c l EO. destruct HFo as [HFo|(c' & l' & HFo & HTd)]; [rewrite (HE HFo) in EO; discriminate|]. destruct HF as (b & HF). rewrite HF in EO. destruct HFo as [-> | ->]; cbn in EO; injection EO as <- _; exact HTd.
      * intros HNeg. unfold in_range in HV. destruct (signed t) eqn:ES; [reflexivity|]. exfalso. unfold imin in HV. rewrite ES in HV. lia.
      * unfold number_value. rewrite HTn, HDen. destruct (z <? 0) eqn:E; lia.
    + rewrite HNum. apply Forall_app. split; [destruct (z <? 0); bytes|]. apply Forall_app. split; [exact HPb|]. eapply Forall_impl; [|exact HD]. intros c. apply digit_byte.
  - destruct HK as (-> & HK & HFo). destruct HCore as (body & HBd & HFd). apply no_padding in HFd; [|reflexivity]. unfold string_body in HBd. cbn [format_of sp_type sp_precision] in HBd. assert (E' : (type =? ch_question) = false) by (destruct HK as [-> | ->]; reflexivity). rewrite E' in HBd.
    change (-1 =? -1) with true in HBd. cbv iota in HBd. subst o body. split; [|apply HV]. split; [reflexivity|]. change (sc_width (mk_scan false type (-1)) =? -1) with true. cbv iota. destruct foll as [|i foll]; [now apply HE|].
    destruct HFo as [H|(c & l & HN & [(H & HBr)|(H & HBr)])]; [discriminate| |]; injection H as -> ->; cbn [takes]; destruct HF as (b & ->); cbn [literal_text braces_follow field_follows]; (split; [destruct s; discriminate|]); (split; [eauto|]); rewrite HBr.
    + apply before_char; exact HN.
    + split; [eauto|]. split; [|discriminate]. now apply attempts_free.
Qed.

(** ** Whole strings *)
Lemma item_bytes its : Forall is_byte (text_of its) -> Forall (fun i => match i with Literal c | Brace c => is_byte c | _ => True end) its.
Proof.
  induction its as [|i its IH]; intros H; [constructor|]. cbn [text_of flat_map] in H. apply Forall_app in H. destruct H as (H1 & H2). constructor; [|now apply IH]. destruct i; [| |exact I]; now apply Forall_inv in H1.
Qed.
Lemma round_reads pairs its ns out :
  Forall value_ok pairs -> Forall (fun i => match i with Literal c | Brace c => is_byte c | _ => True end) its -> round_fields pairs its ns -> string_shows (map arg_of pairs) its ns out ->
  exists vs, scans (target_reads (field_reads reads_exactly takes) (map fst pairs) []) its ns out [] vs /\ Forall is_byte out /\
    map fst vs = ns /\ Forall (fun nv => nth_error (map snd pairs) (fst nv) = Some (snd nv)) vs.
Proof.
  intros HV HB HR HS. induction HS as [|c its ns out HS IH|c its ns out HS IH|i colon spec its n ns o out (tv & HN & HSh) HS IH].
  - exists []. repeat constructor.
  - inversion HB as [|? ? HBc HBr]; subst. destruct (IH HBr HR) as (vs & H1 & H2 & H3 & H4). exists vs. split; [now constructor|]. split; [now constructor|auto].
  - inversion HB as [|? ? HBc HBr]; subst. destruct (IH HBr HR) as (vs & H1 & H2 & H3 & H4). exists vs. split; [now constructor|]. split; [now constructor|auto].
  - inversion HB as [|? ? HBc HBr]; subst. destruct HR as ((t & v & HNp & alt & type & -> & HK) & HR). destruct (IH HBr HR) as (vs & H1 & H2 & H3 & H4). rewrite nth_error_map, HNp in HN. injection HN as <-.
    assert (HVt : value_ok (t, v)) by (rewrite Forall_forall in HV; apply HV; now apply nth_error_In in HNp).
    destruct (piece_reads alt type t v its o out HVt HK HSh) as (HF & HBo).
    + intros ->. now inversion HS.
    + now apply scans_follows in H1.
    + exists ((n, v) :: vs). split; [|split; [now apply Forall_app|split; [cbn; now rewrite H3|constructor; [cbn; now rewrite nth_error_map, HNp|exact H4]]]].
      constructor; [|exact H1]. exists t, (mk_scan alt type (-1)). split; [now rewrite nth_error_map, HNp|]. split; [apply short_scan; eapply round_letter; eauto|]. now rewrite app_nil_r.
Qed.
Lemma assigned_all vals vs : Forall (fun nv : nat * sval => nth_error vals (fst nv) = Some (snd nv)) vs ->
  forall vars, length vars = length vals -> (forall n, (n < length vals)%nat -> In n (map fst vs) \/ nth_error vars n = nth_error vals n) -> assigned vars vs = vals.
Proof.
  induction 1 as [|(n, v) vs Hn HF IH]; intros vars HL HC.
  - cbn. apply nth_ext with (d := NInt 0) (d' := NInt 0); [exact HL|]. intros n Hl. destruct (HC n ltac:(lia)) as [[]|E]. apply (f_equal (fun o => match o with Some x => x | None => NInt 0 end)) in E. rewrite !nth_default_eq || idtac.
    revert E. rewrite (nth_error_nth' vars (NInt 0)) by lia. rewrite (nth_error_nth' vals (NInt 0)) by lia. auto.
  - unfold assigned. cbn [fold_left]. fold (assigned (update vars n v) vs). apply IH; [now rewrite length_update|]. cbn [fst snd] in Hn. intros k Hk. destruct (HC k Hk) as [[E|H]|E]; cbn [fst] in *.
    + right. subst k. rewrite update_same by lia. now rewrite Hn.
    + now left.
    + right. destruct (Nat.eq_dec n k) as [-> |N]; [rewrite update_same by lia; now rewrite Hn|]. now rewrite update_other.
Qed.
Lemma round_specs pairs its : forall ns, Forall value_ok pairs -> round_fields pairs its ns ->
  Forall2 (fun n spec => exists t v alt type foll, nth_error pairs n = Some (t, v) /\ value_ok (t, v) /\ spec = short_spec alt type /\ round_kind alt type t v foll) ns (field_specs its).
Proof.
  induction its as [|[c|c|index colon spec] its IH]; intros ns HV HR; cbn [round_fields] in HR.
  - destruct ns; [constructor|contradiction].
  - destruct ns; apply IH; auto.
  - destruct ns; apply IH; auto.
  - destruct ns as [|n ns]; [contradiction|]. destruct HR as ((t & v & HN & alt & type & HSp & HK) & HR). constructor; [|now apply IH]. exists t, v, alt, type, its. split; [exact HN|]. split; [|auto]. rewrite Forall_forall in HV. apply (HV (t, v)). now apply nth_error_In in HN.
Qed.
Lemma round_typed pairs : Forall value_ok pairs -> typed (map arg_of pairs) /\ Forall tuple_free (map fst (map arg_of pairs)) /\ Forall (fun tv => ~ octal_in (snd tv)) (map arg_of pairs) /\ Forall sty_ok (map fst pairs).
Proof.
  induction 1 as [|(t & v) pairs HV HF (H1 & H2 & H3 & H4)]; [repeat constructor|]. cbn [map]. destruct t, v; try contradiction; cbn [arg_of fst snd].
  - split; [constructor; [apply (ht_core (AChar c)); [exact HV|exact I]|exact H1]|]. repeat constructor; auto.
  - destruct HV as (HI & HR). split; [constructor; [|exact H1]|split; [constructor; [exact I|exact H2]|split; [constructor; [intros []|exact H3]|constructor; [exact HI|exact H4]]]]. apply (ht_core (AInt (upcasted t) z)); [|exact I]. split.
    + destruct HI as [<-|[<-|[<-|[<-|[<-|[<-|[<-|[<-|[]]]]]]]]]; cbn; tauto.
    + destruct HI as [<-|[<-|[<-|[<-|[<-|[<-|[<-|[<-|[]]]]]]]]]; revert HR; limits.
  - destruct HV as (HV1 & HV2). split; [constructor; [apply (ht_core (AStr s)); assumption|exact H1]|]. repeat constructor; auto.
Qed.
Lemma two_impl {A B} (R R' : A -> B -> Prop) a b : (forall x y, R x y -> R' x y) -> Forall2 R a b -> Forall2 R' a b.
Proof. intros H. induction 1; constructor; auto. Qed.

(** A format string for integers, characters and texts whose fields are as above
    prints the values as a text which is scanned with the same string to the same
    values. *)
Theorem C29_round_trip_partial : forall m pairs fmt its ns vars,
  Forall value_ok pairs -> (length pairs <= 128)%nat -> Forall is_byte fmt -> fmt = text_of its -> round_items pairs its ns ->
  (forall n, (n < length pairs)%nat -> In n ns) -> length vars = length pairs ->
  exists out, formatted fmt (map arg_of pairs) out /\
    (Z.of_nat (length out) < 2 ^ 64 -> scan m out fmt (map fst pairs) vars = (Ok tt, map snd pairs)).
Proof.
  intros m pairs fmt its ns vars HV HL HB HS (HO & HN & HR) HC HLv. assert (HSp := round_specs _ _ _ HV HR). destruct (round_typed _ HV) as (HTy & HTf & HOc & HOk).
  assert (HG : good_items (map fst (map arg_of pairs)) its ns).
  { split; [exact HO|]. split; [exact HN|]. eapply two_impl; [|exact HSp]. intros n spec (t & v & alt & type & foll & HNp & HVt & -> & HK). destruct (round_allowed _ _ _ _ _ HK HVt) as ((c & HA1 & HA2) & _).
    exists (fst (arg_of (t, v))). rewrite !nth_error_map, HNp. split; [reflexivity|]. rewrite HA1. exists (format_of alt type). split; [|exact HA2]. apply short_format. eapply round_letter; eauto. }
  assert (HGs : scan_items (map fst pairs) its ns).
  { split; [exact HO|]. split; [exact HN|]. eapply two_impl; [|exact HSp]. intros n spec (t & v & alt & type & foll & HNp & HVt & -> & HK). destruct (round_allowed _ _ _ _ _ HK HVt) as (_ & HA).
    exists t. rewrite nth_error_map, HNp. split; [reflexivity|]. exists (mk_scan alt type (-1)). split; [|exact HA]. apply short_scan. eapply round_letter; eauto. }
  assert (HSm : Forall small_numbers (field_specs its)).
  { clear -HSp. induction HSp as [|n spec ns specs (t & v & alt & type & foll & _ & _ & -> & HK) HF IH]; constructor; [|exact IH]. apply short_clean. eapply round_letter; eauto. }
  assert (HOs : Forall (fun sp => ~ octal_spec sp) (field_specs its)).
  { clear -HSp. induction HSp as [|n spec ns specs (t & v & alt & type & foll & _ & HVt & -> & HK) HF IH]; constructor; [|exact IH]. intros (x & E). unfold short_spec in E.
    assert (H79 : In 79 (short_spec alt type)) by (unfold short_spec; rewrite E, in_app_iff; right; now left). unfold short_spec in H79. rewrite !in_app_iff in H79. assert (type <> 79). { destruct t, v; try contradiction; cbn in HK; try lia. destruct HK as (b & [H|[H|[H|[H|[H|[]]]]]] & _); injection H as <- _; lia. }
    destruct H79 as [H9|[H9|H9]]; [destruct alt|destruct (type =? 0)|]; cbn in H9; lia. }
  assert (HLa : (length (map fst (map arg_of pairs)) <= 128)%nat) by now rewrite !map_length.
  assert (HAc : accepted fmt (map fst (map arg_of pairs))).
  { apply (accepted_complete fmt _ its ns []); auto; [|intros k Hk; apply HC; now rewrite !map_length in Hk]. apply good_string; auto; [now rewrite app_nil_r|now apply tuples_last_free]. }
  destruct (C22_output_partial _ _ _ _ HB HAc HTf HTy HS HG HOs HOc) as (out & HSh & HF). exists out. split; [exact HF|]. intros HLo.
  rewrite HS in HB. destruct (round_reads pairs its ns out HV (item_bytes _ HB) HR HSh) as (vs & HScan & HBo & HM & HVs). rewrite <- HS in HB.
  assert (HCov : forall k, (k < length (map fst pairs))%nat -> In k ns) by (intros k Hk; apply HC; now rewrite map_length in Hk).
  assert (HSc : sacc (map fst pairs) fmt 0 None 0 its ns []) by (apply scan_good_string; auto; [now rewrite map_length|now rewrite app_nil_r]).
  destruct (from_first m (map fst pairs) fmt its ns [] out 0 vars [] vs HB HBo HLo HOk ltac:(now rewrite map_length) ltac:(lia) HSc no_end HCov HSm HScan) as (j & E & Hj & Hb).
  rewrite scan_is. unfold reader_of. rewrite E. apply eof_rest in Hj; [|lia]. rewrite Hj. f_equal. apply assigned_all; [exact HVs|now rewrite map_length|]. intros n Hn. left. rewrite HM. apply HC. now rewrite map_length in Hn.
Qed.
Print Assumptions C29_round_trip_partial.

(** Every value of every integer type with one field. *)
Definition integer_specs : list (bool * Z) := [(false, 0); (false, 100); (false, 120); (false, 98); (false, 111); (true, 0); (true, 100); (true, 120); (true, 98)].
Lemma single_round pairs alt type : nth_error pairs 0 <> None -> (forall t v, nth_error pairs 0 = Some (t, v) -> round_kind alt type t v []) ->
  round_items pairs [Field [] true (short_spec alt type)] [0%nat].
Proof.
  intros HE H. split; [|split].
  - constructor; [split; [now left|discriminate]|constructor].
  - left. split; [repeat constructor|reflexivity].
  - cbn. destruct pairs as [|(t & v) pairs]; [contradiction HE; reflexivity|]. split; [|exact I]. exists t, v. split; [reflexivity|]. exists alt, type. split; [reflexivity|]. now apply H.
Qed.
Theorem C29_integers : forall m t z v0 alt type,
  is_ity t -> in_range t z -> In (alt, type) integer_specs \/ (alt, type) = (true, 111) /\ z <> 0 ->
  let fmt := str "{:" ++ short_spec alt type in
  exists out, formatted fmt [(FCore (TInt (upcasted t)), VCore (AInt (upcasted t) z))] out /\
    (Z.of_nat (length out) < 2 ^ 64 -> scan m out fmt [SInt t] [v0] = (Ok tt, [NInt z])).
Proof.
  intros m t z v0 alt type HI HR HS fmt. assert (HT : exists base, letter_base type base). { destruct HS as [HS|(HS & _)]; [cbn in HS; decompose [or] HS; try contradiction; injection H as _ <- || injection H0 as _ <-|injection HS as _ ->]; unfold letter_base; cbn; eauto 8. }
  destruct HT as (base & HT). assert (HN : alt = true -> z = 0 -> type <> 111). { intros -> ->. destruct HS as [HS|(_ & HS)]; [|lia]. intros ->. cbn in HS. decompose [or] HS; congruence. }
  assert (HK : round_kind alt type (SInt t) (NInt z) []) by (exists base; split; [exact HT|split; [auto|now left]]).
  assert (HB : Forall is_byte fmt). { apply field_bytes. apply short_clean. eapply round_letter; eauto. }
  apply (C29_round_trip_partial m [(SInt t, NInt z)] fmt [Field [] true (short_spec alt type)] [0%nat] [v0]); [constructor; [exact (conj HI HR)|constructor]|cbn; lia|exact HB|unfold fmt; rewrite field_text; reflexivity| |intros [|k] Hk; [now left|cbn in Hk; lia]|reflexivity].
  apply single_round; [discriminate|]. intros ? ? E. injection E as <- <-. exact HK.
Qed.
Print Assumptions C29_integers.
(** Characters and texts with one field. *)
Theorem C29_characters_and_texts : forall m t v v0,
  value_ok (t, v) -> (exists c, v = NChar c) \/ (exists s, v = NStr s) ->
  exists out, formatted (str "{}") [arg_of (t, v)] out /\ (Z.of_nat (length out) < 2 ^ 64 -> scan m out (str "{}") [t] [v0] = (Ok tt, [v])).
Proof.
  intros m t v v0 HV HC. assert (HK : round_kind false 0 t v []). { destruct HC as [(c & ->)|(s & ->)]; destruct t; try contradiction; cbn; auto. }
  apply (C29_round_trip_partial m [(t, v)] (str "{}") [Field [] false (short_spec false 0)] [0%nat] [v0]); [constructor; [exact HV|constructor]|cbn; lia|bytes|reflexivity| |intros [|k] Hk; [now left|cbn in Hk; lia]|reflexivity].
  split; [|split]; [constructor; [split; [now left|reflexivity]|constructor]|left; split; [repeat constructor|reflexivity]|]. cbn. split; [|exact I]. exists t, v. split; [reflexivity|]. exists false, 0. auto.
Qed.
Print Assumptions C29_characters_and_texts.

(** The upper case types of formatting are not types of scanning; zero with #o is
    printed without digits behind the prefix; zero with # is not read back in
    front of other text. *)
Theorem C29_upper_case_refuted :
  run (str "{:X}") [(FCore (TInt i32), VCore (AInt i32 255))] = Ok (Ok tt, str "FF") /\ ~ scan_accepted (str "{:X}") [SInt i32] /\
  run (str "{:B}") [(FCore (TInt i32), VCore (AInt i32 5))] = Ok (Ok tt, str "101") /\ ~ scan_accepted (str "{:B}") [SInt i32].
Proof. split; [vm_compute; reflexivity|]. split; [intros (v & HV & HS); vm_compute in HV; injection HV as <-; discriminate|]. split; [vm_compute; reflexivity|]. intros (v & HV & HS). vm_compute in HV. injection HV as <-. discriminate. Qed.
Print Assumptions C29_upper_case_refuted.
Theorem C29_octal_zero_refuted : exists e vars,
  run (str "{:#o}") [(FCore (TInt i32), VCore (AInt i32 0))] = Ok (Ok tt, str "0") /\ scan iso (str "0") (str "{:#o}") [SInt i32] [NInt 7] = (Err e, vars).
Proof. eexists; eexists; split; vm_compute; reflexivity. Qed.
Print Assumptions C29_octal_zero_refuted.
Theorem C29_detected_zero_refuted : exists e vars,
  run (str "{:#},") [(FCore (TInt i32), VCore (AInt i32 0))] = Ok (Ok tt, str "0,") /\ scan iso (str "0,") (str "{:#},") [SInt i32] [NInt 7] = (Err e, vars).
Proof. eexists; eexists; split; vm_compute; reflexivity. Qed.
Print Assumptions C29_detected_zero_refuted.
(** The characters behind the digits are digits for base 16. *)
Theorem C29_colon_refuted : exists vars,
  run (str "{:x}:{:x}") [(FCore (TInt i32), VCore (AInt i32 1)); (FCore (TInt i32), VCore (AInt i32 2))] = Ok (Ok tt, str "1:2") /\
  scan iso (str "1:2") (str "{:x}:{:x}") [SInt i32; SInt i32] [NInt 7; NInt 7] = (Err eof, vars).
Proof. eexists; split; vm_compute; reflexivity. Qed.
Print Assumptions C29_colon_refuted.
(** A text in front of a doubled brace is read back; not so if a further field
    follows which prints nothing. *)
Example C29_brace_example : forall m s v0, value_ok (SStr, NStr s) -> ~ In 125 s ->
  exists out, formatted (str "{}}}") [arg_of (SStr, NStr s)] out /\ (Z.of_nat (length out) < 2 ^ 64 -> scan m out (str "{}}}") [SStr] [v0] = (Ok tt, [NStr s])).
Proof.
  intros m s v0 HV HN. apply (C29_round_trip_partial m [(SStr, NStr s)] (str "{}}}") [Field [] false (short_spec false 0); Brace 125] [0%nat] [v0]); [constructor; [exact HV|constructor]|cbn; lia|bytes|reflexivity| |intros [|k] Hk; [now left|cbn in Hk; lia]|reflexivity].
  split; [|split]; [constructor; [split; [now left|reflexivity]|constructor; [now right|constructor]]|left; split; [repeat constructor|reflexivity]|]. cbn. split; [|exact I]. exists SStr, (NStr s). split; [reflexivity|]. exists false, 0. split; [reflexivity|]. split; [reflexivity|]. split; [now left|]. right. exists 125, []. split; [exact HN|]. now right.
Qed.
Theorem C29_brace_refuted : exists e vars,
  run (str "{}}}{}") [(FCore TStr, VCore (AStr (str "a"))); (FCore TStr, VCore (AStr []))] = Ok (Ok tt, str "a}") /\ scan iso (str "a}") (str "{}}}{}") [SStr; SStr] [NStr []; NStr []] = (Err e, vars).
Proof. eexists; eexists; split; vm_compute; reflexivity. Qed.
Print Assumptions C29_brace_refuted.
Definition round_pairs : list (sty * sval) := [(SInt i8, NInt (-128)); (SStr, NStr (str "k}v")); (SChar, NChar 0); (SInt u64, NInt 18446744073709551615)].
Definition round_its : list item := [Field [] true (str "#x}"); Brace 123; Field [] false (str "}"); Literal 61; Field [] true (str "c}"); Field [] true (str "#}"); Literal 59].
Example C29_example :
  let fmt := str "{:#x}{{{}={:c}{:#};" in let out := str "-0x80{k}v=" ++ [0] ++ str "18446744073709551615;" in
  Forall value_ok round_pairs /\ Forall is_byte fmt /\ fmt = text_of round_its /\ round_items round_pairs round_its (seq 0 4) /\ (forall n, (n < length round_pairs)%nat -> In n (seq 0 4)) /\
  run fmt (map arg_of round_pairs) = Ok (Ok tt, out) /\ scan iso out fmt (map fst round_pairs) [NInt 0; NStr []; NChar 1; NInt 0] = (Ok tt, map snd round_pairs).
Proof.
  cbv zeta. split; [|split; [bytes|split; [reflexivity|split; [|split; [|split; vm_compute; reflexivity]]]]].
  - constructor; [split; [cbn; tauto|vm_compute; split; discriminate]|]. constructor; [split; [bytes|vm_compute; reflexivity]|]. constructor; [cbn; unfold is_byte; lia|]. constructor; [split; [cbn; tauto|vm_compute; split; discriminate]|constructor].
  - split; [|split; [left; split; [repeat constructor|reflexivity]|]].
    + unfold round_its. constructor; [split; [now left|discriminate]|]. constructor; [now left|]. constructor; [split; [now left|reflexivity]|]. constructor; [intros [H|H]; discriminate|]. constructor; [split; [now left|discriminate]|]. constructor; [split; [now left|discriminate]|]. constructor; [intros [H|H]; discriminate|constructor].
    + unfold round_its. cbn [round_fields seq]. split; [|split; [|split; [|split; [|exact I]]]].
      * exists (SInt i8), (NInt (-128)). split; [reflexivity|]. exists true, 120. split; [reflexivity|]. exists 16. split; [cbn; tauto|]. split; [intros _ H; discriminate|]. right. eexists; eexists. split; [right; reflexivity|reflexivity].
      * exists SStr, (NStr (str "k}v")). split; [reflexivity|]. exists false, 0. split; [reflexivity|]. split; [reflexivity|]. split; [now left|]. right. eexists; eexists. split; [|left; split; reflexivity]. cbn; lia.
      * exists SChar, (NChar 0). split; [reflexivity|]. exists false, 99. split; [reflexivity|]. cbn; auto.
      * exists (SInt u64), (NInt 18446744073709551615). split; [reflexivity|]. exists true, 0. split; [reflexivity|]. exists 10. split; [cbn; tauto|]. split; [intros _ H; discriminate|]. right. eexists; eexists. split; [left; reflexivity|reflexivity].
  - intros n Hn. apply in_seq. cbn in Hn. lia.
Qed.
