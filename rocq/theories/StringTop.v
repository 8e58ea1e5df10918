(** Proofs about Format.v: format strings are read in one way only; formatting as a whole. *)
From Verif Require Import Base Conversion Reader Buffer Writer Bitset Specs FormatArg FloatArg Format.
From Verif Require Import Lib SpecNum SpecReader SpecEscape SpecFloat SpecFormat SpecDecimal SpecField SpecSpecs SpecString.
From Verif Require Import ConversionProofs ReaderProofs SpecsProofs BufferProofs Emits StringProofs StringLoop StringEmits.

(** ** One reading *)
Definition closed_item (i : item) : Prop :=
  item_ok i /\ match i with Field _ _ spec => exists x, spec = x ++ [125] /\ ~ In 125 x | _ => True end.
Lemma good_closed tys its ns : good_items tys its ns -> Forall closed_item its.
Proof.
  intros (H1 & _ & H3). revert ns H3. induction H1 as [|i its Hi HF IH]; intros ns H3; [constructor|]. destruct i as [c|c|index colon sp].
  - constructor; [split; auto|]. apply (IH ns H3).
  - constructor; [split; auto|]. apply (IH ns H3).
  - cbn [field_specs flat_map app] in H3. fold (field_specs its) in H3. inversion H3 as [|n sp' ns' l (t & _ & HS) HR]; subst. constructor; [|eapply IH; eauto].
    split; [exact Hi|]. eapply field_spec_end; eauto.
Qed.

Lemma digits_same a b x y : Forall digit_char a -> Forall digit_char b -> (forall c l, x = c :: l -> ~ digit_char c) -> (forall c l, y = c :: l -> ~ digit_char c) -> a ++ x = b ++ y -> a = b /\ x = y.
Proof.
  intros HA. revert b. induction HA as [|c a Hc HA IH]; intros [|d b] HB HX HY E; cbn [app] in E.
  - auto.
  - exfalso. eapply HX; [exact E|]. now inversion HB.
  - exfalso. eapply HY; [symmetry; exact E|exact Hc].
  - injection E as <- E. destruct (IH b (Forall_inv_tail HB) HX HY E) as [-> ->]. auto.
Qed.
Lemma index_digits index : index = [] \/ digits_text index -> Forall digit_char index.
Proof. intros [-> |[_ H]]; [constructor|exact H]. Qed.

Lemma item_same i i' l l' : closed_item i -> closed_item i' -> item_text i ++ l = item_text i' ++ l' -> i = i' /\ l = l'.
Proof.
  intros [Ho Hc] [Ho' Hc'] E. unfold item_ok, is_brace in *.
  destruct i as [c|c|index colon sp], i' as [c'|c'|index' colon' sp']; cbn [item_text app] in E.
  - injection E as <- E. auto.
  - injection E as <- E. tauto.
  - injection E as -> E. tauto.
  - injection E as <- E. tauto.
  - injection E as <- E. auto.
  - exfalso. injection E as -> E. rewrite <- !app_assoc in E. destruct Ho' as [HI HC]. destruct (not_open index' colon' sp' l' HI HC) as (x & k & EX & NX). unfold colon_text in EX. rewrite EX in E. injection E as E _. congruence.
  - exfalso. injection E as <- E. tauto.
  - exfalso. injection E as <- E. rewrite <- !app_assoc in E. destruct Ho as [HI HC]. destruct (not_open index colon sp l HI HC) as (x & k & EX & NX). unfold colon_text in EX. rewrite EX in E. injection E as E _. congruence.
  - injection E as E. rewrite <- !app_assoc in E. destruct Ho as [HI HC], Ho' as [HI' HC'].
    destruct Hc as (x & -> & HX), Hc' as (x' & -> & HX').
    assert (ND : forall (b : bool) x l, (b = false -> x ++ [125] = [125]) -> forall c k, (if b then [58] else []) ++ (x ++ [125]) ++ l = c :: k -> ~ digit_char c).
    { intros b y m HB c k EQ. unfold digit_char. destruct b; [injection EQ as <- _; lia|]. rewrite (HB eq_refl) in EQ. injection EQ as <- _. lia. }
    destruct (digits_same _ _ _ _ (index_digits _ HI) (index_digits _ HI') (ND colon x l HC) (ND colon' x' l' HC') E) as [-> E2].
    assert (X0 : forall y : list Z, y ++ [125] = [125] -> y = []) by (intros [|? []] Q; [reflexivity|discriminate|discriminate]).
    rewrite <- !app_assoc in E2. cbn [app] in E2. destruct colon, colon'; cbn [app] in E2.
    + injection E2 as E2. destruct (first_brace_unique _ _ _ _ HX HX' E2) as [-> ->]. auto.
    + rewrite (X0 x' (HC' eq_refl)) in E2. discriminate.
    + rewrite (X0 x (HC eq_refl)) in E2. discriminate.
    + destruct (first_brace_unique _ _ _ _ HX HX' E2) as [-> ->]. auto.
Qed.

Lemma items_prefix its' : Forall closed_item its' -> forall its e, Forall closed_item its -> text_of its = text_of its' ++ e ->
  exists its2, its = its' ++ its2 /\ text_of its2 = e.
Proof.
  induction 1 as [|i' its' Hi' HF' IH]; intros its e HF E; [exists its; auto|].
  destruct HF as [|i its Hi HF].
  { exfalso. cbn in E. destruct i' as [c|c|index colon sp]; discriminate. }
  change (text_of (i :: its)) with (item_text i ++ text_of its) in E. change (text_of (i' :: its')) with (item_text i' ++ text_of its') in E. rewrite <- app_assoc in E.
  destruct (item_same _ _ _ _ Hi Hi' E) as [-> S]. destruct (IH its e HF S) as (its2 & -> & H2). exists its2. auto.
Qed.

Lemma numbering_unique l ns ns' : numbering l ns -> numbering l ns' -> ns = ns'.
Proof.
  intros [(H1 & ->)|H1] [(H2 & ->)|H2]; [reflexivity| | |].
  - destruct l as [|i l]; [inversion H2; reflexivity|]. inversion H2 as [|? ? ? ? ((HN & _) & _)]; subst. inversion H1; congruence.
  - destruct l as [|i l]; [inversion H1; reflexivity|]. inversion H1 as [|? ? ? ? ((HN & _) & _)]; subst. inversion H2; congruence.
  - revert ns' H2. induction H1 as [|i n l ns (_ & H1) HF IH]; intros ns' H2; inversion H2 as [|? n' ? ns2 (_ & H3) HF2]; subst; [reflexivity|]. f_equal; [lia|now apply IH].
Qed.

(** The reading found by the validation is the one of a well-formed string. *)
Lemma acc_reading tys s its ns its' ns' e : (length tys <= 128)%nat -> acc tys s 0 None 0 its' ns' e -> s = text_of its -> good_items tys its ns -> its' = its /\ ns' = ns /\ e = [].
Proof.
  intros HL HA HS HG. destruct (acc_good _ _ _ _ _ HA) as (HT & HG'). assert (E : text_of its = text_of its' ++ e) by congruence.
  destruct (items_prefix its' (good_closed _ _ _ HG') its e (good_closed _ _ _ HG) E) as (its2 & -> & H2).
  assert (e = []) as ->.
  { destruct (acc_cut _ _ _ _ _ _ _ _ HA) as [HE|((index & c & rest & HE & HD & HV & HC) & _ & _)]; [exact HE|exfalso].
    destruct HG as (HO & HN & HF). assert (HO2 : Forall item_ok its2) by (apply Forall_app in HO; tauto).
    rewrite HE in H2. destruct its2 as [|i its2]; [discriminate|]. assert (Hi := Forall_inv HO2).
    destruct i as [c0|c0|index' colon sp]; cbn [text_of flat_map item_text app] in H2; cbn [item_ok] in Hi.
    - injection H2 as -> _. apply Hi. now left.
    - injection H2 as -> H2. destruct HD as [HD1 HD2]. destruct index as [|d index]; [congruence|]. injection H2 as <- _. inversion HD2. lia.
    - injection H2 as H2. rewrite <- !app_assoc in H2. destruct Hi as [HI HCo].
      assert (NS : exists y, sp = y ++ [125] /\ ~ In 125 y).
      { assert (C := good_closed tys (its' ++ Field index' colon sp :: its2) ns (conj HO (conj HN HF))). apply Forall_app in C. destruct C as [_ C]. apply Forall_inv in C. apply C. }
      destruct NS as (y & -> & _).
      assert (ND1 : forall d k, (if colon then [58] else []) ++ (y ++ [125]) ++ text_of its2 = d :: k -> ~ digit_char d).
      { intros d k EQ. unfold digit_char. destruct colon; [injection EQ as <- _; lia|]. rewrite (HCo eq_refl) in EQ. injection EQ as <- _. lia. }
      assert (ND2 : forall d k, c :: rest = d :: k -> ~ digit_char d) by (intros d k [= <- _]; unfold digit_char; lia).
      destruct (digits_same _ _ _ _ (index_digits _ HI) (proj2 HD) ND1 ND2 H2) as [-> _].
      destruct HN as [(HN & _)|HN].
      + rewrite Forall_forall in HN. destruct HD as [HD _]. apply HD, HN. unfold indices. rewrite flat_map_app. apply in_or_app. right. now left.
      + assert (HX : exists n, In n ns /\ Z.of_nat n = 255).
        { unfold indices in HN. rewrite flat_map_app in HN. cbn [flat_map app] in HN. apply Forall2_app_inv_l in HN. destruct HN as (n1 & n2 & _ & HN & ->). inversion HN as [|? n ? ? (_ & HV')]; subst.
          exists n. split; [apply in_or_app; right; now left|lia]. }
        destruct HX as (n & HIn & HNn). assert (HY : exists t, nth_error tys n = Some t).
        { clear -HF HIn. induction HF as [|n' sp ns l (t & HT & _) HF IH]; [contradiction|]. destruct HIn as [-> |HIn]; [eauto|auto]. }
        destruct HY as (t & HY). assert (X : (n < length tys)%nat) by (apply nth_error_Some; congruence). lia. }
  assert (its2 = []) as ->. { destruct its2 as [|[] its2]; [reflexivity|discriminate..]. }
  rewrite app_nil_r in *. split; [reflexivity|]. split; [|reflexivity]. destruct HG as (_ & HN & _), HG' as (_ & HN' & _). eapply numbering_unique; eauto.
Qed.

Lemma spec_text_unique t s1 s2 : Forall is_byte t -> small_numbers t -> spec_text t s1 -> spec_text t s2 -> s1 = s2.
Proof.
  intros HB HS H1 H2. assert (E1 := validate_complete t 0 t [] s1 HB (eq_sym (app_nil_r t)) H1 HS). assert (E2 := validate_complete t 0 t [] s2 HB (eq_sym (app_nil_r t)) H2 HS).
  rewrite E1 in E2. now injection E2.
Qed.

(** ** Formatting *)
Definition plain_shows (tv : fty * fval) (sp o : list Z) : Prop := shows (plain_style (fst tv)) (fst tv) sp (snd tv) o.
Lemma typed_writes (G : Prop) args : typed args -> (G -> short_values args) -> Forall (arg_writes G plain_shows) args.
Proof.
  intros H HG. apply Forall_forall. intros tv HI sp m HS HF. unfold typed, short_values in *. rewrite Forall_forall in *.
  apply plain_writes; [apply all_values_write|intros g; split; [now apply HG|now apply HS]|now apply H|exact HF].
Qed.

Theorem format_attempt (G : Prop) args s v its ns e : Forall is_byte s -> vstr_from s (map fst args) = Ok v -> vs_str v = Ok s -> typed args -> acc (map fst args) s 0 None 0 its ns e ->
  (G -> short_precisions s /\ short_values args) ->
  attempt G (fun K vt b => vformat_to vt b v args) (string_shows args its ns) (Exists octal_spec (field_specs its) \/ Exists (fun tv => octal_in (snd tv)) args).
Proof.
  intros HB HV HS HT HA HG. refine (string_writes G plain_shows args s v HB HV HS (typed_writes G _ HT (fun g => proj2 (HG g))) its ns e HA _).
  intros g. apply (text_short its e). destruct (acc_good _ _ _ _ _ HA) as [<- _]. now apply HG.
Qed.

Theorem walk_attempt args s v its ns e : Forall is_byte s -> vstr_from s (map fst args) = Ok v -> vs_str v = Ok s -> typed args -> pacc (map fst args) s 0 None 0 its ns e ->
  attempt False (fun K vt b => vformat_to vt b v args) (string_shows args its ns) (Exists octal_spec (field_specs its) \/ Exists (fun tv => octal_in (snd tv)) args).
Proof.
  intros HB HV HS HT HA. exact (string_walks False plain_shows args s v HB HV HS (typed_writes False _ HT (False_ind _)) its ns e HA (False_ind _)).
Qed.
