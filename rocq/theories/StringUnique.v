(** The text a format string stands for (SpecString.v) is determined. *)
From Verif Require Import Base Conversion Reader Buffer Writer Bitset Specs FormatArg FloatArg Format.
From Verif Require Import Lib SpecNum SpecReader SpecEscape SpecFloat SpecFormat SpecDecimal SpecField SpecSpecs.
From Verif Require Import ConversionProofs ReaderProofs SpecsProofs FieldUnique FieldProofs PropsField StringProofs StringLoop StringEmits StringTop SpecField SpecString.

(** ** Fields of core types *)
Lemma short_body_unique s bits b b' : fixed_body_short s bits b -> fixed_body_short s bits b' -> b = b'.
Proof.
  unfold fixed_body_short. cbv zeta. set (N := if sp_precision s =? -1 then 6 else sp_precision s).
  intros (i & f & D & L & V) (i' & f' & D' & L' & V').
  destruct (parts_same i f i' f') as [-> ->]; try apply D; try apply D'; try lia. eapply decimal_text_unique; eauto.
Qed.

Lemma actual_field_unique s a o1 o2 : carg_ok a -> actual_field s a o1 -> actual_field s a o2 -> o1 = o2.
Proof.
  intros HA [(N1 & F1)|(D1 & F1)] [(N2 & F2)|(D2 & F2)]; try tauto; [eapply core_field_unique; eauto|].
  destruct a as [|c| |bits| |]; cbn [deviant_field] in *; try contradiction.
  - destruct F1 as (l1 & r1 & -> & L1 & A1), F2 as (l2 & r2 & -> & L2 & A2).
    assert (l1 = l2 /\ r1 = r2) as [-> ->]; [|reflexivity]. destruct (field_align align_left s); try contradiction; lia.
  - destruct F1 as (b1 & B1 & N1), F2 as (b2 & B2 & N2). rewrite (short_body_unique _ _ _ _ B1 B2) in N1. eapply number_field_unique; eauto.
Qed.

(** ** Specifications *)
Lemma range_spec_unique sp n e n' e' : range_spec sp n e -> range_spec sp n' e' -> n = n' /\ e = e'.
Proof. unfold range_spec. intros -> E. destruct n, n', e as [e|], e' as [e'|]; cbn in E; try discriminate; try (injection E as E; subst); auto. Qed.
Lemma small_part a t b : small_numbers (a ++ t ++ b) -> small_numbers t.
Proof. intros H x d y -> HD. apply (H (a ++ x) d (y ++ b)); [|exact HD]. now rewrite <- !app_assoc. Qed.
(** Bytes, with numbers below 2^32. *)
Definition plain_text (t : list Z) : Prop := Forall is_byte t /\ small_numbers t.
Lemma plain_part a t b : plain_text (a ++ t ++ b) -> plain_text t.
Proof. intros [HB HS]. split; [|eapply small_part; eauto]. apply Forall_app in HB. destruct HB as [_ HB]. apply Forall_app in HB. tauto. Qed.
Lemma plain_brace : plain_text [125].
Proof.
  split; [repeat constructor; cbn; lia|]. intros a d b E (HN & HD). destruct d as [|c d]; [congruence|]. exfalso. inversion HD. assert (In c [125]) as [<-|[]]; [rewrite E; apply in_or_app; right; now left|lia].
Qed.
Lemma plain_element sp n e : range_spec sp n e -> plain_text sp -> plain_text (element_spec e).
Proof.
  intros -> H. destruct e as [e|]; cbn [element_spec]; [|apply plain_brace].
  apply (plain_part ((if n then [110] else []) ++ [58]) e []). rewrite app_nil_r, <- app_assoc. exact H.
Qed.
Lemma plain_fields its e : plain_text (text_of its ++ e) -> Forall plain_text (field_specs its).
Proof.
  intros H. apply Forall_forall. intros sp HI. unfold field_specs in HI. apply in_flat_map in HI. destruct HI as (i & HI & HX). destruct i as [| |index colon sp']; try contradiction.
  destruct HX as [->|[]]. apply in_split in HI. destruct HI as (a & b & ->). rewrite text_of_app in H.
  apply (plain_part (text_of a ++ [123] ++ index ++ (if colon then [58] else [])) sp (text_of b ++ e)).
  cbn [text_of flat_map item_text app] in H. fold (text_of b) in H. rewrite <- !app_assoc in *. cbn [app] in *. rewrite <- !app_assoc in H. exact H.
Qed.

(** ** Readings *)
Lemma items_common its : Forall closed_item its -> forall its' e e', Forall closed_item its' -> text_of its ++ e = text_of its' ++ e' ->
  exists k, (its = its' ++ k /\ text_of k ++ e = e') \/ (its' = its ++ k /\ e = text_of k ++ e').
Proof.
  induction 1 as [|i its Hi HF IH]; intros its' e e' HF' E; [exists its'; right; auto|].
  destruct HF' as [|i' its' Hi' HF']; [exists (i :: its); left; auto|].
  change (text_of (i :: its)) with (item_text i ++ text_of its) in E. change (text_of (i' :: its')) with (item_text i' ++ text_of its') in E. rewrite <- !app_assoc in E.
  destruct (item_same _ _ _ _ Hi Hi' E) as [-> S]. destruct (IH its' e e' HF' S) as (k & [[-> H]|[-> H]]); exists k; auto.
Qed.
Lemma cut_reading tys its its' ns e : (length tys <= 255)%nat -> good_items tys (its ++ its') ns -> field_255 (text_of its' ++ e) -> its' = [].
Proof.
  intros HL HG (index & c & rest & H2 & HD & HV & HC). destruct its' as [|i its2]; [reflexivity|exfalso].
  assert (CL := good_closed _ _ _ HG). destruct HG as (HO & HN & HF). assert (Hi := Forall_inv (proj2 (proj1 (Forall_app _ _ _) HO))).
  destruct i as [c0|c0|index' colon sp]; cbn [text_of flat_map item_text app] in H2; fold (text_of its2) in H2; cbn [item_ok] in Hi.
  - injection H2 as -> _. apply Hi. now left.
  - injection H2 as -> H2. destruct HD as [HD1 HD2]. destruct index as [|d index]; [congruence|]. injection H2 as <- _. inversion HD2. lia.
  - injection H2 as H2. rewrite <- !app_assoc in H2. destruct Hi as [HI HCo].
    apply Forall_app in CL. destruct CL as [_ CL]. destruct (Forall_inv CL) as [_ (y & -> & _)].
    assert (ND1 : forall d k, (if colon then [58] else []) ++ (y ++ [125]) ++ text_of its2 ++ e = d :: k -> ~ digit_char d).
    { intros d k EQ. unfold digit_char. destruct colon; [injection EQ as <- _; lia|]. rewrite (HCo eq_refl) in EQ. injection EQ as <- _. lia. }
    assert (ND2 : forall d k, c :: rest = d :: k -> ~ digit_char d) by (intros d k [= <- _]; unfold digit_char; lia).
    destruct (digits_same _ _ _ _ (index_digits _ HI) (proj2 HD) ND1 ND2 H2) as [-> _].
    destruct HN as [(HN & _)|HN].
    + rewrite Forall_forall in HN. destruct HD as [HD _]. apply HD, HN. unfold indices. rewrite flat_map_app. apply in_or_app. right. now left.
    + assert (HX : exists n, In n ns /\ Z.of_nat n = 255).
      { unfold indices in HN. rewrite flat_map_app in HN. cbn [flat_map app] in HN. apply Forall2_app_inv_l in HN. destruct HN as (n1 & n2 & _ & HN & ->). inversion HN as [|? n ? ? (_ & HV')]; subst.
        exists n. split; [apply in_or_app; right; now left|lia]. }
      destruct HX as (n & HIn & HNn). assert (HY : exists t, nth_error tys n = Some t).
      { clear -HF HIn. induction HF as [|n' sp ns l (t & HT & _) HF IH]; [contradiction|]. destruct HIn as [-> |HIn]; [eauto|auto]. }
      destruct HY as (t & HY). assert (X : (n < length tys)%nat) by (apply nth_error_Some; congruence). lia.
Qed.
Theorem reading_unique tys its ns e its' ns' e' : (length tys <= 255)%nat -> good_items tys its ns -> good_items tys its' ns' ->
  e = [] \/ field_255 e -> e' = [] \/ field_255 e' -> text_of its ++ e = text_of its' ++ e' -> its = its' /\ ns = ns' /\ e = e'.
Proof.
  intros HL HG HG' HE HE' E. assert (X : its = its' /\ e = e').
  { destruct (items_common its (good_closed _ _ _ HG) its' e e' (good_closed _ _ _ HG') E) as (k & [[-> H]|[-> H]]).
    - destruct HE' as [->|HE']; [apply app_eq_nil in H; destruct H as [H ->]; destruct k as [|[] k]; try discriminate; now rewrite app_nil_r|].
      rewrite <- H in HE'. assert (k = []) as -> by (eapply cut_reading; eauto). now rewrite app_nil_r.
    - destruct HE as [->|HE]; [symmetry in H; apply app_eq_nil in H; destruct H as [H ->]; destruct k as [|[] k]; try discriminate; now rewrite app_nil_r|].
      rewrite H in HE. assert (k = []) as -> by (eapply cut_reading; eauto). now rewrite app_nil_r. }
  destruct X as [-> ->]. split; [reflexivity|]. split; [|reflexivity]. destruct HG as (_ & HN & _), HG' as (_ & HN' & _). eapply numbering_unique; eauto.
Qed.

(** ** Values *)
Lemma formats_unique (show : nat -> list Z -> list Z -> Prop) its : forall ns o1 o2,
  (forall n sp o1 o2, In sp (field_specs its) -> show n sp o1 -> show n sp o2 -> o1 = o2) -> formats show its ns o1 -> formats show its ns o2 -> o1 = o2.
Proof.
  induction its as [|i its IH]; intros ns o1 o2 H F1 F2.
  - inversion F1. inversion F2. reflexivity.
  - destruct i as [c|c|index colon sp]; inversion F1; inversion F2; subst.
    + f_equal. eapply IH; eauto.
    + f_equal. eapply IH; eauto.
    + match goal with E : _ :: _ = _ :: _ |- _ => injection E as -> -> end. f_equal.
      * eapply (H _ sp); [now left| |]; eassumption.
      * eapply IH; [|eassumption|eassumption]. intros n' sp' p1 p2 HI. apply H. now right.
Qed.

Lemma strings_range vs : small_strings (VRange vs) -> Forall small_strings vs.
Proof. induction vs as [|v vs IH]; intros H; constructor; [apply H|]. apply IH, H. Qed.
Lemma strings_tuple vs : small_strings (VTuple vs) -> Forall small_strings vs.
Proof. exact (strings_range vs). Qed.
Lemma strings_args s args : small_strings (VArgs s args) -> (forall text, vs_str s = Ok text -> small_numbers text) /\ Forall (fun tv : fty * fval => small_strings (snd tv)) args.
Proof. intros [H1 H2]. split; [exact H1|]. clear H1. induction args as [|tv args IH]; constructor; [apply H2|]. apply IH, H2. Qed.

Definition one_text (v : fval) : Prop := forall st t sp o1 o2, has_type t v -> plain_text sp -> small_strings v -> shows st t sp v o1 -> shows st t sp v o2 -> o1 = o2.

Lemma elements_unique st t sp vs : Forall one_text vs -> Forall (has_type t) vs -> plain_text sp -> Forall small_strings vs -> forall o1 o2,
  Forall2 (shows st t sp) vs o1 -> Forall2 (shows st t sp) vs o2 -> o1 = o2.
Proof.
  intros HO. induction HO as [|v vs Hv HO IH]; intros HT HP HS o1 o2 F1 F2; inversion F1; inversion F2; subst; [reflexivity|]. inversion HT; inversion HS; subst. f_equal; [eapply Hv; eauto|now apply IH].
Qed.
Lemma tuple_unique (st : fty * fval -> style) sp vs : Forall one_text vs -> forall ts, Forall2 has_type ts vs -> plain_text sp -> Forall small_strings vs -> forall o1 o2,
  Forall2 (fun tv out => shows (st tv) (fst tv) sp (snd tv) out) (combine ts vs) o1 -> Forall2 (fun tv out => shows (st tv) (fst tv) sp (snd tv) out) (combine ts vs) o2 -> o1 = o2.
Proof.
  intros HO. induction HO as [|v vs Hv HO IH]; intros ts HT HP HS o1 o2 F1 F2; inversion HT; subst; cbn [combine] in *; inversion F1; inversion F2; subst; [reflexivity|]. inversion HS; subst.
  cbn [fst snd] in *. f_equal; [eapply Hv; eauto|eapply IH; eauto].
Qed.

Lemma few_types s tys : Forall is_byte s -> Forall tuple_free tys -> accepted s tys -> (length tys <= 128)%nat.
Proof. intros HB HT HA. destruct (accepted_sound s tys HB HT HA) as (_ & _ & _ & _ & HL & _). exact HL. Qed.

Theorem all_one_text v : one_text v.
Proof.
  induction v using fval_ind'; intros st t' sp o1 o2 HT HP HS F1 F2.
  - inversion F1 as [? ? ? s1 ? ? E1 A1 | | | | | | | | | | |]; inversion F2 as [? ? ? s2 ? ? E2 A2 | | | | | | | | | | |]; subst.
    rewrite (spec_text_unique sp s1 s2 (proj1 HP) (proj2 HP) E1 E2) in A1. inversion HT; subst. eapply actual_field_unique; eauto.
  - inversion F1; inversion F2; subst; reflexivity.
  - inversion F1; inversion F2; subst; reflexivity.
  - inversion HT; subst. inversion F1; inversion F2; subst. do 2 f_equal. eapply IHv; eauto.
  - inversion F1; inversion F2; subst; reflexivity.
  - inversion HT; subst. inversion F1; subst; inversion F2; subst; try reflexivity; try (exfalso; match goal with X : forall c, _ <> _ |- _ => now apply (X _ eq_refl) end).
    do 2 f_equal. eapply IHv; [eassumption|apply plain_brace|exact HS|eassumption|eassumption].
  - inversion HT; subst. inversion F1 as [| | | | | | | |? ? ? ? n1 e1 ? ? R1 L1 | | | ]; inversion F2 as [| | | | | | | |? ? ? ? n2 e2 ? ? R2 L2 | | | ]; subst.
    destruct (range_spec_unique _ _ _ _ _ R1 R2) as [-> ->]. f_equal. eapply (elements_unique _ _ _ vs H); [eassumption|eapply plain_element; eauto|now apply strings_range|exact L1|exact L2].
  - inversion HT; subst. inversion F1 as [| | | | | | | | |? ? ? n1 e1 ? ? R1 _ L1 | | ]; inversion F2 as [| | | | | | | | |? ? ? n2 e2 ? ? R2 _ L2 | | ]; subst.
    destruct (range_spec_unique _ _ _ _ _ R1 R2) as [-> ->]. f_equal. eapply (tuple_unique (fun tv => mk_style (no_spec e2) spec_not_defined spec_not_defined (default_brackets (fst tv))) _ vs H); [eassumption|eapply plain_element; eauto|now apply strings_tuple|exact L1|exact L2].
  - inversion HT; subst. inversion F1; inversion F2; subst. eapply IHv; eauto.
  - inversion HT as [| | | | | | | | |? text ? HB HV HVS HTF HTy]; subst. destruct (strings_args _ _ HS) as [HSt HSa].
    inversion F1 as [| | | | | | | | | | |? ? ? ? its1 ns1 e1 ? V1 C1 G1 S1]; inversion F2 as [| | | | | | | | | | |? ? ? ? its2 ns2 e2 ? V2 C2 G2 S2]; subst.
    assert (HL : (length (map fst args) <= 128)%nat) by (apply (few_types text); auto; exists s; auto).
    rewrite HVS in V1, V2. injection V1 as V1. injection V2 as V2.
    destruct (reading_unique (map fst args) its1 ns1 e1 its2 ns2 e2) as (-> & -> & ->); auto; [lia|congruence|].
    assert (HF : Forall plain_text (field_specs its2)) by (apply (plain_fields its2 e2); rewrite <- V2; split; auto).
    eapply formats_unique; [|exact S1|exact S2]. intros n sp' p1 p2 HI (tv1 & N1 & W1) (tv2 & N2 & W2). rewrite N1 in N2. injection N2 as <-.
    rewrite Forall_forall in HF. rewrite Forall_forall in H, HTy, HSa. assert (HIn := nth_error_In _ _ N1).
    apply (H tv1 HIn (plain_style (fst tv1)) (fst tv1) sp' p1 p2); [apply (HTy tv1 HIn)|apply HF, HI|apply (HSa tv1 HIn)|exact W1|exact W2].
Qed.

Theorem string_unique args its ns o1 o2 : typed args -> Forall (fun tv => small_strings (snd tv)) args -> Forall plain_text (field_specs its) ->
  string_shows args its ns o1 -> string_shows args its ns o2 -> o1 = o2.
Proof.
  intros HT HS HF. apply formats_unique. intros n sp' p1 p2 HI (tv1 & N1 & W1) (tv2 & N2 & W2). rewrite N1 in N2. injection N2 as <-.
  unfold typed in HT. rewrite Forall_forall in HF, HT, HS. assert (HIn := nth_error_In _ _ N1). apply (all_one_text (snd tv1) (plain_style (fst tv1)) (fst tv1) sp' p1 p2); [apply (HT tv1 HIn)|apply HF, HI|apply (HS tv1 HIn)|exact W1|exact W2].
Qed.
