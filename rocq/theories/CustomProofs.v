(** Proofs about Custom.v: format strings with user-defined formatters. *)
From Verif Require Import Base Conversion Reader Buffer Writer Bitset Specs FormatArg FloatArg Format Custom.
From Verif Require Import Lib SpecNum SpecReader SpecEscape SpecFloat SpecFormat SpecDecimal SpecField SpecSpecs SpecString SpecCustom.
From Verif Require Import ConversionProofs ReaderProofs SpecsProofs BitsetProofs BufferProofs Emits WriterProofs StringProofs StringLoop StringEmits StringTop.

(** Formatting with the specification at this place does what was promised. *)
Definition formats_at (u : user) (c : contract) (T : list Z) (p : nat) (sp : list Z) : Prop :=
  (exists d l, sp = d :: l) /\
  exists m out o, u_parse u (mk_reader T p) = (Ok m, mk_reader T (p + length sp)) /\
    c_does c sp out o /\ (o = Ok tt \/ exists e, o = Err e) /\ acts (fun K vt b => u_format u K vt m b) out o.

Section Strings.
  Context (us : list user) (cs : list contract) (HK : Forall2 keeps us cs).

  Lemma keeps_len : length us = length cs.
  Proof. now apply (Forall2_len keeps). Qed.
  Lemma keeps_nth k u : nth_error us k = Some u -> exists c, nth_error cs k = Some c /\ keeps u c.
  Proof.
    revert k. induction HK as [|u' c' us' cs' H1 H2 IH]; intros [|k] H; try discriminate; cbn in *; [injection H as <-; eauto|now apply IH].
  Qed.
  Lemma keeps_nth_c k c : nth_error cs k = Some c -> exists u, nth_error us k = Some u /\ keeps u c.
  Proof.
    revert k. induction HK as [|u' c' us' cs' H1 H2 IH]; intros [|k] H; try discriminate; cbn in *; [injection H as <-; eauto|now apply IH].
  Qed.
  Lemma reads_cons u c sp : keeps u c -> c_reads c sp -> exists d l, sp = d :: l.
  Proof. intros HC H. destruct (k_closed _ _ HC sp H) as ([|d x] & -> & _); cbn; eauto. Qed.

  Lemma keeps_formats u c T p sp rest : keeps u c -> Forall is_byte T -> skipn p T = sp ++ rest -> c_reads c sp ->
    validate_trait u (mk_reader T p) = (Ok tt, mk_reader T (p + length sp)) -> formats_at u c T p sp.
  Proof. intros HC HB HS HR HV. split; [exact (reads_cons u c sp HC HR)|exact (k_format u c HC T p sp rest HB HS HR HV)]. Qed.

  (** From position [n] on the string consists of [its] and [e]. *)
  Inductive uacc (T : list Z) : nat -> option bool -> nat -> list item -> list nat -> list Z -> Prop :=
  | uacc_end n use inc its e : Forall plain_item its -> skipn n T = text_of its ++ e -> e = [] \/ cut_text use e -> uacc T n use inc its [] e
  | uacc_field n use inc lits index colon sp rest its k ns e use' inc' u c p :
      Forall plain_item lits -> skipn n T = text_of lits ++ text_of [Field index colon sp] ++ rest -> (colon = false -> sp = [125]) ->
      picks use inc index (Z.of_nat k) use' inc' -> (k < 128)%nat -> nth_error us k = Some u -> nth_error cs k = Some c -> formats_at u c T p sp -> c_reads c sp ->
      p = (n + length (text_of lits) + 1 + length index + length (colon_text colon))%nat -> skipn p T = sp ++ rest ->
      validate_trait u (mk_reader T p) = (Ok tt, mk_reader T (p + length sp)) ->
      uacc T (p + length sp) use' inc' its ns e ->
      uacc T n use inc (lits ++ Field index colon sp :: its) (k :: ns) e.

  Theorem user_loop_sound T : Forall is_byte T -> forall fuel n use inc b,
    bs_ok b -> bs_bits b = 128%nat -> (inc <= 128)%nat ->
    user_loop fuel us (mk_reader T n) use (Z.of_nat inc) b = Ok true ->
    exists its ns e, uacc T n use inc its ns e /\ (length us <= 128)%nat /\ forall k, (k < length us)%nat -> bit (bs_words b) k = true \/ In k ns.
  Proof.
    intros HB. induction fuel as [|fuel IH]; intros n use inc b HBS H128 HI H; [discriminate|]. cbn [user_loop rtext] in H.
    destruct (split_text (skipn n T)) as (lits & rest & HS & HF & HE). rewrite (check_text_at _ T n lits rest HF HS HE (Nat.lt_succ_diag_r _)) in H.
    assert (AF : bitset_all_first b (length us) = Ok true -> (length us <= 128)%nat /\ forall k, (k < length us)%nat -> bit (bs_words b) k = true).
    { intros X. destruct (all_first_ok b (length us) HBS) as (q & EQ & HQ). rewrite EQ in X. injection X as ->. destruct HQ as [HQ _]. rewrite H128 in HQ. exact (HQ eq_refl). }
    destruct HE as [|c l N| |l N]; cbn [text_result] in H; try discriminate.
    { destruct (AF H) as [A1 A2]. exists lits, [], []. split; [constructor; auto|]. split; [exact A1|]. intros k HK'. left. auto. }
    set (p0 := S (n + length (text_of lits))) in *.
    assert (HP0 : skipn p0 T = c :: l) by (unfold p0; apply (skip_succ _ _ 123); apply (skip_part _ _ _ _ HS)).
    destruct (check_field (mk_reader T p0) use (Z.of_nat inc)) as [[[[k use'] inc']|?| |] r'] eqn:EC; try discriminate.
    destruct (check_field_inv T p0 use inc k use' inc' r' HB ltac:(lia) EC) as (index & colon & l' & i & HS' & HP & -> & HK' & ->).
    assert (WP : (p0 + length index + length (colon_text colon) <= length T)%nat).
    { assert (LP0 := skip_bound _ _ _ _ HP0). assert (Y := f_equal (@length Z) HS'). rewrite skipn_length, !app_length in Y. lia. }
    set (p := (p0 + length index + length (colon_text colon))%nat) in *.
    assert (HSP : skipn p T = if colon then l' else 125 :: l').
    { unfold p. rewrite <- Nat.add_assoc, <- app_length. rewrite app_assoc in HS'. apply (skip_part _ _ _ _ HS'). }
    change no_more_args with 255 in H. destruct (k =? 255) eqn:EK.
    - assert (k = 255) as -> by lia. destruct (AF H) as [A1 A2]. exists lits, [], (123 :: c :: l). split; [|split; [exact A1|intros k HK2; left; auto]].
      constructor; [exact HF|exact HS|]. right. destruct HP as [(-> & _ & X & _)|(HD & HU & X & _)]; [lia|]. split; [exact HU|].
      exists index, (if colon then 58 else 125), l'. split; [|auto 6]. f_equal. rewrite <- HP0, HS'. destruct colon; reflexivity. destruct colon; auto.
    - destruct (Z.of_nat (length us) <=? k) eqn:EL; [discriminate|]. destruct (bitset_set b (Z.to_nat k)) as [b'| | |] eqn:EB; try discriminate. cbn [bind] in H.
      assert (HK2 : (Z.to_nat k < 128)%nat).
      { unfold bitset_set in EB. rewrite H128 in EB. destruct (128 <=? Z.to_nat k)%nat eqn:E; [discriminate|lia]. }
      destruct (nth_error us (Z.to_nat k)) as [u|] eqn:EN; [|discriminate]. destruct (keeps_nth _ _ EN) as (ct & EN' & HKu).
      assert (HSd := k_sound u ct HKu T p HB WP).
      destruct (validate_trait u (mk_reader T p)) as [[[]|?| |] r'] eqn:EV; try discriminate.
      destruct HSd as (sp & rest & H1 & H2 & ->).
      destruct (set_ok b (Z.to_nat k) HBS ltac:(lia)) as (b2 & EB2 & HB2 & L2 & W2). rewrite EB in EB2. injection EB2 as <-.
      assert (HI' : (i <= 128)%nat) by (destruct HP as [(_ & _ & X & _ & ->)|(_ & _ & _ & _ & ->)]; lia).
      destruct (IH (p + length sp)%nat use' i b' HB2 ltac:(lia) HI' H) as (its & ns & e & HA & HL & HCov).
      exists (lits ++ Field index colon sp :: its), (Z.to_nat k :: ns), e. split; [|split; [exact HL|]].
      + assert (HCS : colon = false -> sp = [125]).
        { intros ->. rewrite H1 in HSP. destruct (k_closed u ct HKu sp H2) as (x & -> & HX). destruct x as [|x0 x]; [reflexivity|]. cbn in HSP. injection HSP as -> _. exfalso. apply HX. now left. }
        assert (HFA := keeps_formats u ct T p sp rest HKu HB H1 H2 EV).
        apply (uacc_field T n use inc lits index colon sp rest its (Z.to_nat k) ns e use' i u ct p); auto; try (rewrite ?Z2Nat.id by lia; assumption).
        * rewrite field_text, HS. f_equal. cbn [app]. f_equal. rewrite <- !app_assoc, <- HP0, HS'. f_equal. f_equal. rewrite <- H1, HSP. reflexivity.
        * unfold p, p0. lia.
      + intros j HJ. destruct (HCov j HJ) as [X|X]; [|right; now right]. apply W2 in X. destruct X as [X| ->]; [now left|right; now left].
  Qed.

  Theorem user_loop_complete T : Forall is_byte T -> (length us <= 128)%nat -> forall n use inc its ns e, uacc T n use inc its ns e -> forall fuel b,
    bs_ok b -> bs_bits b = 128%nat -> (inc <= 128)%nat -> (length T - n < fuel)%nat ->
    (forall k, (k < length us)%nat -> bit (bs_words b) k = true \/ In k ns) ->
    user_loop fuel us (mk_reader T n) use (Z.of_nat inc) b = Ok true.
  Proof.
    intros HB HL n use inc its ns e HA. induction HA as [n use inc its e HF HS HE|n use inc lits index colon sp rest its k ns e use' inc' u ct p HF HS HC HP HK' HN HNc HKu HFS Hp HSP HV HA IH];
      intros fuel b HBS H128 HI HFu HCov; (destruct fuel as [|fuel]; [lia|]); cbn [user_loop rtext].
    - assert (AF : bitset_all_first b (length us) = Ok true).
      { destruct (all_first_ok b (length us) HBS) as (q & -> & _ & HQ). f_equal. apply HQ. rewrite H128. split; [exact HL|]. intros i Hi. destruct (HCov i Hi) as [X|[]]. exact X. }
      destruct HE as [-> |(HU & index & c & r & -> & HD & H255 & HC)].
      + rewrite (check_text_at _ T n its [] HF HS end_nothing (Nat.lt_succ_diag_r _)). cbn [text_result]. exact AF.
      + assert (HE : text_end (123 :: index ++ c :: r)).
        { destruct HD as [HN HDF]. destruct index as [|d index]; [congruence|]. cbn [app]. constructor. inversion HDF; lia. }
        rewrite (check_text_at _ T n its _ HF HS HE (Nat.lt_succ_diag_r _)). set (p0 := (n + length (text_of its))%nat).
        assert (HTR : text_result T p0 (123 :: index ++ c :: r) = (Ok true, mk_reader T (S p0))) by (destruct index; reflexivity). rewrite HTR.
        assert (HP0 : skipn (S p0) T = index ++ colon_text (c =? 58) ++ (if c =? 58 then r else 125 :: r)).
        { rewrite (skip_succ p0 T 123 (index ++ c :: r)) by apply (skip_part _ _ _ _ HS). f_equal. destruct HC as [-> | ->]; reflexivity. }
        rewrite (check_field_fwd T (S p0) use inc 255 (Some true) inc index (c =? 58) r HB ltac:(lia) HP0); [|right; auto|lia]. cbv iota.
        change (255 =? no_more_args) with true. cbv iota. exact AF.
    - assert (HIX : index = [] \/ digits_text index) by (destruct HP; tauto).
      rewrite field_text in HS. cbn [app] in HS. rewrite <- !app_assoc in HS.
      assert (LT := f_equal (@length Z) HS). rewrite skipn_length, app_length in LT. cbn [length] in LT. rewrite !app_length in LT.
      destruct (not_open index colon sp rest HIX HC) as (c & l & EO & NO).
      rewrite (check_text_at _ T n lits (123 :: c :: l) HF); [|rewrite HS, EO; reflexivity|now constructor|lia]. cbn [text_result].
      set (p0 := (n + length (text_of lits))%nat) in *.
      assert (HP0 : skipn (S p0) T = index ++ colon_text colon ++ (if colon then (if colon then sp ++ rest else rest) else 125 :: (if colon then sp ++ rest else rest))).
      { rewrite (skip_succ p0 T 123 (index ++ colon_text colon ++ sp ++ rest)) by apply (skip_part _ _ _ _ HS). f_equal. f_equal. destruct colon; [reflexivity|]. now rewrite HC by reflexivity. }
      assert (KB : (k < length us)%nat) by (apply nth_error_Some; congruence).
      assert (HI2 : (inc <= 254)%nat) by lia. assert (HK2 : Z.of_nat k <= 255) by lia.
      rewrite (check_field_fwd T (S p0) use inc (Z.of_nat k) use' inc' index colon _ HB HI2 HP0 HP HK2).
      replace (S p0 + length index + length (colon_text colon))%nat with p by (unfold p0 in *; lia). change no_more_args with 255.
      replace (Z.of_nat k =? 255) with false by lia. replace (Z.of_nat (length us) <=? Z.of_nat k) with false by lia. rewrite Nat2Z.id.
      destruct (set_ok b k HBS ltac:(lia)) as (b2 & -> & HB2 & L2 & W2). cbn [bind]. rewrite HN, HV.
      apply IH; try assumption; try lia.
      + destruct HP as [(_ & _ & X & _ & ->)|(_ & _ & _ & _ & ->)]; lia.
      + intros j HJ. destruct (HCov j HJ) as [X|[-> |X]]; [left; apply W2; now left|left; apply W2; now right|now right].
  Qed.

  Theorem user_loop_total T : Forall is_byte T -> (length us <= 128)%nat -> forall fuel n use inc b,
    bs_ok b -> bs_bits b = 128%nat -> (inc <= 128)%nat -> (n <= length T)%nat -> (length T - n < fuel)%nat ->
    exists v, user_loop fuel us (mk_reader T n) use (Z.of_nat inc) b = Ok v.
  Proof.
    intros HB HL. induction fuel as [|fuel IH]; intros n use inc b HBS H128 HI HN HFu; [lia|]. cbn [user_loop rtext].
    destruct (split_text (skipn n T)) as (lits & rest & HS & HF & HE). rewrite (check_text_at _ T n lits rest HF HS HE (Nat.lt_succ_diag_r _)).
    assert (AF : exists v, bitset_all_first b (length us) = Ok v) by (destruct (all_first_ok b (length us) HBS) as (q & EQ & _); eauto).
    destruct HE as [|c l N| |l N]; cbn [text_result]; try (exact AF); eauto.
    set (p0 := S (n + length (text_of lits))) in *.
    assert (HP0 : skipn p0 T = c :: l) by (unfold p0; apply (skip_succ _ _ 123); apply (skip_part _ _ _ _ HS)).
    assert (LP0 := skip_bound _ _ _ _ HP0).
    assert (SC := settled_check_field (mk_reader T p0) (mk_reader T p0) use (Z.of_nat inc) ltac:(unfold rwf; cbn; lia) eq_refl).
    destruct (check_field (mk_reader T p0) use (Z.of_nat inc)) as [[[[k use'] inc']|?| |] r'] eqn:EC; cbn in SC; try contradiction; eauto.
    destruct (check_field_inv T p0 use inc k use' inc' r' HB ltac:(lia) EC) as (index & colon & l' & i & HS' & HP & -> & HK' & ->).
    set (p := (p0 + length index + length (colon_text colon))%nat) in *. destruct SC as [WP _]. unfold rwf in WP. cbn [rpos rtext] in WP.
    change no_more_args with 255. destruct (k =? 255) eqn:EK; [exact AF|].
    destruct (Z.of_nat (length us) <=? k) eqn:EL; [eauto|]. destruct (set_ok b (Z.to_nat k) HBS ltac:(lia)) as (b' & EB & HB2 & L2 & W2). rewrite EB. cbn [bind].
    destruct (nth_error us (Z.to_nat k)) as [u|] eqn:EN; [|apply nth_error_None in EN; lia]. destruct (keeps_nth _ _ EN) as (ct & EN' & HKu).
    assert (HSd := k_sound u ct HKu T p HB WP).
    destruct (validate_trait u (mk_reader T p)) as [[[]|?| |] r'] eqn:EV; try contradiction; [|eauto].
    destruct HSd as (sp & rest & H1 & H2 & ->). destruct (reads_cons u ct sp HKu H2) as (d & sp' & ->).
    assert (Y := f_equal (@length Z) H1). rewrite skipn_length, app_length in Y. cbn [length] in *.
    apply IH; try assumption; try lia.
    destruct HP as [(_ & _ & X & _ & ->)|(_ & _ & _ & _ & ->)]; lia.
  Qed.

  (** ** Accepted strings are well-formed *)
  Lemma uacc_text T n use inc its ns e : uacc T n use inc its ns e -> skipn n T = text_of its ++ e.
  Proof.
    induction 1 as [n use inc its e HF HS HE|n use inc lits index colon sp rest its k ns e use' inc' u ct p HF HS HC HP HK' HN HNc HKu HFS Hp HSP HV HA IH]; [exact HS|].
    rewrite (skip_part _ _ _ _ HSP) in IH. subst rest. rewrite HS, text_of_app, <- app_assoc. f_equal. change (Field index colon sp :: its) with ([Field index colon sp] ++ its).
    now rewrite text_of_app, <- app_assoc.
  Qed.
  Lemma plain_specs lits r : Forall plain_item lits -> field_specs (lits ++ r) = field_specs r.
  Proof. intros HF. unfold field_specs. rewrite flat_map_app. replace (flat_map _ lits) with (@nil (list Z)); [reflexivity|]. induction HF as [|[]]; [reflexivity|assumption|assumption|contradiction]. Qed.
  Lemma uacc_items T n use inc its ns e : uacc T n use inc its ns e -> Forall item_ok its /\
    Forall2 (fun n spec => exists c, nth_error cs n = Some c /\ c_reads c spec) ns (field_specs its).
  Proof.
    induction 1 as [n use inc its e HF HS HE|n use inc lits index colon sp rest its k ns e use' inc' u ct p HF HS HC HP HK' HN HNc HKu HFS Hp HSP HV HA IH].
    - split; [now apply plain_ok|]. rewrite <- (app_nil_r its), plain_specs by exact HF. constructor.
    - split.
      + apply Forall_app. split; [now apply plain_ok|]. constructor; [|apply IH]. split; [destruct HP; tauto|exact HC].
      + rewrite plain_specs by exact HF. constructor; [eauto|apply IH].
  Qed.
  Lemma uacc_numbers T n use inc its ns e : uacc T n use inc its ns e ->
    (use <> Some true /\ Forall (fun i => i = []) (indices its) /\ ns = seq inc (length (indices its))) \/
    (use <> Some false /\ Forall2 (fun i n => digits_text i /\ denotes 10 i = Z.of_nat n) (indices its) ns).
  Proof.
    induction 1 as [n use inc its e HF HS HE|n use inc lits index colon sp rest its k ns e use' inc' u ct p HF HS HC HP HK' HN HNc HKu HFS Hp HSP HV HA IH].
    - rewrite <- (app_nil_r its), plain_indices by exact HF. cbn. destruct use as [[]|]; [right|left|left]; repeat split; try discriminate; constructor.
    - rewrite plain_indices by exact HF. cbn [indices flat_map app length]. fold (indices its).
      destruct HP as [(-> & HU & HKI & -> & ->)|(HD & HU & HKI & -> & ->)].
      + left. destruct IH as [(_ & H1 & H2)|(X & _)]; [|congruence]. split; [exact HU|]. split; [constructor; auto|]. cbn [seq]. f_equal; [lia|exact H2].
      + right. destruct IH as [(X & _)|(_ & H1)]; [congruence|]. split; [exact HU|]. constructor; [split; [exact HD|now symmetry]|exact H1].
  Qed.
  Lemma uacc_cut T n use inc its ns e : uacc T n use inc its ns e -> e = [] \/ (field_255 e /\ use <> Some false /\ Forall digits_text (indices its)).
  Proof.
    induction 1 as [n use inc its e HF HS HE|n use inc lits index colon sp rest its k ns e use' inc' u ct p HF HS HC HP HK' HN HNc HKu HFS Hp HSP HV HA IH].
    - destruct HE as [HE|[HU HE]]; [now left|right]. split; [exact HE|]. split; [exact HU|]. rewrite <- (app_nil_r its), plain_indices by exact HF. constructor.
    - destruct IH as [IH|(H1 & H2 & H3)]; [now left|right]. split; [exact H1|]. rewrite plain_indices by exact HF.
      destruct HP as [(-> & HU & HKI & -> & ->)|(HD & HU & HKI & -> & ->)]; [congruence|]. split; [exact HU|]. cbn. constructor; assumption.
  Qed.
  Lemma uacc_good T its ns e : uacc T 0 None 0 its ns e -> T = text_of its ++ e /\ user_items cs its ns.
  Proof.
    intros H. split; [exact (uacc_text _ _ _ _ _ _ _ H)|]. destruct (uacc_items _ _ _ _ _ _ _ H) as [H1 H2]. split; [exact H1|]. split; [|exact H2].
    destruct (uacc_numbers _ _ _ _ _ _ _ H) as [(_ & H3 & H4)|(_ & H3)]; [left|right]; auto.
  Qed.

  (** ** Well-formed strings are accepted *)
  Lemma uacc_plain T n use inc i its ns e : plain_item i -> skipn n T = item_text i ++ text_of its ++ e ->
    uacc T (n + length (item_text i)) use inc its ns e -> uacc T n use inc (i :: its) ns e.
  Proof.
    intros HI HS H. inversion H as [? ? ? ? ? HF HS' HE|? ? ? lits index colon sp rest its' k ns' ? use' inc' u ct p HF HS' HC HP HK' HN HNc HKu HFS Hp HSP HV HA]; subst.
    - constructor; [constructor; assumption| |exact HE]. rewrite HS. cbn [text_of flat_map]. now rewrite <- app_assoc.
    - change (i :: lits ++ Field index colon sp :: its') with ((i :: lits) ++ Field index colon sp :: its').
      assert (L : (length (text_of (i :: lits)) = length (item_text i) + length (text_of lits))%nat) by (cbn [text_of flat_map]; now rewrite app_length).
      eapply (uacc_field _ _ _ _ (i :: lits) index colon sp rest its' k ns' e use' inc' u ct); try eassumption.
      + constructor; assumption.
      + rewrite HS. rewrite (skip_part _ _ _ _ HS) in HS'. cbn [text_of flat_map]. rewrite <- app_assoc. f_equal. exact HS'.
      + rewrite L. lia.
  Qed.

  Lemma good_uacc T e : Forall is_byte T -> (length us <= 128)%nat ->
    forall its n use inc ns, skipn n T = text_of its ++ e -> Forall item_ok its ->
    Forall2 (fun n spec => exists c, nth_error cs n = Some c /\ c_reads c spec) ns (field_specs its) ->
    Forall small_numbers (field_specs its) ->
    ((use <> Some true /\ Forall (fun i => i = []) (indices its) /\ ns = seq inc (length (indices its))) \/
     (use <> Some false /\ Forall2 (fun i n => digits_text i /\ denotes 10 i = Z.of_nat n) (indices its) ns)) ->
    (e = [] \/ (field_255 e /\ use <> Some false /\ Forall digits_text (indices its))) ->
    uacc T n use inc its ns e.
  Proof.
    intros HB HL. induction its as [|i its IH]; intros n use inc ns HS HF H2 HSm HNum HE.
    - cbn in H2. inversion H2; subst. constructor; [constructor|exact HS|]. destruct HE as [HE|(H & HU & _)]; [now left|right]. split; assumption.
    - inversion HF as [|? ? Hi HF']; subst. destruct i as [c|c|index colon sp].
      + apply uacc_plain; [exact Hi|cbn [text_of flat_map] in HS; rewrite HS, <- app_assoc; reflexivity|]. apply IH; try assumption. cbn [text_of flat_map] in HS. rewrite <- app_assoc in HS. apply (skip_part _ _ _ _ HS).
      + apply uacc_plain; [exact Hi|cbn [text_of flat_map] in HS; rewrite HS, <- app_assoc; reflexivity|]. apply IH; try assumption. cbn [text_of flat_map] in HS. rewrite <- app_assoc in HS. apply (skip_part _ _ _ _ HS).
      + cbn [field_specs flat_map app] in H2. fold (field_specs its) in H2. inversion H2 as [|k ? ns' ? (ct & HT & HFS) H2']; subst. cbn [item_ok] in Hi. destruct Hi as [HI HC].
        destruct (keeps_nth_c _ _ HT) as (u & HTu & HKu).
        assert (HS' : skipn n T = text_of [Field index colon sp] ++ text_of its ++ e) by (rewrite HS; change (Field index colon sp :: its) with ([Field index colon sp] ++ its); now rewrite text_of_app, <- app_assoc).
        set (p := (n + 1 + length index + length (colon_text colon))%nat).
        assert (HSP : skipn p T = sp ++ text_of its ++ e).
        { rewrite field_text in HS'. unfold p. replace (n + 1 + length index + length (colon_text colon))%nat with (n + length (123%Z :: index ++ colon_text colon))%nat by (cbn [length]; rewrite app_length; lia).
          refine (skip_part _ _ (123 :: index ++ colon_text colon) _ _). rewrite HS'. cbn [app]. now rewrite <- !app_assoc. }
        assert (KB : (k < length us)%nat) by (apply nth_error_Some; congruence).
        cbn [field_specs flat_map app] in HSm. fold (field_specs its) in HSm. inversion HSm as [|? ? HSS HSm']; subst.
        assert (HV := k_complete u ct HKu T p sp _ HB HSP HFS HSS).
        assert (HFA := keeps_formats u ct T p sp _ HKu HB HSP HFS HV).
        assert (HPk : picks use inc index (Z.of_nat k) (next_use use index) (next_inc inc index)).
        { cbn [indices flat_map app length] in HNum. destruct HNum as [(HU & HN1 & HN2)|(HU & HN1)].
          - inversion HN1; subst. cbn [seq] in HN2. injection HN2 as HN2 _. left. subst. auto 6.
          - inversion HN1 as [|? ? ? ? [HD1 HD2] _]; subst. right. destruct HD1 as [HD0 HD1]. destruct index as [|d index]; [congruence|]. cbn [next_use next_inc]. split; [split; assumption|]. auto. }
        change (Field index colon sp :: its) with ([] ++ Field index colon sp :: its).
        apply (uacc_field T n use inc [] index colon sp (text_of its ++ e) its k ns' e (next_use use index) (next_inc inc index) u ct p); auto; try lia.
        * unfold p. cbn [text_of flat_map length]. lia.
        * apply IH; try assumption.
          -- apply (skip_part _ _ _ _ HSP).
          -- cbn [indices flat_map app length] in HNum. fold (indices its) in HNum. destruct HNum as [(HU & HN1 & HN2)|(HU & HN1)]; [left|right].
             ++ inversion HN1; subst. cbn [seq] in HN2. injection HN2 as _ HN2. cbn [next_use next_inc]. split; [discriminate|]. auto.
             ++ inversion HN1 as [|? ? ? ? [[HD0 _] _] HN3]; subst. split; [|exact HN3]. destruct index; [congruence|discriminate].
          -- destruct HE as [HE|(H1 & H3 & H4)]; [now left|right]. split; [exact H1|]. cbn in H4. inversion H4 as [|? ? [HD0 _] H6]; subst. split; [|exact H6]. destruct index; [congruence|discriminate].
  Qed.
  Lemma good_user s its ns e : Forall is_byte s -> (length us <= 128)%nat -> s = text_of its ++ e -> user_items cs its ns ->
    Forall small_numbers (field_specs its) -> (e = [] \/ (field_255 e /\ Forall digits_text (indices its))) -> uacc s 0 None 0 its ns e.
  Proof.
    intros HB HL HS (H1 & H2 & H3) HSm HE.
    apply good_uacc; auto; [|destruct HE as [HE|(HE & HD)]; [now left|right; split; [exact HE|split; [discriminate|exact HD]]]].
    destruct H2 as [H2|H2]; [left|right]; (split; [discriminate|exact H2]).
  Qed.

  (** ** Whole strings *)
  Theorem user_sound s : Forall is_byte s -> user_accepted s us ->
    exists its ns e, uacc s 0 None 0 its ns e /\ (length us <= 128)%nat /\ forall k, (k < length us)%nat -> In k ns.
  Proof.
    intros HB (v & HV & HS). unfold user_string in HV. destruct ((length us =? 0)%nat && check_if_plain_string s) eqn:EP.
    - apply andb_true_iff in EP. destruct EP as [E0 EP]. apply Nat.eqb_eq in E0. destruct (plain_string s EP) as (its & E & HF).
      exists its, [], []. split; [constructor; [exact HF|cbn [skipn]; now rewrite app_nil_r|now left]|]. rewrite E0. split; [lia|intros; lia].
    - destruct (user_loop (S (length s)) us (reader_of s) None 0 (bitset_new 128)) as [[]| | |] eqn:E; try discriminate; injection HV as <-; [|discriminate].
      destruct (new_ok 128) as [N1 N2]. destruct (user_loop_sound s HB _ 0%nat None 0%nat _ N1 new_bits (Nat.le_0_l _) E) as (its & ns & e & HA & HL & HC).
      exists its, ns, e. split; [exact HA|]. split; [exact HL|]. intros k HK'. destruct (HC k HK') as [X|X]; [rewrite N2 in X; discriminate|exact X].
  Qed.
  Theorem user_complete s its ns e : Forall is_byte s -> (length us <= 128)%nat -> uacc s 0 None 0 its ns e ->
    (forall k, (k < length us)%nat -> In k ns) -> user_accepted s us.
  Proof.
    intros HB HL HA HC. unfold user_accepted, user_string. destruct ((length us =? 0)%nat && check_if_plain_string s); [eexists; split; reflexivity|].
    destruct (new_ok 128) as [N1 N2]. assert (E : user_loop (S (length s)) us (reader_of s) None (Z.of_nat 0) (bitset_new 128) = Ok true).
    { apply (user_loop_complete s HB HL 0%nat None 0%nat its ns e HA); [exact N1|reflexivity|lia|lia|]. intros k HK'. right. auto. }
    change (Z.of_nat 0) with 0 in E. rewrite E. cbn [bind]. eexists; split; reflexivity.
  Qed.
  Theorem user_decided s : Forall is_byte s -> (length us <= 128)%nat ->
    exists v, user_string s us = Ok v /\ (vs_str v = Ok s \/ vs_str v = Err invalid_format).
  Proof.
    intros HB HL. unfold user_string. destruct ((length us =? 0)%nat && check_if_plain_string s); [eexists; split; [reflexivity|now left]|].
    destruct (new_ok 128) as [N1 N2]. destruct (user_loop_total s HB HL (S (length s)) 0%nat None 0%nat _ N1 new_bits) as ([] & E); [lia..| |];
      change (Z.of_nat 0) with 0 in E; unfold reader_of; rewrite E; cbn [bind]; eexists; (split; [reflexivity|]); auto.
  Qed.

  (** ** One reading *)
  Lemma user_closed its ns : user_items cs its ns -> Forall closed_item its.
  Proof.
    intros (H1 & _ & H3). revert ns H3. induction H1 as [|i its Hi HF IH]; intros ns H3; [constructor|]. destruct i as [c|c|index colon sp].
    - constructor; [split; auto|]. apply (IH ns H3).
    - constructor; [split; auto|]. apply (IH ns H3).
    - cbn [field_specs flat_map app] in H3. fold (field_specs its) in H3. inversion H3 as [|n sp' ns' l (t & HT & HS) HR]; subst. constructor; [|eapply IH; eauto].
      split; [exact Hi|]. destruct (keeps_nth_c _ _ HT) as (u & _ & HKu). now apply (k_closed u t).
  Qed.
  Lemma uacc_reading s its ns its' ns' e : (length us <= 128)%nat -> uacc s 0 None 0 its' ns' e -> s = text_of its -> user_items cs its ns -> its' = its /\ ns' = ns /\ e = [].
  Proof.
    intros HL HA HS HG. destruct (uacc_good _ _ _ _ HA) as (HT & HG'). assert (E : text_of its = text_of its' ++ e) by congruence.
    destruct (items_prefix its' (user_closed _ _ HG') its e (user_closed _ _ HG) E) as (its2 & -> & H2).
    assert (e = []) as ->.
    { destruct (uacc_cut _ _ _ _ _ _ _ HA) as [HE|((index & c & rest & HE & HD & HV & HC) & _ & _)]; [exact HE|exfalso].
      assert (C := user_closed _ _ HG). destruct HG as (HO & HN & HF). assert (HO2 : Forall item_ok its2) by (apply Forall_app in HO; tauto).
      rewrite HE in H2. destruct its2 as [|i its2]; [discriminate|]. assert (Hi := Forall_inv HO2).
      destruct i as [c0|c0|index' colon sp]; cbn [text_of flat_map item_text app] in H2; cbn [item_ok] in Hi.
      - injection H2 as -> _. apply Hi. now left.
      - injection H2 as -> H2. destruct HD as [HD1 HD2]. destruct index as [|d index]; [congruence|]. injection H2 as <- _. inversion HD2. lia.
      - injection H2 as H2. rewrite <- !app_assoc in H2. destruct Hi as [HI HCo].
        assert (NS : exists y, sp = y ++ [125] /\ ~ In 125 y) by (apply Forall_app in C; destruct C as [_ C]; apply Forall_inv in C; apply C).
        destruct NS as (y & -> & _).
        assert (ND1 : forall d k, (if colon then [58] else []) ++ (y ++ [125]) ++ text_of its2 = d :: k -> ~ digit_char d).
        { intros d k EQ. unfold digit_char. destruct colon; [injection EQ as <- _; lia|]. rewrite (HCo eq_refl) in EQ. injection EQ as <- _. lia. }
        assert (ND2 : forall d k, c :: rest = d :: k -> ~ digit_char d) by (intros d k [= <- _]; unfold digit_char; lia).
        destruct (digits_same _ _ _ _ (index_digits _ HI) (proj2 HD) ND1 ND2 H2) as [-> _].
        destruct HN as [(HN & _)|HN].
        + rewrite Forall_forall in HN. destruct HD as [HD _]. apply HD, HN. unfold indices. rewrite flat_map_app. apply in_or_app. right. now left.
        + assert (HX : exists n, In n ns /\ Z.of_nat n = 255).
          { unfold indices in HN. rewrite flat_map_app in HN. cbn [flat_map app] in HN. apply Forall2_app_inv_l in HN. destruct HN as (n1 & n2 & _ & HN & ->). inversion HN as [|? n ? ? (_ & HV')]; subst.
            exists n. split; [apply in_or_app; right; now left|lia]. }
          destruct HX as (n & HIn & HNn). assert (HY : exists t, nth_error cs n = Some t).
          { clear -HF HIn. induction HF as [|n' sp ns l (t & HT & _) HF IH]; [contradiction|]. destruct HIn as [-> |HIn]; [eauto|auto]. }
          destruct HY as (t & HY). assert (X : (n < length cs)%nat) by (apply nth_error_Some; congruence). rewrite <- keeps_len in X. lia. }
    assert (its2 = []) as ->. { destruct its2 as [|[] its2]; [reflexivity|discriminate..]. }
    rewrite app_nil_r in *. split; [reflexivity|]. split; [|reflexivity]. destruct HG as (_ & HN & _), HG' as (_ & HN' & _). eapply numbering_unique; eauto.
  Qed.

  (** ** Formatting *)
  Lemma user_shows_plain lits its ns out o : Forall plain_item lits -> user_shows cs its ns out o -> user_shows cs (lits ++ its) ns (flat_map item_char lits ++ out) o.
  Proof. intros HF H. induction HF as [|i lits Hi HF IH]; [exact H|]. destruct i; [| |contradiction]; cbn; constructor; exact IH. Qed.

  Theorem user_loop_writes T : Forall is_byte T -> forall n use inc its ns e, uacc T n use inc its ns e ->
    (inc <= 128)%nat -> (n <= length T)%nat ->
    exists ops o, (o = Ok tt \/ exists e, o = Err e) /\
      (forall K (vt : vtable K) R cap amax room, lawful vt R cap amax room -> forall fuel, (length T - n < fuel)%nat ->
        exists r', pemits R cap amax room (fun b => parse_loop vt fuel (map (user_erase vt) us) (Z.of_nat inc) (mk_reader T n, b)) ops o r') /\
      user_shows cs its ns (ops_data ops) o.
  Proof.
    intros HB n use inc its ns e HA.
    induction HA as [n use inc its e HF HS HE|n use inc lits index colon sp rest its k ns e use' inc' u ct p HF HS HC HP HK' HN HNc HKu HFS Hp HSP HV HA IH]; intros HI HLn.
    - exists (text_ops [] its), (Ok tt). split; [now left|]. split.
      2: { rewrite text_ops_data by exact HF. cbn [app]. rewrite <- (app_nil_r (flat_map item_char its)), <- (app_nil_r its) at 1. apply user_shows_plain; [exact HF|constructor]. }
      intros K vt R cap amax room HL fuel HFu. destruct fuel as [|fuel]; [lia|]. cbn [parse_loop fst rtext rpos].
      assert (L1 : (length its < S (length T))%nat).
      { assert (X := text_of_length its HF). assert (Y := f_equal (@length Z) HS). rewrite skipn_length, app_length in Y. lia. }
      assert (HR : e = [] \/ exists c l, e = 123 :: c :: l /\ c <> 123).
      { destruct HE as [-> |(_ & index & c & r & -> & (HD1 & HD2) & _)]; [now left|right]. destruct index as [|d index]; [congruence|]. cbn [app]. do 2 eexists. split; [reflexivity|]. inversion HD2; lia. }
      assert (X := parse_text_pemits vt R cap amax room HL its (S (length T)) T n n [] e HF HS HR (Nat.le_refl _) HLn ltac:(now rewrite Nat.sub_diag) L1).
      destruct HE as [-> |(HU & index & c & r & -> & HD & H255 & HC)].
      + eexists. rewrite <- (app_nil_r (text_ops [] its)). eapply pemits_bind; [exact X|]. cbn beta. cbn [negb]. apply pemits_ret.
      + eexists. rewrite <- (app_nil_r (text_ops [] its)). eapply pemits_bind; [exact X|]. cbn beta. cbn [negb fst snd]. set (p0 := (n + length (text_of its))%nat).
        assert (HP0 : skipn (p0 + 1) T = index ++ colon_text (c =? 58) ++ (if c =? 58 then r else 125 :: r)).
        { rewrite Nat.add_1_r, (skip_succ p0 T 123 (index ++ c :: r)) by apply (skip_part _ _ _ _ HS). f_equal. destruct HC as [-> | ->]; reflexivity. }
        assert (HI2 : (inc <= 254)%nat) by lia. assert (H255' : 255 <= 255) by lia. assert (HPk : picks use inc index 255 (Some true) inc) by (right; auto 6).
        eapply pemits_ext; [|apply pemits_ret]. intros b. rewrite (parse_field_fwd T (p0 + 1) use inc 255 (Some true) inc index (c =? 58) r HB HI2 HP0 HPk H255').
        cbn [on_reader sbind]. change (255 =? no_more_args) with true. cbv iota. reflexivity.
    - assert (HIX : index = [] \/ digits_text index) by (destruct HP; tauto).
      subst p. set (p := (n + length (text_of lits) + 1 + length index + length (colon_text colon))%nat) in *.
      destruct HKu as ((c1 & l1 & ESP) & m & out1 & o1 & HPW & HDo & HO1 & (ops1 & HOD & HW1)).
      assert (LP2 : (p < p + length sp <= length T)%nat).
      { assert (Y := f_equal (@length Z) HSP). rewrite skipn_length, app_length in Y. subst sp. cbn [length] in *. lia. }
      assert (HI' : (inc' <= 128)%nat) by (destruct HP as [(_ & _ & Y & _ & ->)|(_ & _ & _ & _ & ->)]; lia).
      set (q := (p + length sp)%nat) in *.
      assert (STEP : forall ops o,
        (forall K (vt : vtable K) R cap amax room, lawful vt R cap amax room -> forall fuel, (length T - q < fuel)%nat ->
          exists r', pemits R cap amax room (fun b => sbind (on_buffer (mk_reader T q) (u_format u K vt m b)) (fun _ st => parse_loop vt fuel (map (user_erase vt) us) (Z.of_nat inc') st)) ops o r') ->
        forall K (vt : vtable K) R cap amax room, lawful vt R cap amax room -> forall fuel, (length T - n < fuel)%nat ->
          exists r', pemits R cap amax room (fun b => parse_loop vt fuel (map (user_erase vt) us) (Z.of_nat inc) (mk_reader T n, b)) (text_ops [] lits ++ ops) o r').
      { rewrite field_text in HS. cbn [app] in HS. rewrite <- !app_assoc in HS.
        destruct (not_open index colon sp rest HIX HC) as (c & l & EO & NO).
        intros ops o HW K vt R cap amax room HL fuel HFu. destruct fuel as [|fuel]; [lia|]. cbn [parse_loop fst rtext rpos].
        assert (L1 : (length lits < S (length T))%nat).
        { assert (X := text_of_length lits HF). assert (Y := f_equal (@length Z) HS). rewrite skipn_length, app_length in Y. lia. }
        assert (HSX : skipn n T = text_of lits ++ 123 :: c :: l) by (rewrite HS, EO; reflexivity).
        assert (X := parse_text_pemits vt R cap amax room HL lits (S (length T)) T n n [] (123 :: c :: l) HF HSX ltac:(right; eauto) (Nat.le_refl _) HLn ltac:(now rewrite Nat.sub_diag) L1).
        assert (LN : (n < p)%nat) by (unfold p; lia).
        destruct (HW K vt R cap amax room HL fuel ltac:(lia)) as (r' & HW').
        exists r'. eapply pemits_bind; [exact X|]. cbn beta. cbn [negb fst snd].
        assert (HP0 : skipn (n + length (text_of lits) + 1) T = index ++ colon_text colon ++ (if colon then (if colon then sp ++ rest else rest) else 125 :: (if colon then sp ++ rest else rest))).
        { rewrite Nat.add_1_r, (skip_succ _ T 123 (index ++ colon_text colon ++ sp ++ rest)) by apply (skip_part _ _ _ _ HS). f_equal. f_equal. destruct colon; [reflexivity|]. now rewrite HC by reflexivity. }
        assert (HI2 : (inc <= 254)%nat) by lia. assert (HK2 : Z.of_nat k <= 255) by lia.
        eapply pemits_ext; [|exact HW']. intros b. rewrite (parse_field_fwd T _ use inc (Z.of_nat k) use' inc' index colon _ HB HI2 HP0 HP HK2). cbn [on_reader sbind]. change no_more_args with 255. replace (Z.of_nat k =? 255) with false by lia.
        rewrite Nat2Z.id, nth_error_map, HN. cbn [option_map fst snd]. fold p.
        unfold user_erase at 1. rewrite HPW. cbn [on_reader sbind fst snd]. reflexivity. }
      destruct HO1 as [-> |(e1 & ->)].
      + destruct (IH HI' (proj2 LP2)) as (ops2 & o & HO2 & HW2 & HF2). exists (text_ops [] lits ++ ops1 ++ ops2), o. split; [exact HO2|]. split.
        * apply STEP. intros K vt R cap amax room HL fuel HFu. destruct (HW2 K vt R cap amax room HL fuel HFu) as (r' & HW2'). exists r'.
          eapply pemits_bind; [|exact HW2']. apply pemits_buffer, (HW1 K vt R cap amax room HL).
        * rewrite !ops_data_app, text_ops_data by exact HF. cbn [app]. apply user_shows_plain; [exact HF|]. rewrite HOD. now apply (us_field cs index colon sp its k ns ct).
      + exists (text_ops [] lits ++ ops1), (Err e1). split; [right; eauto|]. split.
        * apply STEP. intros K vt R cap amax room HL fuel HFu. eexists. apply pemits_bind_err, pemits_buffer, (HW1 K vt R cap amax room HL).
        * rewrite !ops_data_app, text_ops_data by exact HF. cbn [app]. apply user_shows_plain; [exact HF|]. rewrite HOD. now apply (us_fails cs index colon sp its k ns ct).
  Qed.

  Theorem user_writes s v its ns e : Forall is_byte s -> user_string s us = Ok v -> vs_str v = Ok s -> uacc s 0 None 0 its ns e ->
    exists out o, (o = Ok tt \/ exists e, o = Err e) /\ user_shows cs its ns out o /\ acts (fun K vt b => user_format_to vt b v us) out o.
  Proof.
    intros HB HV HVS HA. unfold user_string in HV. destruct ((length us =? 0)%nat && check_if_plain_string s) eqn:EP.
    - injection HV as <-. apply andb_true_iff in EP. destruct EP as [E0 EP]. apply Nat.eqb_eq in E0.
      assert (NB : forall c, In c s -> c <> 123 /\ c <> 125).
      { intros c HI. unfold check_if_plain_string in EP. apply negb_true_iff in EP. rewrite <- not_true_iff_false, existsb_exists in EP. split; intros ->; apply EP; (eexists; split; [exact HI|reflexivity]). }
      inversion HA as [? ? ? ? ? HF HS HE|? ? ? lits index colon sp rest its' k ns' ? use' inc' u ct p HF HS HC HP HK' HN]; subst.
      2: { assert (X : (k < length us)%nat) by (apply nth_error_Some; congruence). lia. }
      cbn [skipn] in HS. assert (e = []) as ->.
      { destruct HE as [HE|(_ & index & c & r & -> & _)]; [exact HE|]. destruct (NB 123); [|congruence]. rewrite HS. apply in_or_app. right. now left. }
      rewrite app_nil_r in HS. assert (HTx : flat_map item_char its = s).
      { subst s. clear HA HE EP HVS HB. induction HF as [|i its Hi HF IH]; [reflexivity|]. destruct i as [c|c|]; [| |contradiction].
        - cbn. f_equal. apply IH. intros c' HI. apply NB. cbn. now right.
        - exfalso. cbn in Hi. destruct (NB c) as [N1 N2]; [now left|]. destruct Hi; contradiction. }
      exists s, (Ok tt). split; [now left|]. split.
      + rewrite <- HTx, <- (app_nil_r (flat_map item_char its)), <- (app_nil_r its) at 1. apply user_shows_plain; [exact HF|constructor].
      + exists [Chunk s]. split; [cbn; apply app_nil_r|]. intros K vt R cap amax room HL. apply (write_str_emits vt R cap amax room (lawful_chunky _ _ _ _ _ HL)).
    - destruct (user_loop (S (length s)) us (reader_of s) None 0 (bitset_new 128)) as [[]| | |]; try discriminate; injection HV as <-; [|discriminate].
      destruct (user_loop_writes s HB 0 None 0 its ns e HA (Nat.le_0_l _) (Nat.le_0_l _)) as (ops & o & HO & HW & HSh).
      exists (ops_data ops), o. split; [exact HO|]. split; [exact HSh|]. exists ops. split; [reflexivity|].
      intros K vt R cap amax room HL w b HR HOb. destruct (HW K vt R cap amax room HL (S (length s)) ltac:(lia)) as (r' & HPm).
      destruct (HPm w b HR HOb) as (r & b' & HR' & E & _). exists b'. split; [exact HR'|]. unfold user_format_to, vformat_erased, parse_format. cbn [vs_str vs_plain].
      change (mk_reader s 0) with (reader_of s) in E. change (Z.of_nat 0) with 0 in E. rewrite E. reflexivity.
  Qed.
End Strings.
