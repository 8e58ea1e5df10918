(** Proofs about Scan.v: the strings that are accepted. *)
From Verif Require Import Base Conversion Reader Buffer Bitset Specs Format Scan.
From Verif Require Import Lib SpecNum SpecReader SpecSpecs SpecString SpecScan.
From Verif Require Import ConversionProofs ReaderProofs SpecsProofs BitsetProofs StringProofs StringLoop ScanSpecs.

(** From position [n] on the string consists of [its] and [e]. *)
Inductive sacc (tys : list sty) (T : list Z) : nat -> option bool -> nat -> list item -> list nat -> list Z -> Prop :=
| sacc_end n use inc its e : Forall plain_item its -> skipn n T = text_of its ++ e -> e = [] \/ cut_text use e -> sacc tys T n use inc its [] e
| sacc_field n use inc lits index colon sp rest its k ns e use' inc' t s p :
    Forall plain_item lits -> skipn n T = text_of lits ++ text_of [Field index colon sp] ++ rest -> (colon = false -> sp = [125]) ->
    picks use inc index (Z.of_nat k) use' inc' -> (k < 128)%nat -> nth_error tys k = Some t -> scan_spec_text sp s -> scan_allowed t s ->
    p = (n + length (text_of lits) + 1 + length index + length (colon_text colon))%nat -> skipn p T = sp ++ rest ->
    scan_parses T p sp s -> validate_sty t (mk_reader T p) = (Ok tt, mk_reader T (p + length sp)) ->
    sacc tys T (p + length sp) use' inc' its ns e ->
    sacc tys T n use inc (lits ++ Field index colon sp :: its) (k :: ns) e.

Theorem scan_loop_sound tys T : Forall is_byte T -> forall fuel n use inc b,
  bs_ok b -> bs_bits b = 128%nat -> (inc <= 128)%nat ->
  scan_validate_loop fuel tys (mk_reader T n) use (Z.of_nat inc) b = Ok true ->
  exists its ns e, sacc tys T n use inc its ns e /\ (length tys <= 128)%nat /\ forall k, (k < length tys)%nat -> bit (bs_words b) k = true \/ In k ns.
Proof.
  intros HB. induction fuel as [|fuel IH]; intros n use inc b HBS H128 HI H; [discriminate|]. cbn [scan_validate_loop rtext] in H.
  destruct (split_text (skipn n T)) as (lits & rest & HS & HF & HE). rewrite (check_text_at _ T n lits rest HF HS HE (Nat.lt_succ_diag_r _)) in H.
  assert (AF : bitset_all_first b (length tys) = Ok true -> (length tys <= 128)%nat /\ forall k, (k < length tys)%nat -> bit (bs_words b) k = true).
  { intros X. destruct (all_first_ok b (length tys) HBS) as (q & EQ & HQ). rewrite EQ in X. injection X as ->. destruct HQ as [HQ _]. rewrite H128 in HQ. exact (HQ eq_refl). }
  destruct HE as [|c l N| |l N]; cbn [text_result] in H; try discriminate.
  { destruct (AF H) as [A1 A2]. exists lits, [], []. split; [constructor; auto|]. split; [exact A1|]. intros k HK. left. auto. }
  set (p0 := S (n + length (text_of lits))) in *.
  assert (HP0 : skipn p0 T = c :: l) by (unfold p0; apply (skip_succ _ _ 123); apply (skip_part _ _ _ _ HS)).
  destruct (check_field (mk_reader T p0) use (Z.of_nat inc)) as [[[[k use'] inc']|?| |] r'] eqn:EC; try discriminate.
  destruct (check_field_inv T p0 use inc k use' inc' r' HB ltac:(lia) EC) as (index & colon & l' & i & HS' & HP & -> & HK & ->).
  assert (HIX : index = [] \/ digits_text index) by (destruct HP; tauto).
  set (p := (p0 + length index + length (colon_text colon))%nat) in *.
  assert (HSP : skipn p T = if colon then l' else 125 :: l').
  { unfold p. rewrite <- Nat.add_assoc, <- app_length. rewrite app_assoc in HS'. apply (skip_part _ _ _ _ HS'). }
  change no_more_args with 255 in H. destruct (k =? 255) eqn:EK.
  - assert (k = 255) as -> by lia. destruct (AF H) as [A1 A2]. exists lits, [], (123 :: c :: l). split; [|split; [exact A1|intros k HK'; left; auto]].
    constructor; [exact HF|exact HS|]. right. destruct HP as [(-> & _ & X & _)|(HD & HU & X & _)]; [lia|]. split; [exact HU|].
    exists index, (if colon then 58 else 125), l'. split; [|auto 6]. f_equal. rewrite <- HP0, HS'. destruct colon; reflexivity. destruct colon; auto.
  - destruct (Z.of_nat (length tys) <=? k) eqn:EL; [discriminate|]. destruct (bitset_set b (Z.to_nat k)) as [b'| | |] eqn:EB; try discriminate. cbn [bind] in H.
    assert (HK2 : (Z.to_nat k < 128)%nat).
    { unfold bitset_set in EB. rewrite H128 in EB. destruct (128 <=? Z.to_nat k)%nat eqn:E; [discriminate|lia]. }
    destruct (nth_error tys (Z.to_nat k)) as [t|] eqn:EN; [|discriminate].
    destruct (validate_sty t (mk_reader T p)) as [[[]|?| |] r'] eqn:EV; try discriminate.
    destruct (validate_sty_sound t T p r' HB EV) as (sp & rest & s & H1 & H2 & HA2 & -> & H4).
    destruct (set_ok b (Z.to_nat k) HBS ltac:(lia)) as (b2 & EB2 & HB2 & L2 & W2). rewrite EB in EB2. injection EB2 as <-.
    assert (HI' : (i <= 128)%nat) by (destruct HP as [(_ & _ & X & _ & ->)|(_ & _ & _ & _ & ->)]; lia).
    destruct (IH (p + length sp)%nat use' i b' HB2 ltac:(lia) HI' H) as (its & ns & e & HA & HL & HCov).
    exists (lits ++ Field index colon sp :: its), (Z.to_nat k :: ns), e. split; [|split; [exact HL|]].
    + assert (HCS : colon = false -> sp = [125]).
      { intros ->. rewrite H1 in HSP. destruct (scan_spec_end sp s H2) as (x & -> & HX). destruct x as [|x0 x]; [reflexivity|]. cbn in HSP. injection HSP as -> _. exfalso. apply HX. now left. }
      apply (sacc_field tys T n use inc lits index colon sp rest its (Z.to_nat k) ns e use' i t s p); auto; try (rewrite ?Z2Nat.id by lia; assumption).
      * rewrite field_text, HS. f_equal. cbn [app]. f_equal. rewrite <- !app_assoc, <- HP0, HS'. f_equal. f_equal. rewrite <- H1, HSP. reflexivity.
      * unfold p, p0. lia.
    + intros j HJ. destruct (HCov j HJ) as [X|X]; [|right; now right]. apply W2 in X. destruct X as [X| ->]; [now left|right; now left].
Qed.

Theorem scan_loop_complete tys T : Forall is_byte T -> (length tys <= 128)%nat -> forall n use inc its ns e, sacc tys T n use inc its ns e -> forall fuel b,
  bs_ok b -> bs_bits b = 128%nat -> (inc <= 128)%nat -> (length T - n < fuel)%nat ->
  (forall k, (k < length tys)%nat -> bit (bs_words b) k = true \/ In k ns) ->
  scan_validate_loop fuel tys (mk_reader T n) use (Z.of_nat inc) b = Ok true.
Proof.
  intros HB HL n use inc its ns e HA. induction HA as [n use inc its e HF HS HE|n use inc lits index colon sp rest its k ns e use' inc' t s p HF HS HC HP HK HN HFS HAl Hp HSP HPar HV HA IH];
    intros fuel b HBS H128 HI HFu HCov; (destruct fuel as [|fuel]; [lia|]); cbn [scan_validate_loop rtext].
  - assert (AF : bitset_all_first b (length tys) = Ok true).
    { destruct (all_first_ok b (length tys) HBS) as (q & -> & _ & HQ). f_equal. apply HQ. rewrite H128. split; [exact HL|]. intros i Hi. destruct (HCov i Hi) as [X|[]]. exact X. }
    destruct HE as [-> |(HU & index & c & r & -> & HD & H255 & HC)].
    + rewrite (check_text_at _ T n its [] HF HS end_nothing (Nat.lt_succ_diag_r _)). cbn [text_result]. exact AF.
    + assert (HE : text_end (123 :: index ++ c :: r)).
      { destruct HD as [HN HDF]. destruct index as [|d index]; [congruence|]. cbn [app]. constructor. inversion HDF; lia. }
      rewrite (check_text_at _ T n its _ HF HS HE (Nat.lt_succ_diag_r _)). set (p0 := (n + length (text_of its))%nat).
      assert (HTR : text_result T p0 (123 :: index ++ c :: r) = (Ok true, mk_reader T (S p0))) by (destruct index; reflexivity). rewrite HTR.
      assert (HP0 : skipn (S p0) T = index ++ colon_text (c =? 58) ++ (if c =? 58 then r else 125 :: r)).
      { rewrite (skip_succ p0 T 123 (index ++ c :: r)) by apply (skip_part _ _ _ _ HS). f_equal. destruct HC as [-> | ->]; reflexivity. }
      rewrite (check_field_fwd T (S p0) use inc 255 (Some true) inc index (c =? 58) r HB ltac:(lia) HP0); [|right; auto|lia]. cbv iota.
      change (255 =? no_more_args) with true. cbv iota. exact AF.
  - assert (HIX : index = [] \/ digits_text index) by (destruct HP; tauto).
    rewrite field_text in HS. cbn [app] in HS. rewrite <- !app_assoc in HS.
    assert (LT := f_equal (@length Z) HS). rewrite skipn_length, app_length in LT. cbn [length] in LT. rewrite !app_length in LT.
    destruct (not_open index colon sp rest HIX HC) as (c & l & EO & NO).
    rewrite (check_text_at _ T n lits (123 :: c :: l) HF); [|rewrite HS, EO; reflexivity|now constructor|lia]. cbn [text_result].
    set (p0 := (n + length (text_of lits))%nat) in *.
    assert (HP0 : skipn (S p0) T = index ++ colon_text colon ++ (if colon then (if colon then sp ++ rest else rest) else 125 :: (if colon then sp ++ rest else rest))).
    { rewrite (skip_succ p0 T 123 (index ++ colon_text colon ++ sp ++ rest)) by apply (skip_part _ _ _ _ HS). f_equal. f_equal. destruct colon; [reflexivity|]. now rewrite HC by reflexivity. }
    assert (KB : (k < length tys)%nat) by (apply nth_error_Some; congruence).
    assert (HI2 : (inc <= 254)%nat) by lia. assert (HK2 : Z.of_nat k <= 255) by lia.
    rewrite (check_field_fwd T (S p0) use inc (Z.of_nat k) use' inc' index colon _ HB HI2 HP0 HP HK2).
    replace (S p0 + length index + length (colon_text colon))%nat with p by (unfold p0 in *; lia). change no_more_args with 255.
    replace (Z.of_nat k =? 255) with false by lia. replace (Z.of_nat (length tys) <=? Z.of_nat k) with false by lia. rewrite Nat2Z.id.
    destruct (set_ok b k HBS ltac:(lia)) as (b2 & -> & HB2 & L2 & W2). cbn [bind]. rewrite HN, HV.
    apply IH; try assumption; try lia.
    + destruct HP as [(_ & _ & X & _ & ->)|(_ & _ & _ & _ & ->)]; lia.
    + intros j HJ. destruct (HCov j HJ) as [X|[-> |X]]; [left; apply W2; now left|left; apply W2; now right|now right].
Qed.

(** ** Accepted strings are well-formed *)
Lemma sacc_text tys T n use inc its ns e : sacc tys T n use inc its ns e -> skipn n T = text_of its ++ e.
Proof.
  induction 1 as [n use inc its e HF HS HE|n use inc lits index colon sp rest its k ns e use' inc' t s p HF HS HC HP HK HN HFS HAl Hp HSP HPar HV HA IH]; [exact HS|].
  rewrite (skip_part _ _ _ _ HSP) in IH. subst rest. rewrite HS, text_of_app, <- app_assoc. f_equal. change (Field index colon sp :: its) with ([Field index colon sp] ++ its).
  now rewrite text_of_app, <- app_assoc.
Qed.
Lemma sacc_items tys T n use inc its ns e : sacc tys T n use inc its ns e -> Forall item_ok its /\
  Forall2 (fun n spec => exists t, nth_error tys n = Some t /\ scan_field_spec t spec) ns (field_specs its).
Proof.
  assert (PF : forall lits r, Forall plain_item lits -> field_specs (lits ++ r) = field_specs r).
  { intros lits r HF. unfold field_specs. rewrite flat_map_app. replace (flat_map _ lits) with (@nil (list Z)); [reflexivity|]. induction HF as [|[]]; [reflexivity|assumption|assumption|contradiction]. }
  induction 1 as [n use inc its e HF HS HE|n use inc lits index colon sp rest its k ns e use' inc' t s p HF HS HC HP HK HN HFS HAl Hp HSP HPar HV HA IH].
  - split; [now apply plain_ok|]. rewrite <- (app_nil_r its), PF by exact HF. constructor.
  - split.
    + apply Forall_app. split; [now apply plain_ok|]. constructor; [|apply IH]. split; [destruct HP; tauto|exact HC].
    + rewrite PF by exact HF. constructor; [|apply IH]. exists t. split; [exact HN|]. exists s. auto.
Qed.
Lemma sacc_numbers tys T n use inc its ns e : sacc tys T n use inc its ns e ->
  (use <> Some true /\ Forall (fun i => i = []) (indices its) /\ ns = seq inc (length (indices its))) \/
  (use <> Some false /\ Forall2 (fun i n => digits_text i /\ denotes 10 i = Z.of_nat n) (indices its) ns).
Proof.
  induction 1 as [n use inc its e HF HS HE|n use inc lits index colon sp rest its k ns e use' inc' t s p HF HS HC HP HK HN HFS HAl Hp HSP HPar HV HA IH].
  - rewrite <- (app_nil_r its), plain_indices by exact HF. cbn. destruct use as [[]|]; [right|left|left]; repeat split; try discriminate; constructor.
  - rewrite plain_indices by exact HF. cbn [indices flat_map app length]. fold (indices its).
    destruct HP as [(-> & HU & HKI & -> & ->)|(HD & HU & HKI & -> & ->)].
    + left. destruct IH as [(_ & H1 & H2)|(X & _)]; [|congruence]. split; [exact HU|]. split; [constructor; auto|]. cbn [seq]. f_equal; [lia|exact H2].
    + right. destruct IH as [(X & _)|(_ & H1)]; [congruence|]. split; [exact HU|]. constructor; [split; [exact HD|now symmetry]|exact H1].
Qed.
Lemma sacc_cut tys T n use inc its ns e : sacc tys T n use inc its ns e -> e = [] \/ (field_255 e /\ use <> Some false /\ Forall digits_text (indices its)).
Proof.
  induction 1 as [n use inc its e HF HS HE|n use inc lits index colon sp rest its k ns e use' inc' t s p HF HS HC HP HK HN HFS HAl Hp HSP HPar HV HA IH].
  - destruct HE as [HE|[HU HE]]; [now left|right]. split; [exact HE|]. split; [exact HU|]. rewrite <- (app_nil_r its), plain_indices by exact HF. constructor.
  - destruct IH as [IH|(H1 & H2 & H3)]; [now left|right]. split; [exact H1|]. rewrite plain_indices by exact HF.
    destruct HP as [(-> & HU & HKI & -> & ->)|(HD & HU & HKI & -> & ->)]; [congruence|]. split; [exact HU|]. cbn. constructor; assumption.
Qed.
Lemma sacc_good tys T its ns e : sacc tys T 0 None 0 its ns e -> T = text_of its ++ e /\ scan_items tys its ns.
Proof.
  intros H. split; [exact (sacc_text _ _ _ _ _ _ _ _ H)|]. destruct (sacc_items _ _ _ _ _ _ _ _ H) as [H1 H2]. split; [exact H1|]. split; [|exact H2].
  destruct (sacc_numbers _ _ _ _ _ _ _ _ H) as [(_ & H3 & H4)|(_ & H3)]; [left|right]; auto.
Qed.

(** ** Well-formed strings are accepted *)
Lemma sacc_plain tys T n use inc i its ns e : plain_item i -> skipn n T = item_text i ++ text_of its ++ e ->
  sacc tys T (n + length (item_text i)) use inc its ns e -> sacc tys T n use inc (i :: its) ns e.
Proof.
  intros HI HS H. inversion H as [? ? ? ? ? HF HS' HE|? ? ? lits index colon sp rest its' k ns' ? use' inc' t s p HF HS' HC HP HK HN HFS HAl Hp HSP HPar HV HA]; subst.
  - constructor; [constructor; assumption| |exact HE]. rewrite HS. cbn [text_of flat_map]. now rewrite <- app_assoc.
  - change (i :: lits ++ Field index colon sp :: its') with ((i :: lits) ++ Field index colon sp :: its').
    assert (L : (length (text_of (i :: lits)) = length (item_text i) + length (text_of lits))%nat) by (cbn [text_of flat_map]; now rewrite app_length).
    eapply (sacc_field _ _ _ _ _ (i :: lits) index colon sp rest its' k ns' e use' inc' t s); try eassumption.
    + constructor; assumption.
    + rewrite HS. rewrite (skip_part _ _ _ _ HS) in HS'. cbn [text_of flat_map]. rewrite <- app_assoc. f_equal. exact HS'.
    + rewrite L. lia.
Qed.

Lemma good_sacc tys T e : Forall is_byte T -> (length tys <= 128)%nat ->
  forall its n use inc ns, skipn n T = text_of its ++ e -> Forall item_ok its ->
  Forall2 (fun n spec => exists t, nth_error tys n = Some t /\ scan_field_spec t spec) ns (field_specs its) ->
  Forall small_numbers (field_specs its) ->
  ((use <> Some true /\ Forall (fun i => i = []) (indices its) /\ ns = seq inc (length (indices its))) \/
   (use <> Some false /\ Forall2 (fun i n => digits_text i /\ denotes 10 i = Z.of_nat n) (indices its) ns)) ->
  (e = [] \/ (field_255 e /\ use <> Some false /\ Forall digits_text (indices its))) ->
  sacc tys T n use inc its ns e.
Proof.
  intros HB HL. induction its as [|i its IH]; intros n use inc ns HS HF H2 HSm HNum HE.
  - cbn in H2. inversion H2; subst. constructor; [constructor|exact HS|]. destruct HE as [HE|(H & HU & _)]; [now left|right]. split; assumption.
  - inversion HF as [|? ? Hi HF']; subst. destruct i as [c|c|index colon sp].
    + apply sacc_plain; [exact Hi|cbn [text_of flat_map] in HS; rewrite HS, <- app_assoc; reflexivity|]. apply IH; try assumption. cbn [text_of flat_map] in HS. rewrite <- app_assoc in HS. apply (skip_part _ _ _ _ HS).
    + apply sacc_plain; [exact Hi|cbn [text_of flat_map] in HS; rewrite HS, <- app_assoc; reflexivity|]. apply IH; try assumption. cbn [text_of flat_map] in HS. rewrite <- app_assoc in HS. apply (skip_part _ _ _ _ HS).
    + cbn [field_specs flat_map app] in H2. fold (field_specs its) in H2. inversion H2 as [|k ? ns' ? (t & HT & s & HFS & HAl) H2']; subst. cbn [item_ok] in Hi. destruct Hi as [HI HC].
      assert (HS' : skipn n T = text_of [Field index colon sp] ++ text_of its ++ e) by (rewrite HS; change (Field index colon sp :: its) with ([Field index colon sp] ++ its); now rewrite text_of_app, <- app_assoc).
      set (p := (n + 1 + length index + length (colon_text colon))%nat).
      assert (HSP : skipn p T = sp ++ text_of its ++ e).
      { rewrite field_text in HS'. unfold p. replace (n + 1 + length index + length (colon_text colon))%nat with (n + length (123%Z :: index ++ colon_text colon))%nat by (cbn [length]; rewrite app_length; lia).
        refine (skip_part _ _ (123 :: index ++ colon_text colon) _ _). rewrite HS'. cbn [app]. now rewrite <- !app_assoc. }
      assert (KB : (k < length tys)%nat) by (apply nth_error_Some; congruence).
      cbn [field_specs flat_map app] in HSm. fold (field_specs its) in HSm. inversion HSm as [|? ? HSS HSm']; subst.
      destruct (validate_sty_complete t T p sp _ s HB HSP HFS HAl HSS) as [HV HPar].
      assert (HPk : picks use inc index (Z.of_nat k) (next_use use index) (next_inc inc index)).
      { cbn [indices flat_map app length] in HNum. destruct HNum as [(HU & HN1 & HN2)|(HU & HN1)].
        - inversion HN1; subst. cbn [seq] in HN2. injection HN2 as HN2 _. left. subst. auto 6.
        - inversion HN1 as [|? ? ? ? [HD1 HD2] _]; subst. right. destruct HD1 as [HD0 HD1]. destruct index as [|d index]; [congruence|]. cbn [next_use next_inc]. split; [split; assumption|]. auto. }
      change (Field index colon sp :: its) with ([] ++ Field index colon sp :: its).
      apply (sacc_field tys T n use inc [] index colon sp (text_of its ++ e) its k ns' e (next_use use index) (next_inc inc index) t s p); auto; try lia.
      * unfold p. cbn [text_of flat_map length]. lia.
      * apply IH; try assumption.
        -- apply (skip_part _ _ _ _ HSP).
        -- cbn [indices flat_map app length] in HNum. fold (indices its) in HNum. destruct HNum as [(HU & HN1 & HN2)|(HU & HN1)]; [left|right].
           ++ inversion HN1; subst. cbn [seq] in HN2. injection HN2 as _ HN2. cbn [next_use next_inc]. split; [discriminate|]. auto.
           ++ inversion HN1 as [|? ? ? ? [[HD0 _] _] HN3]; subst. split; [|exact HN3]. destruct index; [congruence|discriminate].
        -- destruct HE as [HE|(H1 & H3 & H4)]; [now left|right]. split; [exact H1|]. cbn in H4. inversion H4 as [|? ? [HD0 _] H6]; subst. split; [|exact H6]. destruct index; [congruence|discriminate].
Qed.

Theorem scan_loop_total tys T : Forall is_byte T -> (length tys <= 128)%nat -> forall fuel n use inc b,
  bs_ok b -> bs_bits b = 128%nat -> (inc <= 128)%nat -> (n <= length T)%nat -> (length T - n < fuel)%nat ->
  exists v, scan_validate_loop fuel tys (mk_reader T n) use (Z.of_nat inc) b = Ok v.
Proof.
  intros HB HL. induction fuel as [|fuel IH]; intros n use inc b HBS H128 HI HN HFu; [lia|]. cbn [scan_validate_loop rtext].
  destruct (split_text (skipn n T)) as (lits & rest & HS & HF & HE). rewrite (check_text_at _ T n lits rest HF HS HE (Nat.lt_succ_diag_r _)).
  assert (AF : exists v, bitset_all_first b (length tys) = Ok v) by (destruct (all_first_ok b (length tys) HBS) as (q & EQ & _); eauto).
  destruct HE as [|c l N| |l N]; cbn [text_result]; try (exact AF); eauto.
  set (p0 := S (n + length (text_of lits))) in *.
  assert (HP0 : skipn p0 T = c :: l) by (unfold p0; apply (skip_succ _ _ 123); apply (skip_part _ _ _ _ HS)).
  assert (LP0 := skip_bound _ _ _ _ HP0).
  assert (SC := settled_check_field (mk_reader T p0) (mk_reader T p0) use (Z.of_nat inc) ltac:(unfold rwf; cbn; lia) eq_refl).
  destruct (check_field (mk_reader T p0) use (Z.of_nat inc)) as [[[[k use'] inc']|?| |] r'] eqn:EC; cbn in SC; try contradiction; eauto.
  destruct (check_field_inv T p0 use inc k use' inc' r' HB ltac:(lia) EC) as (index & colon & l' & i & HS' & HP & -> & HK & ->).
  set (p := (p0 + length index + length (colon_text colon))%nat) in *. destruct SC as [WP _]. unfold rwf in WP. cbn [rpos rtext] in WP.
  change no_more_args with 255. destruct (k =? 255) eqn:EK; [exact AF|].
  destruct (Z.of_nat (length tys) <=? k) eqn:EL; [eauto|]. destruct (set_ok b (Z.to_nat k) HBS ltac:(lia)) as (b' & EB & HB2 & L2 & W2). rewrite EB. cbn [bind].
  destruct (nth_error tys (Z.to_nat k)) as [t|] eqn:EN; [|apply nth_error_None in EN; lia].
  assert (SV := validate_sty_total t (mk_reader T p) (mk_reader T p) ltac:(unfold rwf; cbn; lia) eq_refl).
  destruct (validate_sty t (mk_reader T p)) as [[[]|?| |] r'] eqn:EV; cbn in SV; try contradiction; [|eauto].
  destruct (validate_sty_sound t T p r' HB EV) as (sp & rest & s & H1 & H2 & HA2 & -> & H4). destruct SV as [WV _]. unfold rwf in WV. cbn [rpos rtext] in WV.
  apply IH; try assumption; try lia.
  destruct HP as [(_ & _ & X & _ & ->)|(_ & _ & _ & _ & ->)]; lia.
Qed.
