(** Proofs about Format.v: the strings that are accepted, with tuples. *)
From Verif Require Import Base Conversion Reader Buffer Writer Bitset Specs FormatArg FloatArg Format.
From Verif Require Import Lib SpecNum SpecReader SpecEscape SpecFloat SpecFormat SpecDecimal SpecField SpecSpecs SpecString.
From Verif Require Import ConversionProofs ReaderProofs SpecsProofs BitsetProofs StringProofs StringLoop.

Lemma field_end_tuple len ts p sp q : field_end len (FTuple ts) p sp q <->
  exists n e, range_spec sp n e /\
    match e with
    | None => q = (p + length sp)%nat
    | Some e => exists q', Forall (fun t => field_end len t (p + if n then 2 else 1) e q') ts /\ q = Nat.min len ((p + if n then 2 else 1) + q')
    end.
Proof.
  cbn [field_end]. split; intros (n & e & H1 & H2); exists n, e; (split; [exact H1|]); clear H1; destruct e as [e|]; auto; destruct H2 as (q' & H1 & H2); exists q'; (split; [|exact H2]); clear H2.
  - induction ts as [|t ts IH]; constructor; [apply H1|apply IH, H1].
  - induction ts as [|t ts IH]; [exact Logic.I|]. inversion H1; subst. split; [assumption|apply IH; assumption].
Qed.

Lemma range_spec_inj sp n e n' e' : range_spec sp n e -> range_spec sp n' e' -> n = n' /\ e = e'.
Proof.
  unfold range_spec. intros H1 H2. rewrite H1 in H2. destruct n, n', e as [e|], e' as [e'|]; cbn in H2; try discriminate; inversion H2; auto.
Qed.

(** Validation goes on behind the specification. *)
Lemma field_end_after len t : forall p sp q (rest : list Z), field_spec t sp -> (p + length sp + length rest = len)%nat -> field_end len t p sp q ->
  (p + length sp <= q <= len)%nat.
Proof.
  induction t as [t| |t IH| |k t IH|ts IH|t IH|] using fty_ind'; intros p sp q rest HF HL HE; try (cbn [field_end] in HE; lia); try solve [cbn [field_spec field_end] in *; eapply IH; eauto].
  - destruct HE as (n & e & H1 & H2). destruct HF as (n' & e' & H3 & H4). destruct (range_spec_inj _ _ _ _ _ H1 H3) as [<- <-]. destruct e as [e|]; [|lia].
    assert (L : length sp = ((if n then 2 else 1) + length e)%nat) by (rewrite H1; destruct n; reflexivity).
    apply (IH _ _ _ rest) in H2; [lia|exact H4|lia].
  - apply field_end_tuple in HE. apply field_spec_tuple in HF. destruct HE as (n & e & H1 & H2). destruct HF as (n' & e' & H3 & H4). destruct (range_spec_inj _ _ _ _ _ H1 H3) as [<- <-]. destruct e as [e|]; [|lia].
    assert (L : length sp = ((if n then 2 else 1) + length e)%nat) by (rewrite H1; destruct n; reflexivity).
    destruct H2 as (q' & H2 & ->). destruct H4 as [NE H4]. destruct ts as [|t ts]; [congruence|]. apply Forall_inv in IH, H2, H4.
    apply (IH _ _ _ rest) in H2; [lia|exact H4|lia].
Qed.

Lemma pop_min T p q : (p <= length T)%nat -> pop (mk_reader T p) q = mk_reader T (Nat.min (length T) (p + q)).
Proof.
  intros H. unfold pop, cnt_remaining, set_pos. cbn [rtext rpos]. destruct (q <=? length T - p)%nat eqn:E; f_equal; lia.
Qed.

Theorem validate_fty_ends t : forall T n r', Forall is_byte T -> validate_fty t (mk_reader T n) = (Ok tt, r') ->
  exists sp rest q, skipn n T = sp ++ rest /\ field_spec t sp /\ field_end (length T) t n sp q /\ r' = mk_reader T q.
Proof.
  induction t as [t| |t IH| |k t IH|ts IH|t IH|] using fty_ind'; intros T n r' HB H;
    try (cbn [validate_fty] in H; apply match_rbrace_ok in H; destruct H as ((l & H) & ->); exists [125], l, (n + 1)%nat; repeat split; exact H);
    try (cbn [validate_fty] in H; apply IH; assumption).
  - destruct (core_field_ok t T n r' HB H) as (sp & rest & H1 & H2 & H3 & _). exists sp, rest, (n + length sp)%nat. repeat split; assumption.
  - rewrite validate_range in H. apply range_head_ok in H. destruct H as (b & e & l & HS & H). destruct e.
    + injection H as <-. exists ((if b then [110] else []) ++ [125]), l, (n + if b then 2 else 1)%nat. split; [rewrite <- app_assoc; exact HS|].
      split; [exists b, None; split; [reflexivity|exact Logic.I]|]. split; [|reflexivity]. exists b, None. split; [reflexivity|]. destruct b; reflexivity.
    + destruct (IH T _ r' HB H) as (sp & rest & q & H1 & H2 & H3 & H4).
      assert (HL : skipn (n + if b then 2 else 1) T = l).
      { rewrite <- skipn_skipn_nat, HS. destruct b; reflexivity. }
      exists ((if b then [110] else []) ++ 58 :: sp), rest, q. split; [rewrite HS, <- app_assoc; cbn [app]; rewrite <- H1, HL; reflexivity|].
      split; [exists b, (Some sp); split; [reflexivity|exact H2]|]. split; [|exact H4]. exists b, (Some sp). split; [reflexivity|exact H3].
  - rewrite validate_tuple in H. apply range_head_ok in H. destruct H as (b & e & l & HS & H). destruct e.
    + injection H as <-. exists ((if b then [110] else []) ++ [125]), l, (n + if b then 2 else 1)%nat. split; [rewrite <- app_assoc; exact HS|].
      split; [apply field_spec_tuple; exists b, None; split; [reflexivity|exact Logic.I]|]. split; [|reflexivity]. apply field_end_tuple. exists b, None. split; [reflexivity|]. destruct b; reflexivity.
    + assert (HL : skipn (n + if b then 2 else 1) T = l).
      { rewrite <- skipn_skipn_nat, HS. destruct b; reflexivity. }
      unfold validate_for_each in H. destruct ts as [|t0 ts0]; [discriminate|]. set (ts := t0 :: ts0) in *. assert (NE : ts <> []) by discriminate.
      set (p := (n + if b then 2 else 1)%nat) in *. destruct (validate_elements validate_fty ts (mk_reader T p) 0) as [q'| | |] eqn:EE; try discriminate.
      assert (AND : forall t sp q, field_spec t sp -> forall rest, skipn p T = sp ++ rest -> field_end (length T) t p sp q -> (0 < q /\ p <= length T)%nat).
      { intros t sp q HF rest HP HE. assert (L := f_equal (@length Z) HP). rewrite skipn_length, app_length in L. destruct (field_spec_cons _ _ HF) as (c & x & ->). cbn [length] in L.
        apply (field_end_after _ _ _ _ _ rest HF) in HE; cbn [length] in *; lia. }
      assert (EX : forall q0, validate_elements validate_fty ts (mk_reader T p) q0 = Ok q' -> (q0 = 0%nat \/ q0 = q') /\
        Forall (fun t => exists sp rest, skipn p T = sp ++ rest /\ field_spec t sp /\ field_end (length T) t p sp q') ts).
      { clear EE H NE. clearbody ts. induction IH as [|t ts Ht HT IHT]; intros q0 EE; cbn [validate_elements] in EE.
        - injection EE as ->. split; [now right|constructor].
        - destruct (validate_fty t (mk_reader T p)) as [[[]| | |] r1] eqn:EV; try discriminate. cbn [bind] in EE.
          destruct (Ht T p r1 HB EV) as (sp & rest & q1 & H1 & H2 & H3 & ->). cbn [pos rpos] in EE. destruct (AND t sp q1 H2 rest H1 H3) as [Q0 _].
          destruct (q0 =? 0)%nat eqn:E0.
          + destruct (IHT _ EE) as [X Y]. assert (q1 = q') as -> by (destruct X; lia). split; [left; lia|]. constructor; [eauto|exact Y].
          + destruct (q0 =? q1)%nat eqn:E1; [|discriminate]. destruct (IHT _ EE) as [X Y]. assert (q1 = q') as -> by (destruct X; lia). split; [right; lia|]. constructor; [eauto|exact Y]. }
      destruct (EX _ EE) as [_ ET]. assert (E0 := Forall_inv ET). destruct E0 as (sp & rest & H1 & H2 & H3).
      destruct (AND _ _ _ H2 _ H1 H3) as [Q0 LP]. replace (q' =? 0)%nat with false in H by lia. injection H as <-.
      exists ((if b then [110] else []) ++ 58 :: sp), rest, (Nat.min (length T) (p + q')). split; [rewrite HS, <- app_assoc; cbn [app]; rewrite <- H1, HL; reflexivity|].
      assert (SAME : Forall (fun t => field_spec t sp /\ field_end (length T) t p sp q') ts).
      { revert ET. apply Forall_impl. intros t (sp2 & rest2 & G1 & G2 & G3).
        destruct (field_spec_end _ _ H2) as (x & -> & HX). destruct (field_spec_end _ _ G2) as (y & -> & HY). rewrite H1, <- !app_assoc in G1. cbn [app] in G1.
        destruct (first_brace_unique _ _ _ _ HX HY G1) as [-> _]. auto. }
      split; [apply field_spec_tuple; exists b, (Some sp); split; [reflexivity|]; split; [exact NE|]; revert SAME; apply Forall_impl; tauto|].
      split; [|now apply pop_min]. apply field_end_tuple. exists b, (Some sp). split; [reflexivity|]. exists q'. split; [|reflexivity]. revert SAME. apply Forall_impl. intros t X. apply X.
Qed.

Theorem validate_fty_at t : forall T n sp rest q, Forall is_byte T -> skipn n T = sp ++ rest -> field_spec t sp -> small_numbers sp ->
  field_end (length T) t n sp q -> validate_fty t (mk_reader T n) = (Ok tt, mk_reader T q).
Proof.
  induction t as [t| |t IH| |k t IH|ts IH|t IH|] using fty_ind'; intros T n sp rest q HB HS HF HN HE;
    try (cbn [field_spec field_end] in *; subst sp q; cbn [validate_fty]; apply match_rbrace_ok; split; [exists rest; exact HS|reflexivity]);
    try solve [cbn [field_spec field_end validate_fty] in *; eapply IH; eauto].
  - cbn [field_end] in HE. subst q. apply (validate_fty_complete (FCore t) T n sp rest HB); auto. left. exact Logic.I.
  - destruct HE as (b & e & H & HE). destruct HF as (b' & e' & H3 & HF). destruct (range_spec_inj _ _ _ _ _ H H3) as [<- <-]. unfold range_spec in H, H3. subst sp. rewrite validate_range. destruct e as [e|].
    + rewrite (range_head_intro T n _ _ b false (e ++ rest)) by (rewrite HS, <- app_assoc; reflexivity).
      assert (HS3 : skipn (n + if b then 2 else 1) T = e ++ rest).
      { replace (e ++ rest) with (skipn (if b then 2 else 1) (skipn n T)); [now rewrite skipn_skipn_nat|]. rewrite HS. now destruct b. }
      apply (IH T _ e rest); auto. apply (small_sub ((if b then [110] else []) ++ [58]) e []). now rewrite app_nil_r, <- app_assoc.
    + rewrite (range_head_intro T n _ _ b true rest) by (rewrite HS, <- app_assoc; reflexivity).
      f_equal. f_equal. rewrite HE, app_length. destruct b; reflexivity.
  - apply field_end_tuple in HE. apply field_spec_tuple in HF. destruct HE as (b & e & H & HE). destruct HF as (b' & e' & H3 & HF). destruct (range_spec_inj _ _ _ _ _ H H3) as [<- <-]. unfold range_spec in H, H3. subst sp.
    rewrite validate_tuple. destruct e as [e|].
    + rewrite (range_head_intro T n _ _ b false (e ++ rest)) by (rewrite HS, <- app_assoc; reflexivity).
      assert (HS3 : skipn (n + if b then 2 else 1) T = e ++ rest).
      { replace (e ++ rest) with (skipn (if b then 2 else 1) (skipn n T)); [now rewrite skipn_skipn_nat|]. rewrite HS. now destruct b. }
      set (p := (n + if b then 2 else 1)%nat) in *. destruct HE as (q' & HE & ->). destruct HF as [NE HF].
      assert (HSm : small_numbers e) by (apply (small_sub ((if b then [110] else []) ++ [58]) e []); now rewrite app_nil_r, <- app_assoc).
      assert (Q : (0 < q' /\ p <= length T)%nat).
      { destruct ts as [|t ts]; [congruence|]. apply Forall_inv in HE, HF. assert (L := f_equal (@length Z) HS3). rewrite skipn_length, app_length in L. destruct (field_spec_cons _ _ HF) as (c & x & ->). cbn [length] in L.
        apply (field_end_after _ _ _ _ _ rest HF) in HE; cbn [length] in *; lia. }
      assert (HV : Forall (fun t => validate_fty t (mk_reader T p) = (Ok tt, mk_reader T q')) ts).
      { apply Forall_forall. intros t HI. rewrite Forall_forall in IH, HE, HF. apply (IH t HI T p e rest); auto. }
      assert (X : forall p0, (p0 = 0%nat \/ p0 = q') -> validate_elements validate_fty ts (mk_reader T p) p0 = Ok (match ts with [] => p0 | _ => q' end)).
      { clear -HV. induction HV as [|t ts Ht HV IH]; intros p0 HP; [reflexivity|]. cbn [validate_elements]. rewrite Ht. cbn [bind pos rpos].
        destruct (p0 =? 0)%nat eqn:E0; [|replace (p0 =? q')%nat with true by lia]; rewrite IH by auto; destruct ts; reflexivity || (f_equal; lia). }
      unfold validate_for_each. destruct ts as [|t0 ts0]; [congruence|]. rewrite X by auto.
      replace (q' =? 0)%nat with false by lia. now rewrite pop_min.
    + rewrite (range_head_intro T n _ _ b true rest) by (rewrite HS, <- app_assoc; reflexivity).
      f_equal. f_equal. rewrite HE, app_length. destruct b; reflexivity.
Qed.

(** ** The validation of whole strings *)
Inductive vacc (tys : list fty) (T : list Z) : nat -> option bool -> nat -> list item -> list nat -> list Z -> Prop :=
| vacc_end n use inc its e : Forall plain_item its -> skipn n T = text_of its ++ e -> e = [] \/ cut_text use e -> vacc tys T n use inc its [] e
| vacc_field n use inc lits index colon sp rest its k ns e use' inc' t p q :
    Forall plain_item lits -> skipn n T = text_of lits ++ text_of [Field index colon sp] ++ rest -> (colon = false -> sp = [125]) ->
    picks use inc index (Z.of_nat k) use' inc' -> (k < 128)%nat -> nth_error tys k = Some t -> field_spec t sp ->
    p = (n + length (text_of lits) + 1 + length index + length (colon_text colon))%nat -> skipn p T = sp ++ rest ->
    field_end (length T) t p sp q -> validate_fty t (mk_reader T p) = (Ok tt, mk_reader T q) ->
    vacc tys T q use' inc' its ns e ->
    vacc tys T n use inc (lits ++ Field index colon sp :: its) (k :: ns) e.

Theorem walk_loop_sound tys T : Forall is_byte T -> forall fuel n use inc b,
  bs_ok b -> bs_bits b = 128%nat -> (inc <= 128)%nat ->
  validate_loop fuel tys (mk_reader T n) use (Z.of_nat inc) b = Ok true ->
  exists its ns e, vacc tys T n use inc its ns e /\ (length tys <= 128)%nat /\ forall k, (k < length tys)%nat -> bit (bs_words b) k = true \/ In k ns.
Proof.
  intros HB. induction fuel as [|fuel IH]; intros n use inc b HBS H128 HI H; [discriminate|]. cbn [validate_loop rtext] in H.
  destruct (split_text (skipn n T)) as (lits & rest & HS & HF & HE). rewrite (check_text_at _ T n lits rest HF HS HE (Nat.lt_succ_diag_r _)) in H.
  assert (AF : bitset_all_first b (length tys) = Ok true -> (length tys <= 128)%nat /\ forall k, (k < length tys)%nat -> bit (bs_words b) k = true).
  { intros X. destruct (all_first_ok b (length tys) HBS) as (q & EQ & HQ). rewrite EQ in X. injection X as ->. destruct HQ as [HQ _]. rewrite H128 in HQ. exact (HQ eq_refl). }
  destruct HE as [|c l N| |l N]; cbn [text_result] in H; try discriminate.
  { destruct (AF H) as [A1 A2]. exists lits, [], []. split; [constructor; auto|]. split; [exact A1|]. intros k HK. left. auto. }
  set (p0 := S (n + length (text_of lits))) in *.
  assert (HP0 : skipn p0 T = c :: l) by (unfold p0; apply (skip_succ _ _ 123); apply (skip_part _ _ _ _ HS)).
  destruct (check_field (mk_reader T p0) use (Z.of_nat inc)) as [[[[k use'] inc']|?| |] r'] eqn:EC; try discriminate.
  destruct (check_field_inv T p0 use inc k use' inc' r' HB ltac:(lia) EC) as (index & colon & l' & i & HS' & HP & -> & HK & ->).
  assert (HIX : index = [] \/ digits_text index) by (destruct HP; tauto).
  set (p := (p0 + length index + length (colon_text colon))%nat) in *.
  assert (HSP : skipn p T = if colon then l' else 125 :: l').
  { unfold p. rewrite <- Nat.add_assoc, <- app_length. rewrite app_assoc in HS'. apply (skip_part _ _ _ _ HS'). }
  change no_more_args with 255 in H. destruct (k =? 255) eqn:EK.
  - assert (k = 255) as -> by lia. destruct (AF H) as [A1 A2]. exists lits, [], (123 :: c :: l). split; [|split; [exact A1|intros k HK'; left; auto]].
    constructor; [exact HF|exact HS|]. right. destruct HP as [(-> & _ & X & _)|(HD & HU & X & _)]; [lia|]. split; [exact HU|].
    exists index, (if colon then 58 else 125), l'. split; [|auto 6]. f_equal. rewrite <- HP0, HS'. destruct colon; reflexivity. destruct colon; auto.
  - destruct (Z.of_nat (length tys) <=? k) eqn:EL; [discriminate|]. destruct (bitset_set b (Z.to_nat k)) as [b'| | |] eqn:EB; try discriminate. cbn [bind] in H.
    assert (HK2 : (Z.to_nat k < 128)%nat).
    { unfold bitset_set in EB. rewrite H128 in EB. destruct (128 <=? Z.to_nat k)%nat eqn:E; [discriminate|lia]. }
    destruct (nth_error tys (Z.to_nat k)) as [t|] eqn:EN; [|discriminate].
    destruct (validate_fty t (mk_reader T p)) as [[[]|?| |] r'] eqn:EV; try discriminate.
    destruct (validate_fty_ends t T p r' HB EV) as (sp & rest & q & H1 & H2 & H4 & ->).
    destruct (set_ok b (Z.to_nat k) HBS ltac:(lia)) as (b2 & EB2 & HB2 & L2 & W2). rewrite EB in EB2. injection EB2 as <-.
    assert (HI' : (i <= 128)%nat) by (destruct HP as [(_ & _ & X & _ & ->)|(_ & _ & _ & _ & ->)]; lia).
    destruct (IH q use' i b' HB2 ltac:(lia) HI' H) as (its & ns & e & HA & HL & HCov).
    exists (lits ++ Field index colon sp :: its), (Z.to_nat k :: ns), e. split; [|split; [exact HL|]].
    + assert (HCS : colon = false -> sp = [125]).
      { intros ->. rewrite H1 in HSP. destruct (field_spec_end t sp H2) as (x & -> & HX). destruct x as [|x0 x]; [reflexivity|]. cbn in HSP. injection HSP as -> _. exfalso. apply HX. now left. }
      apply (vacc_field tys T n use inc lits index colon sp rest its (Z.to_nat k) ns e use' i t p q); auto; try (rewrite ?Z2Nat.id by lia; assumption).
      * rewrite field_text, HS. f_equal. cbn [app]. f_equal. rewrite <- !app_assoc, <- HP0, HS'. f_equal. f_equal. rewrite <- H1, HSP. reflexivity.
      * unfold p, p0. lia.
    + intros j HJ. destruct (HCov j HJ) as [X|X]; [|right; now right]. apply W2 in X. destruct X as [X| ->]; [now left|right; now left].
Qed.

Theorem walk_loop_complete tys T : Forall is_byte T -> (length tys <= 128)%nat -> forall n use inc its ns e, vacc tys T n use inc its ns e -> forall fuel b,
  bs_ok b -> bs_bits b = 128%nat -> (inc <= 128)%nat -> (length T - n < fuel)%nat ->
  (forall k, (k < length tys)%nat -> bit (bs_words b) k = true \/ In k ns) ->
  validate_loop fuel tys (mk_reader T n) use (Z.of_nat inc) b = Ok true.
Proof.
  intros HB HL n use inc its ns e HA. induction HA as [n use inc its e HF HS HE|n use inc lits index colon sp rest its k ns e use' inc' t p q HF HS HC HP HK HN HFS Hp HSP HEnd HV HA IH];
    intros fuel b HBS H128 HI HFu HCov.
  - apply (validate_loop_complete tys T HB HL n use inc its [] e); auto. now constructor.
  - destruct fuel as [|fuel]; [lia|]. cbn [validate_loop rtext]. assert (HIX : index = [] \/ digits_text index) by (destruct HP; tauto).
    rewrite field_text in HS. cbn [app] in HS. rewrite <- !app_assoc in HS.
    assert (LT := f_equal (@length Z) HS). rewrite skipn_length, app_length in LT. cbn [length] in LT. rewrite !app_length in LT.
    destruct (not_open index colon sp rest HIX HC) as (c & l & EO & NO).
    rewrite (check_text_at _ T n lits (123 :: c :: l) HF); [|rewrite HS, EO; reflexivity|now constructor|lia]. cbn [text_result].
    set (p0 := (n + length (text_of lits))%nat) in *.
    assert (HP0 : skipn (S p0) T = index ++ colon_text colon ++ (if colon then (if colon then sp ++ rest else rest) else 125 :: (if colon then sp ++ rest else rest))).
    { rewrite (skip_succ p0 T 123 (index ++ colon_text colon ++ sp ++ rest)) by apply (skip_part _ _ _ _ HS). f_equal. f_equal. destruct colon; [reflexivity|]. now rewrite HC by reflexivity. }
    assert (KB : (k < length tys)%nat) by (apply nth_error_Some; congruence).
    assert (HI2 : (inc <= 254)%nat) by lia. assert (HK2 : Z.of_nat k <= 255) by lia.
    rewrite (check_field_fwd T (S p0) use inc (Z.of_nat k) use' inc' index colon _ HB HI2 HP0 HP HK2).
    replace (S p0 + length index + length (colon_text colon))%nat with p by (unfold p0 in *; lia). change no_more_args with 255.
    replace (Z.of_nat k =? 255) with false by lia. replace (Z.of_nat (length tys) <=? Z.of_nat k) with false by lia. rewrite Nat2Z.id.
    destruct (set_ok b k HBS ltac:(lia)) as (b2 & -> & HB2 & L2 & W2). cbn [bind]. rewrite HN, HV.
    assert (QB : (p + length sp <= q <= length T)%nat) by (apply (field_end_after _ t p sp q rest); auto; unfold p0 in *; lia).
    apply IH; try assumption; try lia.
    + destruct HP as [(_ & _ & X & _ & ->)|(_ & _ & _ & _ & ->)]; lia.
    + intros j HJ. destruct (HCov j HJ) as [X|[-> |X]]; [left; apply W2; now left|left; apply W2; now right|now right].
Qed.

Theorem walk_loop_total tys T : Forall is_byte T -> (length tys <= 128)%nat -> forall fuel n use inc b,
  bs_ok b -> bs_bits b = 128%nat -> (inc <= 128)%nat -> (n <= length T)%nat -> (length T - n < fuel)%nat ->
  exists v, validate_loop fuel tys (mk_reader T n) use (Z.of_nat inc) b = Ok v.
Proof.
  intros HB HL. induction fuel as [|fuel IH]; intros n use inc b HBS H128 HI HN HFu; [lia|]. cbn [validate_loop rtext].
  destruct (split_text (skipn n T)) as (lits & rest & HS & HF & HE). rewrite (check_text_at _ T n lits rest HF HS HE (Nat.lt_succ_diag_r _)).
  assert (AF : exists v, bitset_all_first b (length tys) = Ok v) by (destruct (all_first_ok b (length tys) HBS) as (q & EQ & _); eauto).
  destruct HE as [|c l N| |l N]; cbn [text_result]; try (exact AF); eauto.
  set (p0 := S (n + length (text_of lits))) in *.
  assert (HP0 : skipn p0 T = c :: l) by (unfold p0; apply (skip_succ _ _ 123); apply (skip_part _ _ _ _ HS)).
  assert (LP0 := skip_bound _ _ _ _ HP0).
  assert (SC := settled_check_field (mk_reader T p0) (mk_reader T p0) use (Z.of_nat inc) ltac:(unfold rwf; cbn; lia) eq_refl).
  destruct (check_field (mk_reader T p0) use (Z.of_nat inc)) as [[[[k use'] inc']|?| |] r'] eqn:EC; cbn in SC; try contradiction; eauto.
  destruct (check_field_inv T p0 use inc k use' inc' r' HB ltac:(lia) EC) as (index & colon & l' & i & HS' & HP & -> & HK & ->).
  set (p := (p0 + length index + length (colon_text colon))%nat) in *. destruct SC as [WP _]. unfold rwf in WP. cbn [rpos rtext] in WP.
  change no_more_args with 255. destruct (k =? 255) eqn:EK; [exact AF|].
  destruct (Z.of_nat (length tys) <=? k) eqn:EL; [eauto|]. destruct (set_ok b (Z.to_nat k) HBS ltac:(lia)) as (b' & EB & HB2 & L2 & W2). rewrite EB. cbn [bind].
  destruct (nth_error tys (Z.to_nat k)) as [t|] eqn:EN; [|apply nth_error_None in EN; lia].
  assert (SV := validate_fty_total t (mk_reader T p) (mk_reader T p) ltac:(unfold rwf; cbn; lia) eq_refl).
  destruct (validate_fty t (mk_reader T p)) as [[[]|?| |] r'] eqn:EV; cbn in SV; try contradiction; [|eauto].
  destruct (validate_fty_ends t T p r' HB EV) as (sp & rest & q & H1 & H2 & H4 & ->).
  assert (LS := f_equal (@length Z) H1). rewrite skipn_length, app_length in LS.
  destruct (field_spec_cons _ _ H2) as (c1 & l1 & ES). assert (LSP : (0 < length sp)%nat) by (rewrite ES; cbn; lia).
  assert (QB : (p + length sp <= q <= length T)%nat) by (apply (field_end_after _ t p sp q rest); auto; lia).
  apply IH; try assumption; try lia.
  destruct HP as [(_ & _ & X & _ & ->)|(_ & _ & _ & _ & ->)]; lia.
Qed.

(** ** The same, as described *)
Lemma colon_length colon : length (colon_text colon) = if colon then 1%nat else 0%nat.
Proof. now destruct colon. Qed.

Lemma walks_plains fend tys T lits : forall n rest its ns e, Forall plain_item lits -> skipn n T = text_of lits ++ rest ->
  walks fend tys T (n + length (text_of lits)) its ns e -> walks fend tys T n (lits ++ its) ns e.
Proof.
  induction lits as [|i lits IH]; intros n rest its ns e HF HS HW; [cbn [text_of flat_map length] in HW; now rewrite Nat.add_0_r in HW|].
  inversion HF as [|? ? Hi HF']; subst. cbn [text_of flat_map] in HS, HW. rewrite <- app_assoc in HS. rewrite app_length, Nat.add_assoc in HW. cbn [app].
  apply (walks_plain _ _ _ _ i (text_of lits ++ rest)); [exact Hi|exact HS|]. eapply IH; [exact HF'|apply (skip_part _ _ _ _ HS)|exact HW].
Qed.
Lemma vacc_walks tys T n use inc its ns e : vacc tys T n use inc its ns e -> walks (field_end (length T)) tys T n its ns e /\
  ((use <> Some true /\ Forall (fun i => i = []) (indices its) /\ ns = seq inc (length (indices its))) \/
   (use <> Some false /\ Forall2 (fun i n => digits_text i /\ denotes 10 i = Z.of_nat n) (indices its) ns)) /\
  (e = [] \/ (field_255 e /\ use <> Some false /\ Forall digits_text (indices its))).
Proof.
  induction 1 as [n use inc its e HF HS HE|n use inc lits index colon sp rest its k ns e use' inc' t p q HF HS HC HP HK HN HFS Hp HSP HEnd HV HA IH].
  - split; [|split].
    + rewrite <- (app_nil_r its). eapply walks_plains; [exact HF|exact HS|]. constructor. apply (skip_part _ _ _ _ HS).
    + rewrite <- (app_nil_r its), plain_indices by exact HF. cbn. destruct use as [[]|]; [right|left|left]; repeat split; try discriminate; constructor.
    + destruct HE as [HE|[HU HE]]; [now left|right]. split; [exact HE|]. split; [exact HU|]. rewrite <- (app_nil_r its), plain_indices by exact HF. constructor.
  - destruct IH as (IH1 & IH2 & IH3). assert (HIX : index = [] \/ digits_text index) by (destruct HP; tauto). split; [|split].
    + eapply walks_plains; [exact HF|exact HS|]. eapply (walks_field _ _ _ _ index colon sp rest its k ns e t q); auto; [split; assumption| |].
      * rewrite (skip_part _ _ _ _ HS). cbn [text_of flat_map]. now rewrite app_nil_r.
      * rewrite <- colon_length, <- Hp. exact HEnd.
    + rewrite plain_indices by exact HF. cbn [indices flat_map app length]. fold (indices its).
      destruct HP as [(-> & HU & HKI & -> & ->)|(HD & HU & HKI & -> & ->)].
      * left. destruct IH2 as [(_ & H1 & H2)|(X & _)]; [|congruence]. split; [exact HU|]. split; [constructor; auto|]. cbn [seq]. f_equal; [lia|exact H2].
      * right. destruct IH2 as [(X & _)|(_ & H1)]; [congruence|]. split; [exact HU|]. constructor; [split; [exact HD|now symmetry]|exact H1].
    + destruct IH3 as [IH3|(H1 & H2 & H3)]; [now left|right]. split; [exact H1|]. rewrite plain_indices by exact HF.
      destruct HP as [(-> & HU & HKI & -> & ->)|(HD & HU & HKI & -> & ->)]; [congruence|]. split; [exact HU|]. cbn. constructor; assumption.
Qed.

Lemma vacc_plain tys T n use inc i rest its ns e : plain_item i -> skipn n T = item_text i ++ rest ->
  vacc tys T (n + length (item_text i)) use inc its ns e -> vacc tys T n use inc (i :: its) ns e.
Proof.
  intros HI HS H. assert (HR := skip_part _ _ _ _ HS). inversion H as [? ? ? ? ? HF HS' HE|? ? ? lits index colon sp rest' its' k ns' ? use' inc' t p q HF HS' HC HP HK HN HFS Hp HSP HEnd HV HA]; subst.
  - constructor; [constructor; assumption| |exact HE]. rewrite HS. cbn [text_of flat_map]. rewrite <- app_assoc. f_equal. exact HS'.
  - change (i :: lits ++ Field index colon sp :: its') with ((i :: lits) ++ Field index colon sp :: its').
    assert (L : (length (text_of (i :: lits)) = length (item_text i) + length (text_of lits))%nat) by (cbn [text_of flat_map]; now rewrite app_length).
    eapply (vacc_field _ _ _ _ _ (i :: lits) index colon sp rest' its' k ns' e use' inc' t); try eassumption.
    + constructor; assumption.
    + rewrite HS. cbn [text_of flat_map]. rewrite <- app_assoc. f_equal. exact HS'.
    + rewrite L. lia.
Qed.

Lemma walks_vacc tys T : Forall is_byte T -> small_numbers T -> (length tys <= 128)%nat -> forall n its ns e, walks (field_end (length T)) tys T n its ns e -> forall use inc,
  ((use <> Some true /\ Forall (fun i => i = []) (indices its) /\ ns = seq inc (length (indices its))) \/
   (use <> Some false /\ Forall2 (fun i n => digits_text i /\ denotes 10 i = Z.of_nat n) (indices its) ns)) ->
  (e = [] \/ (field_255 e /\ use <> Some false /\ Forall digits_text (indices its))) ->
  vacc tys T n use inc its ns e.
Proof.
  intros HB HSm HL n its ns e HW. induction HW as [n e HS|n i rest its ns e Hi HS HW IH|n index colon sp rest its k ns e t q Hi HS HN HFS HEnd HW IH]; intros use inc HNum HE.
  - constructor; [constructor|exact HS|]. destruct HE as [HE|(H & HU & _)]; [now left|right]. split; assumption.
  - apply (vacc_plain tys T n use inc i rest); [exact Hi|exact HS|]. destruct i; [apply IH; assumption|apply IH; assumption|contradiction].
  - destruct Hi as [HI HC].
    assert (HS' : skipn n T = text_of [Field index colon sp] ++ rest) by (rewrite HS; cbn [text_of flat_map]; now rewrite app_nil_r).
    set (p := (n + 1 + length index + length (colon_text colon))%nat). rewrite <- colon_length in HEnd. fold p in HEnd.
    assert (HSP : skipn p T = sp ++ rest).
    { rewrite field_text in HS'. unfold p. replace (n + 1 + length index + length (colon_text colon))%nat with (n + length (123%Z :: index ++ colon_text colon))%nat by (cbn [length]; rewrite app_length; lia).
      refine (skip_part _ _ (123 :: index ++ colon_text colon) _ _). rewrite HS'. cbn [app]. now rewrite <- !app_assoc. }
    assert (KB : (k < length tys)%nat) by (apply nth_error_Some; congruence).
    assert (HSS : small_numbers sp).
    { apply (small_sub (firstn p T) sp rest). now rewrite <- HSP, firstn_skipn. }
    assert (HV := validate_fty_at t T p sp rest q HB HSP HFS HSS HEnd).
    assert (HPk : picks use inc index (Z.of_nat k) (next_use use index) (next_inc inc index)).
    { cbn [indices flat_map app length] in HNum. destruct HNum as [(HU & HN1 & HN2)|(HU & HN1)].
      - inversion HN1; subst. cbn [seq] in HN2. injection HN2 as HN2 _. left. subst. auto 6.
      - inversion HN1 as [|? ? ? ? [HD1 HD2] _]; subst. right. destruct HD1 as [HD0 HD1]. destruct index as [|d index]; [congruence|]. cbn [next_use next_inc]. split; [split; assumption|]. auto. }
    change (Field index colon sp :: its) with ([] ++ Field index colon sp :: its).
    apply (vacc_field tys T n use inc [] index colon sp rest its k ns e (next_use use index) (next_inc inc index) t p q); auto; try lia.
    + unfold p. cbn [text_of flat_map length]. lia.
    + apply IH.
      * cbn [indices flat_map app length] in HNum. fold (indices its) in HNum. destruct HNum as [(HU & HN1 & HN2)|(HU & HN1)]; [left|right].
        -- inversion HN1; subst. cbn [seq] in HN2. injection HN2 as _ HN2. cbn [next_use next_inc]. split; [discriminate|]. auto.
        -- inversion HN1 as [|? ? ? ? [[HD0 _] _] HN3]; subst. split; [|exact HN3]. destruct index; [congruence|discriminate].
      * destruct HE as [HE|(H1 & H3 & H4)]; [now left|right]. split; [exact H1|]. cbn in H4. inversion H4 as [|? ? [HD0 _] H6]; subst. split; [|exact H6]. destruct index; [congruence|discriminate].
Qed.

Theorem walked_sound s tys : Forall is_byte s -> accepted s tys -> walked s tys /\ (length tys <= 128)%nat.
Proof.
  intros HB (v & HV & HS).
  assert (X : exists its ns e, vacc tys s 0 None 0 its ns e /\ (length tys <= 128)%nat /\ forall k, (k < length tys)%nat -> In k ns).
  { unfold vstr_from in HV. destruct ((length tys =? 0)%nat && check_if_plain_string s) eqn:EP.
    - destruct tys; [|discriminate]. cbn in EP. destruct (plain_string s EP) as (its & E & HF). exists its, [], [].
      split; [constructor; [exact HF|cbn [skipn]; now rewrite app_nil_r|now left]|]. cbn. split; [lia|intros; lia].
    - destruct (validate_string s tys) as [[]| | |] eqn:E; try discriminate; injection HV as <-; [|discriminate]. destruct (new_ok 128) as [N1 N2].
      destruct (walk_loop_sound tys s HB _ 0%nat None 0%nat _ N1 new_bits (Nat.le_0_l _) E) as (its & ns & e & HA & HL & HC).
      exists its, ns, e. split; [exact HA|]. split; [exact HL|]. intros k HK. destruct (HC k HK) as [X|X]; [rewrite N2 in X; discriminate|exact X]. }
  destruct X as (its & ns & e & HA & HL & HC). split; [|exact HL]. apply vacc_walks in HA. destruct HA as (H1 & H2 & H3). exists its, ns, e.
  split; [exact H1|]. split; [destruct H2 as [(_ & H2)|(_ & H2)]; [left; exact H2|right; exact H2]|]. split; [exact HC|]. tauto.
Qed.
Theorem walked_complete s tys : Forall is_byte s -> small_numbers s -> (length tys <= 128)%nat -> walked s tys -> accepted s tys.
Proof.
  intros HB HSm HL (its & ns & e & H1 & H2 & H3 & H4).
  assert (HA : vacc tys s 0 None 0 its ns e).
  { apply walks_vacc; auto; [destruct H2 as [H2|H2]; [left|right]; (split; [discriminate|exact H2])|]. destruct H4 as [H4|[H4 H5]]; [now left|right]. repeat split; auto. discriminate. }
  unfold accepted, vstr_from. destruct ((length tys =? 0)%nat && check_if_plain_string s); [eexists; split; reflexivity|].
  destruct (new_ok 128) as [N1 N2]. unfold validate_string, reader_of. change 0 with (Z.of_nat 0) at 1.
  rewrite (walk_loop_complete tys s HB HL 0%nat None 0%nat its ns e HA); [|exact N1|reflexivity|lia|lia|intros k HK; right; auto]. cbn [bind]. eexists; split; reflexivity.
Qed.
Theorem all_decided s tys : Forall is_byte s -> (length tys <= 128)%nat ->
  exists v, vstr_from s tys = Ok v /\ (vs_str v = Ok s \/ vs_str v = Err invalid_format).
Proof.
  intros HB HL. unfold vstr_from. destruct ((length tys =? 0)%nat && check_if_plain_string s); [eexists; split; [reflexivity|now left]|].
  destruct (new_ok 128) as [N1 N2]. unfold validate_string, reader_of. change 0 with (Z.of_nat 0) at 1.
  destruct (walk_loop_total tys s HB HL (S (length s)) 0%nat None 0%nat _ N1 new_bits) as ([] & ->); try lia; cbn [bind]; eexists; (split; [reflexivity|]); auto.
Qed.

(** ** Formatting with tuples *)
Lemma parse_end_tuple len ts p sp q : parse_end len (FTuple ts) p sp q <->
  exists n e, range_spec sp n e /\
    let p' := (p + match e with None => if n then 1 else 0 | Some _ => if n then 2 else 1 end)%nat in
    ((ts = [] /\ q = (p' + 1)%nat) \/ exists ts0 t q', ts = ts0 ++ [t] /\ parse_end len t p' (element_spec e) q' /\ q = Nat.min len (p' + q')).
Proof.
  cbn [parse_end]. split; intros (n & e & H1 & H2); exists n, e; (split; [exact H1|]); clear H1; cbv zeta in *; set (p' := (p + _)%nat) in *; clearbody p'.
  - destruct ts as [|t ts]; [left; auto|right]. revert t H2. induction ts as [|t2 ts IH]; intros t H2.
    + destruct H2 as (q' & H1 & H2). exists [], t, q'. auto.
    + destruct (IH t2 H2) as (ts0 & t3 & q' & -> & H3 & H4). exists (t :: ts0), t3, q'. auto.
  - destruct H2 as [(-> & H2)|(ts0 & t & q' & -> & H2 & H3)]; [exact H2|]. induction ts0 as [|t0 ts0 IH]; cbn [app]; [eauto|]. destruct ts0 as [|t1 ts0]; exact IH.
Qed.

Lemma brace_spec t : field_spec t [125].
Proof.
  destruct (validate_fty_ends t [125] 0 (mk_reader [125] 1)) as (sp & rest & q & H1 & H2 & _); [constructor; [unfold is_byte; lia|constructor]|apply (brace_ok t [125] 0 []); [constructor; [unfold is_byte; lia|constructor]|reflexivity|right; exists []; split; [reflexivity|tauto]]|].
  destruct (field_spec_end _ _ H2) as (x & -> & HX). destruct x as [|c x]; [exact H2|]. cbn in H1. injection H1 as <- _. exfalso. apply HX. now left.
Qed.
Lemma brace_small : small_numbers [125].
Proof.
  intros a d b H (HD & HF). exfalso. destruct d as [|c d]; [congruence|]. inversion HF as [|? ? HC _]; subst. assert (X : In c [125]) by (rewrite H, !in_app_iff; right; left; now left). destruct X as [X|[]]; lia.
Qed.

Lemma element_field ts sp n e : field_spec (FTuple ts) sp -> range_spec sp n e -> Forall (fun t => field_spec t (element_spec e)) ts.
Proof.
  intros HF HR. apply field_spec_tuple in HF. destruct HF as (n' & e' & H1 & H2). destruct (range_spec_inj _ _ _ _ _ HR H1) as [<- <-]. destruct e as [e|]; [apply H2|].
  apply Forall_forall. intros t _. apply brace_spec.
Qed.

Lemma exists_last_or {A} (l : list A) : l = [] \/ exists l0 x, l = l0 ++ [x].
Proof. destruct l as [|x l]; [now left|right]. destruct (@exists_last _ (x :: l)) as (l0 & y & E); [discriminate|eauto]. Qed.

Lemma parse_end_total len t : forall p sp, field_spec t sp -> exists q, parse_end len t p sp q.
Proof.
  induction t as [t| |t IH| |k t IH|ts IH|t IH|] using fty_ind'; intros p sp HF; try (eexists; reflexivity); try (cbn [field_spec parse_end] in *; apply IH; assumption).
  - destruct HF as (n & e & H1 & H2). destruct e as [e|].
    + destruct (IH (p + if n then 2 else 1)%nat e H2) as (q & HQ). exists q, n, (Some e). auto.
    + destruct (IH (p + if n then 1 else 0)%nat [125] (brace_spec t)) as (q & HQ). exists q, n, None. auto.
  - assert (HF' := HF). apply field_spec_tuple in HF. destruct HF as (n & e & H1 & _). assert (HE := element_field _ _ _ _ HF' H1).
    destruct (exists_last_or ts) as [-> |(ts0 & t & ->)].
    + eexists. apply parse_end_tuple. exists n, e. split; [exact H1|]. left. split; reflexivity.
    + rewrite Forall_forall in IH, HE. assert (HI : In t (ts0 ++ [t])) by (apply in_or_app; right; now left).
      destruct (IH t HI (p + match e with None => if n then 1 else 0 | Some _ => if n then 2 else 1 end)%nat (element_spec e) (HE t HI)) as (q' & HQ).
      eexists. apply parse_end_tuple. exists n, e. split; [exact H1|]. right. exists ts0, t, q'. split; [reflexivity|]. split; [exact HQ|reflexivity].
Qed.

Lemma spec_length sp n e : range_spec sp n e -> length sp = ((match e with None => if n then 1 else 0 | Some _ => if n then 2 else 1 end) + length (element_spec e))%nat.
Proof. intros ->. rewrite app_length. destruct n, e; cbn [length element_spec]; lia. Qed.
Lemma parse_end_after len t : forall p sp q (rest : list Z), field_spec t sp -> (p + length sp + length rest = len)%nat -> parse_end len t p sp q ->
  (p + length sp <= q <= len)%nat.
Proof.
  induction t as [t| |t IH| |k t IH|ts IH|t IH|] using fty_ind'; intros p sp q rest HF HL HE; try (cbn [parse_end] in HE; lia); try solve [cbn [field_spec parse_end] in *; eapply IH; eauto].
  - destruct HE as (n & e & H1 & H2). destruct HF as (n' & e' & H3 & H4). destruct (range_spec_inj _ _ _ _ _ H1 H3) as [<- <-]. assert (L := spec_length _ _ _ H1).
    destruct e as [e|]; cbn [element_spec length] in L.
    + apply (IH _ _ _ rest) in H2; [lia|exact H4|lia].
    + apply (IH _ _ _ rest) in H2; [cbn [length] in H2; lia|apply brace_spec|cbn [length]; lia].
  - apply parse_end_tuple in HE. destruct HE as (n & e & H1 & H2). assert (HEl := element_field _ _ _ _ HF H1). assert (L := spec_length _ _ _ H1). cbv zeta in H2. set (k := match e with None => _ | Some _ => _ end) in *. clearbody k.
    destruct H2 as [(-> & ->)|(ts0 & t & q' & -> & H2 & ->)].
    + apply field_spec_tuple in HF. destruct HF as (n' & e' & H3 & H4). destruct (range_spec_inj _ _ _ _ _ H1 H3) as [<- <-]. destruct e as [e|]; [now destruct H4|]. cbn [element_spec length] in L. lia.
    + rewrite Forall_forall in IH, HEl. assert (HI : In t (ts0 ++ [t])) by (apply in_or_app; right; now left).
      apply (IH t HI _ _ _ rest) in H2; [lia|now apply HEl|lia].
Qed.

Lemma parse_elements_to debug T p sp ts t q : Forall (fun t => exists q, parses_to t T p sp q) ts -> parses_to t T p sp q -> (debug = true -> sp = [125]) ->
  forall q0, exists ms, parse_elements (parse_with (Some debug)) (map (fun t => fresh t (default_brackets t)) (ts ++ [t])) (mk_reader T p) debug q0 = Ok (ms, q) /\
    fmtrs_for debug sp (ts ++ [t]) ms.
Proof.
  intros HF Hl HD. induction HF as [|t0 ts (qt & Ht) HF IH]; intros q0; cbn [app map parse_elements].
  - destruct (Hl (Some debug) (default_brackets t)) as (m & -> & HM); [intros [= ->]; auto|]. cbn. exists [m]. split; [reflexivity|]. constructor; [|constructor]. now destruct debug.
  - destruct (Ht (Some debug) (default_brackets t0)) as (m & -> & HM); [intros [= ->]; auto|]. cbn [bind pos rpos].
    destruct (IH qt) as (ms & -> & HMS). cbn [bind fst snd]. exists (m :: ms). split; [reflexivity|]. constructor; [now destruct debug|exact HMS].
Qed.

Theorem parses_at : forall t T n sp rest q, Forall is_byte T -> skipn n T = sp ++ rest -> field_spec t sp -> small_numbers sp ->
  parse_end (length T) t n sp q -> parses_to t T n sp q.
Proof.
  assert (FREE : forall t T n sp rest, tuple_free t -> Forall is_byte T -> skipn n T = sp ++ rest -> field_spec t sp -> small_numbers sp -> parses_to t T n sp (n + length sp)).
  { intros t T n sp rest HT HB HS HF HSm. assert (HV := validate_fty_complete t T n sp rest HB (or_introl HT) HS HF HSm).
    destruct (validate_fty_sound t T n _ HB (or_introl HT) HV) as (sp' & rest' & H1 & H2 & H3 & H4).
    destruct (field_spec_end _ _ HF) as (x & -> & HX). destruct (field_spec_end _ _ H2) as (y & -> & HY). rewrite HS, <- !app_assoc in H1. cbn [app] in H1.
    destruct (first_brace_unique _ _ _ _ HX HY H1) as [-> _]. exact H4. }
  intros t. induction t as [t| |t IH| |k t IH|ts IH|t IH|] using fty_ind'; intros T n sp rest q HB HS HF HN HE;
    try (cbn [parse_end] in HE; subst q; eapply FREE; eauto; exact Logic.I).
  - cbn [field_spec parse_end] in *. intros d bs _. rewrite fresh_opt. cbn [parse_with]. destruct (IH T n sp rest q HB HS HF HN HE None (default_brackets t)) as (m & -> & HM); [discriminate|]. cbn [sbind].
    exists (MOpt m). split; [reflexivity|]. exists m. auto.
  - destruct HE as (b & e & H & HE). destruct HF as (b' & e' & H3 & HF). destruct (range_spec_inj _ _ _ _ _ H H3) as [<- <-]. unfold range_spec in H, H3. subst sp.
    intros d bs _. rewrite fresh_range, parse_range. destruct e as [e|].
    + rewrite <- app_assoc in HS. cbn [app] in HS.
      assert (HS2 : skipn (n + if b then 1 else 0) T = 58 :: e ++ rest).
      { destruct b; [|rewrite Nat.add_0_r; exact HS]. rewrite <- skipn_skipn_nat, HS. reflexivity. }
      assert (HS3 : skipn (n + if b then 2 else 1) T = e ++ rest).
      { replace (e ++ rest) with (skipn (if b then 2 else 1) (skipn n T)); [now rewrite skipn_skipn_nat|]. rewrite HS. now destruct b. }
      rewrite (range_peek_ok bs T n _ b false (e ++ rest) HS). change (58 =? 125) with false. cbv iota. rewrite (pop_at _ _ _ _ HS2).
      replace (S (n + if b then 1 else 0)) with (n + if b then 2 else 1)%nat by (destruct b; lia).
      assert (HSm : small_numbers e) by (apply (small_sub ((if b then [110] else []) ++ [58]) e []); now rewrite app_nil_r, <- app_assoc).
      destruct (IH T _ e rest q HB HS3 HF HSm HE None (element_brackets k t)) as (m & -> & HM); [discriminate|]. cbn [sbind].
      exists (MRange (as_specs b bs) m). split; [reflexivity|]. exists b, (Some e), m. split; [reflexivity|]. split; [reflexivity|exact HM].
    + rewrite <- app_assoc in HS. cbn [app] in HS.
      assert (HS2 : skipn (n + if b then 1 else 0) T = [125] ++ rest).
      { destruct b; [|rewrite Nat.add_0_r; exact HS]. rewrite <- skipn_skipn_nat, HS. reflexivity. }
      rewrite (range_peek_ok bs T n _ b true rest HS). change (125 =? 125) with true. cbv iota.
      destruct (IH T _ [125] rest q HB HS2 (brace_spec t) brace_small HE (Some true) (element_brackets k t)) as (m & -> & HM); [reflexivity|]. cbn [sbind].
      exists (MRange (as_specs b bs) m). split; [reflexivity|]. exists b, None, m. split; [reflexivity|]. split; [reflexivity|exact HM].
  - apply parse_end_tuple in HE. destruct HE as (b & e & H & HE). assert (HEl := element_field _ _ _ _ HF H). cbv zeta in HE. assert (HR := H). unfold range_spec in H.
    assert (L := f_equal (@length Z) HS). rewrite skipn_length, app_length in L.
    assert (HSm : small_numbers (element_spec e)).
    { destruct e as [e|]; [|apply brace_small]. cbn [element_spec]. apply (small_sub ((if b then [110] else []) ++ [58]) e []). rewrite app_nil_r, <- app_assoc. cbn [app]. now rewrite <- H. }
    set (p := (n + match e with None => if b then 1 else 0 | Some _ => if b then 2 else 1 end)%nat) in *.
    assert (HS3 : skipn p T = element_spec e ++ rest).
    { unfold p. rewrite <- skipn_skipn_nat, HS, H. destruct b, e; reflexivity. }
    assert (LP : (p <= length T)%nat). { assert (X := spec_length _ _ _ HR). unfold p. destruct e as [e|]; cbn [element_spec length] in X; [|lia]. destruct HE as [(-> & _)|(ts0 & t0 & q' & -> & _)].
      - apply field_spec_tuple in HF. destruct HF as (n' & e' & H3 & H4). destruct (range_spec_inj _ _ _ _ _ HR H3) as [<- <-]. now destruct H4.
      - rewrite Forall_forall in HEl. specialize (HEl t0 ltac:(apply in_or_app; right; now left)). destruct (field_spec_cons _ _ HEl) as (c & x & EE). cbn [element_spec] in EE. subst e. cbn [length] in X. lia. }
    assert (BODY : forall bs, range_peek (as_specs false bs) (mk_reader T n) (parse_tuple_body (map (fun t => fresh t (default_brackets t)) ts)) =
       let set_debug := match e with None => true | Some _ => false end in
       match map (fun t => fresh t (default_brackets t)) ts with
       | [] => if set_debug then (Ok (MTuple (as_specs b bs) []), pop (mk_reader T p) 1) else (Err invalid_format, mk_reader T p)
       | _ =>
         match parse_elements (parse_with (Some set_debug)) (map (fun t => fresh t (default_brackets t)) ts) (mk_reader T p) set_debug 0 with
         | Ok (ms, reader_pos) => (Ok (MTuple (as_specs b bs) ms), pop (mk_reader T p) reader_pos)
         | Err e => (Err e, mk_reader T p)
         | Undef => (Undef, mk_reader T p)
         | Abort => (Abort, mk_reader T p)
         end
       end).
    { intros bs. subst sp. destruct e as [e|]; cbv zeta; rewrite <- app_assoc in HS; cbn [app] in HS.
      - rewrite (range_peek_ok bs T n _ b false (e ++ rest) HS). unfold parse_tuple_body. change (58 =? 125) with false. cbv iota zeta.
        assert (HS2 : skipn (n + if b then 1 else 0) T = 58 :: e ++ rest).
        { destruct b; [|rewrite Nat.add_0_r; exact HS]. rewrite <- skipn_skipn_nat, HS. reflexivity. }
        rewrite (pop_at _ _ _ _ HS2). replace (S (n + if b then 1 else 0)) with p by (unfold p; destruct b; lia). reflexivity.
      - rewrite (range_peek_ok bs T n _ b true rest HS). unfold parse_tuple_body. change (125 =? 125) with true. cbv iota zeta. reflexivity. }
    intros d bs _. rewrite fresh_tuple, parse_tuple, BODY. cbv zeta. clear BODY.
    destruct HE as [(-> & ->)|(ts0 & t0 & q' & -> & HE & ->)].
    + cbn [map]. destruct e as [e|]; [exfalso; apply field_spec_tuple in HF; destruct HF as (n' & e' & H3 & H4); destruct (range_spec_inj _ _ _ _ _ HR H3) as [<- <-]; now destruct H4|].
      cbn [element_spec app] in HS3. rewrite (pop_at _ _ _ _ HS3). exists (MTuple (as_specs b bs) []). split; [rewrite Nat.add_1_r; reflexivity|].
      apply fmtr_for_tuple. exists b, None, []. split; [exact HR|]. split; [reflexivity|constructor].
    + assert (HP : Forall (fun t => exists q, parses_to t T p (element_spec e) q) ts0 /\ parses_to t0 T p (element_spec e) q').
      { apply Forall_app in IH. destruct IH as [IH1 IH2]. apply Forall_inv in IH2. apply Forall_app in HEl. destruct HEl as [HE1 HE2]. apply Forall_inv in HE2. split; [|now apply (IH2 T p _ rest)].
        apply Forall_forall. intros t HI. rewrite Forall_forall in IH1, HE1. destruct (parse_end_total (length T) t p (element_spec e) (HE1 t HI)) as (qt & HQ). exists qt. apply (IH1 t HI T p _ rest); auto. }
      destruct HP as [HP1 HP2]. destruct (parse_elements_to (match e with None => true | Some _ => false end) T p (element_spec e) ts0 t0 q' HP1 HP2 ltac:(destruct e; [discriminate|reflexivity]) 0) as (ms & -> & HM).
      assert (NE : exists m0 ms0, map (fun t => fresh t (default_brackets t)) (ts0 ++ [t0]) = m0 :: ms0) by (destruct ts0; cbn; eauto). destruct NE as (m0 & ms0 & ->).
      exists (MTuple (as_specs b bs) ms). split; [now rewrite pop_min|]. apply fmtr_for_tuple. exists b, e, ms. split; [exact HR|]. split; [reflexivity|]. destruct e; exact HM.
  - cbn [field_spec parse_end] in *. intros d bs _. rewrite fresh_dyn. cbn [parse_with]. destruct (IH T n sp rest q HB HS HF HN HE None (default_brackets t)) as (m & -> & HM); [discriminate|]. cbn [sbind].
    exists (MDyn m). split; [reflexivity|]. exists m. auto.
Qed.

(** ** Walks *)
Lemma pacc_plain tys T n use inc i rest its ns e : plain_item i -> skipn n T = item_text i ++ rest ->
  pacc tys T (n + length (item_text i)) use inc its ns e -> pacc tys T n use inc (i :: its) ns e.
Proof.
  intros HI HS H. assert (HR := skip_part _ _ _ _ HS). inversion H as [? ? ? ? ? HF HS' HE|? ? ? lits index colon sp rest' its' k ns' ? use' inc' t p q HF HS' HC HP HK HN HFS Hp HSP HPar HQ HA]; subst.
  - constructor; [constructor; assumption| |exact HE]. rewrite HS. cbn [text_of flat_map]. rewrite <- app_assoc. f_equal. exact HS'.
  - change (i :: lits ++ Field index colon sp :: its') with ((i :: lits) ++ Field index colon sp :: its').
    assert (L : (length (text_of (i :: lits)) = length (item_text i) + length (text_of lits))%nat) by (cbn [text_of flat_map]; now rewrite app_length).
    eapply (pacc_field _ _ _ _ _ (i :: lits) index colon sp rest' its' k ns' e use' inc' t); try eassumption.
    + constructor; assumption.
    + rewrite HS. cbn [text_of flat_map]. rewrite <- app_assoc. f_equal. exact HS'.
    + rewrite L. lia.
Qed.
Lemma walks_pacc tys T : Forall is_byte T -> small_numbers T -> (length tys <= 128)%nat -> forall n its ns e, walks (parse_end (length T)) tys T n its ns e -> forall use inc,
  ((use <> Some true /\ Forall (fun i => i = []) (indices its) /\ ns = seq inc (length (indices its))) \/
   (use <> Some false /\ Forall2 (fun i n => digits_text i /\ denotes 10 i = Z.of_nat n) (indices its) ns)) ->
  (e = [] \/ (field_255 e /\ use <> Some false /\ Forall digits_text (indices its))) ->
  pacc tys T n use inc its ns e.
Proof.
  intros HB HSm HL n its ns e HW. induction HW as [n e HS|n i rest its ns e Hi HS HW IH|n index colon sp rest its k ns e t q Hi HS HN HFS HEnd HW IH]; intros use inc HNum HE.
  - constructor; [constructor|exact HS|]. destruct HE as [HE|(H & HU & _)]; [now left|right]. split; assumption.
  - apply (pacc_plain tys T n use inc i rest); [exact Hi|exact HS|]. destruct i; [apply IH; assumption|apply IH; assumption|contradiction].
  - destruct Hi as [HI HC].
    assert (HS' : skipn n T = text_of [Field index colon sp] ++ rest) by (rewrite HS; cbn [text_of flat_map]; now rewrite app_nil_r).
    set (p := (n + 1 + length index + length (colon_text colon))%nat). rewrite <- colon_length in HEnd. fold p in HEnd.
    assert (HSP : skipn p T = sp ++ rest).
    { rewrite field_text in HS'. unfold p. replace (n + 1 + length index + length (colon_text colon))%nat with (n + length (123%Z :: index ++ colon_text colon))%nat by (cbn [length]; rewrite app_length; lia).
      refine (skip_part _ _ (123 :: index ++ colon_text colon) _ _). rewrite HS'. cbn [app]. now rewrite <- !app_assoc. }
    assert (KB : (k < length tys)%nat) by (apply nth_error_Some; congruence).
    assert (HSS : small_numbers sp).
    { apply (small_sub (firstn p T) sp rest). now rewrite <- HSP, firstn_skipn. }
    assert (HV := parses_at t T p sp rest q HB HSP HFS HSS HEnd).
    destruct (field_spec_cons _ _ HFS) as (c1 & l1 & ES). assert (LSP : (0 < length sp)%nat) by (rewrite ES; cbn; lia).
    assert (LS := f_equal (@length Z) HSP). rewrite skipn_length, app_length in LS.
    assert (QB : (p + length sp <= q <= length T)%nat) by (apply (parse_end_after _ t p sp q rest); auto; lia).
    assert (HPk : picks use inc index (Z.of_nat k) (next_use use index) (next_inc inc index)).
    { cbn [indices flat_map app length] in HNum. destruct HNum as [(HU & HN1 & HN2)|(HU & HN1)].
      - inversion HN1; subst. cbn [seq] in HN2. injection HN2 as HN2 _. left. subst. auto 6.
      - inversion HN1 as [|? ? ? ? [HD1 HD2] _]; subst. right. destruct HD1 as [HD0 HD1]. destruct index as [|d index]; [congruence|]. cbn [next_use next_inc]. split; [split; assumption|]. auto. }
    change (Field index colon sp :: its) with ([] ++ Field index colon sp :: its).
    apply (pacc_field tys T n use inc [] index colon sp rest its k ns e (next_use use index) (next_inc inc index) t p q); auto; try lia.
    + unfold p. cbn [text_of flat_map length]. lia.
    + apply IH.
      * cbn [indices flat_map app length] in HNum. fold (indices its) in HNum. destruct HNum as [(HU & HN1 & HN2)|(HU & HN1)]; [left|right].
        -- inversion HN1; subst. cbn [seq] in HN2. injection HN2 as _ HN2. cbn [next_use next_inc]. split; [discriminate|]. auto.
        -- inversion HN1 as [|? ? ? ? [[HD0 _] _] HN3]; subst. split; [|exact HN3]. destruct index; [congruence|discriminate].
      * destruct HE as [HE|(H1 & H3 & H4)]; [now left|right]. split; [exact H1|]. cbn in H4. inversion H4 as [|? ? [HD0 _] H6]; subst. split; [|exact H6]. destruct index; [congruence|discriminate].
Qed.
Theorem format_walk_pacc tys s its ns : Forall is_byte s -> small_numbers s -> (length tys <= 128)%nat -> format_walk s tys its ns -> pacc tys s 0 None 0 its ns [].
Proof.
  intros HB HSm HL (H1 & H2). apply walks_pacc; auto. destruct H2 as [H2|H2]; [left|right]; (split; [discriminate|exact H2]).
Qed.

(** Fields behind which reading goes on at their end. *)
Definition straight (fend : fty -> nat -> list Z -> nat -> Prop) (tys : list fty) (k : nat) (sp : list Z) : Prop :=
  exists t, nth_error tys k = Some t /\ field_spec t sp /\ forall p, fend t p sp (p + length sp)%nat.
Lemma walks_prefix fend tys T its : forall n ns rest its2 ns2 e, skipn n T = text_of its ++ rest -> Forall item_ok its -> Forall2 (straight fend tys) ns (field_specs its) ->
  walks fend tys T (n + length (text_of its)) its2 ns2 e -> walks fend tys T n (its ++ its2) (ns ++ ns2) e.
Proof.
  induction its as [|i its IH]; intros n ns rest its2 ns2 e HS HO H2 HW.
  - cbn in H2. inversion H2; subst. cbn [text_of flat_map length] in HW. now rewrite Nat.add_0_r in HW.
  - inversion HO as [|? ? Hi HO']; subst. cbn [text_of flat_map] in HS, HW. fold (text_of its) in HS, HW. rewrite <- app_assoc in HS. rewrite app_length, Nat.add_assoc in HW.
    assert (HR := skip_part _ _ _ _ HS). destruct i as [c|c|index colon sp].
    + cbn [app]. eapply walks_plain; [exact Hi|exact HS|]. eapply IH; eauto.
    + cbn [app]. eapply walks_plain; [exact Hi|exact HS|]. eapply IH; eauto.
    + cbn [field_specs flat_map app] in H2. fold (field_specs its) in H2. inversion H2 as [|k ? ns' ? (t & HT & HFS & HE) H2']; subst. cbn [app].
      eapply walks_field; [exact Hi|exact HS|exact HT|exact HFS|apply HE|]. 
      replace (n + 1 + length index + (if colon then 1 else 0) + length sp)%nat with (n + length (item_text (Field index colon sp)))%nat.
      * eapply IH; eauto.
      * cbn [item_text]. rewrite !app_length. cbn [length]. destruct colon; cbn [length]; lia.
Qed.
Lemma free_field_end len t : forall p sp, tuple_free t -> field_spec t sp -> field_end len t p sp (p + length sp) /\ parse_end len t p sp (p + length sp).
Proof.
  induction t as [t| |t IH| |k t IH|ts IH|t IH|] using fty_ind'; intros p sp HT HF; try (split; reflexivity); try (cbn [field_spec field_end parse_end tuple_free] in *; auto); [|contradiction].
  destruct HF as (n & e & H1 & H2). assert (L := spec_length _ _ _ H1). destruct e as [e|]; cbn [element_spec length] in L.
  - destruct (IH (p + if n then 2 else 1)%nat e HT H2) as [H3 H4]. replace (p + length sp)%nat with (p + (if n then 2 else 1) + length e)%nat by lia. split; exists n, (Some e); auto.
  - destruct (IH (p + if n then 1 else 0)%nat [125] HT (brace_spec t)) as [H3 H4]. cbn [length] in H4. replace (p + length sp)%nat with (p + (if n then 1 else 0) + 1)%nat by lia. split; exists n, None; [split; [exact H1|lia]|auto].
Qed.
Lemma bare_field_end len t : forall p sp, bare_tuples t sp -> field_spec t sp -> field_end len t p sp (p + length sp).
Proof.
  induction t as [t| |t IH| |k t IH|ts IH|t IH|] using fty_ind'; intros p sp HT HF; try reflexivity; try (cbn [field_spec field_end bare_tuples] in *; auto).
  - destruct HF as (n & e & H1 & H2). assert (L := spec_length _ _ _ H1). exists n, e. split; [exact H1|]. destruct e as [e|]; cbn [element_spec length] in L; [|reflexivity].
    replace (p + length sp)%nat with (p + (if n then 2 else 1) + length e)%nat by lia. apply IH; eauto.
  - destruct HT as (n & HT). exists n, None. auto.
Qed.
Lemma field_end_unique len t : forall p sp q q', field_spec t sp -> field_end len t p sp q -> field_end len t p sp q' -> q = q'.
Proof.
  induction t as [t| |t IH| |k t IH|ts IH|t IH|] using fty_ind'; intros p sp q q' HF H H'; try (cbn [field_end] in *; congruence); try (cbn [field_spec field_end] in *; eapply IH; eauto; fail).
  - destruct HF as (b & x & HR & HF). destruct H as (n & e & H1 & H2), H' as (n' & e' & H3 & H4). destruct (range_spec_inj _ _ _ _ _ HR H1) as [<- <-]. destruct (range_spec_inj _ _ _ _ _ HR H3) as [<- <-].
    destruct x as [x|]; [eapply IH; eauto|congruence].
  - apply field_spec_tuple in HF. apply field_end_tuple in H, H'. destruct HF as (b & x & HR & HF). destruct H as (n & e & H1 & H2), H' as (n' & e' & H3 & H4). destruct (range_spec_inj _ _ _ _ _ HR H1) as [<- <-]. destruct (range_spec_inj _ _ _ _ _ HR H3) as [<- <-].
    destruct x as [x|]; [|congruence]. destruct H2 as (q1 & H2 & ->), H4 as (q2 & H4 & ->). destruct HF as [NE HF]. destruct ts as [|t ts]; [congruence|]. apply Forall_inv in IH, HF, H2, H4. rewrite (IH _ _ _ _ HF H2 H4). reflexivity.
Qed.
Lemma bare_or_not t : forall sp, field_spec t sp -> bare_tuples t sp \/ ~ bare_tuples t sp.
Proof.
  induction t as [t| |t IH| |k t IH|ts IH|t IH|] using fty_ind'; intros sp HF; try (left; exact Logic.I); try (cbn [field_spec bare_tuples] in *; auto; fail).
  - destruct HF as (n & e & H1 & H2). destruct e as [e|].
    + destruct (IH e H2) as [H|H]; [left|right].
      * intros n' e' H3. destruct (range_spec_inj _ _ _ _ _ H1 H3) as [_ [= <-]]. exact H.
      * intros X. apply H. exact (X _ _ H1).
    + left. intros n' e' H3. destruct (range_spec_inj _ _ _ _ _ H1 H3) as [_ ?]. discriminate.
  - apply field_spec_tuple in HF. destruct HF as (n & e & H1 & _). destruct e as [e|]; [right|left; exists n; exact H1].
    intros (n' & H3). destruct (range_spec_inj _ _ _ _ _ H1 H3) as [_ ?]. discriminate.
Qed.

(** Up to the first tuple with a specification for its elements. *)
Lemma walk_prefix tys T n its ns e : walks (field_end (length T)) tys T n its ns e ->
  (skipn n T = text_of its ++ e /\ Forall item_ok its /\ Forall2 (fun n spec => exists t, nth_error tys n = Some t /\ field_spec t spec) ns (field_specs its)) \/
  exists its1 its2 ns1 ns2 index colon sp rest k t,
    its = its1 ++ Field index colon sp :: its2 /\ ns = ns1 ++ k :: ns2 /\ skipn n T = text_of (its1 ++ [Field index colon sp]) ++ rest /\
    Forall item_ok (its1 ++ [Field index colon sp]) /\
    Forall2 (fun n spec => exists t, nth_error tys n = Some t /\ field_spec t spec) (ns1 ++ [k]) (field_specs (its1 ++ [Field index colon sp])) /\
    nth_error tys k = Some t /\ ~ bare_tuples t sp.
Proof.
  induction 1 as [n e HS|n i rest its ns e Hi HS HW IH|n index colon sp rest its k ns e t q Hi HS HN HFS HEnd HW IH].
  - left. split; [exact HS|]. split; constructor.
  - assert (HR := skip_part _ _ _ _ HS). assert (HO : item_ok i) by (destruct i; [exact Hi|exact Hi|contradiction]).
    assert (HFl : forall l, field_specs (i :: l) = field_specs l) by (intros l; destruct i; [reflexivity|reflexivity|contradiction]).
    destruct IH as [(H1 & H2 & H3)|(its1 & its2 & ns1 & ns2 & index & colon & sp & rest' & k & t & -> & -> & H3 & H4 & H5 & H6 & H7)]; [left|right].
    + split; [|split; [constructor; assumption|rewrite HFl; exact H3]]. rewrite HS. cbn [text_of flat_map]. rewrite <- app_assoc. f_equal. rewrite <- HR. exact H1.
    + exists (i :: its1), its2, ns1, ns2, index, colon, sp, rest', k, t. split; [reflexivity|]. split; [reflexivity|]. split; [|split; [cbn [app]; constructor; assumption|split; [cbn [app]; rewrite HFl; exact H5|auto]]].
      rewrite HS. cbn [app text_of flat_map]. rewrite <- app_assoc. f_equal. rewrite <- HR. exact H3.
  - assert (HR := skip_part _ _ _ _ HS). destruct (bare_or_not t sp HFS) as [HBare|HBare].
    + assert (EQ : q = (n + length (item_text (Field index colon sp)))%nat).
      { rewrite (field_end_unique _ _ _ _ _ _ HFS HEnd (bare_field_end _ _ _ _ HBare HFS)). cbn [item_text]. rewrite !app_length. cbn [length]. destruct colon; cbn [length]; lia. }
      subst q. destruct IH as [(H1 & H2 & H3)|(its1 & its2 & ns1 & ns2 & index' & colon' & sp' & rest' & k' & t' & -> & -> & H3 & H4 & H5 & H6 & H7)]; [left|right].
      * split; [|split; [constructor; assumption|cbn [field_specs flat_map app]; fold (field_specs its); constructor; eauto]]. rewrite HS. cbn [text_of flat_map]. rewrite <- app_assoc. f_equal. rewrite <- HR. exact H1.
      * exists (Field index colon sp :: its1), its2, (k :: ns1), ns2, index', colon', sp', rest', k', t'. split; [reflexivity|]. split; [reflexivity|]. split; [|split; [cbn [app]; constructor; assumption|split; [|auto]]].
        -- rewrite HS. cbn [app text_of flat_map]. rewrite <- app_assoc. f_equal. rewrite <- HR. exact H3.
        -- cbn [app field_specs flat_map]. constructor; [eauto|exact H5].
    + right. exists [], its, [], ns, index, colon, sp, rest, k, t. split; [reflexivity|]. split; [reflexivity|]. cbn [app]. split; [rewrite HS; cbn [text_of flat_map]; now rewrite app_nil_r|].
      split; [constructor; [exact Hi|constructor]|]. split; [cbn [field_specs flat_map app]; constructor; [eauto|constructor]|auto].
Qed.
