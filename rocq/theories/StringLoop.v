(** Proofs about Format.v: the strings that are accepted. *)
From Verif Require Import Base Conversion Reader Buffer Writer Bitset Specs FormatArg FloatArg Format.
From Verif Require Import Lib SpecNum SpecReader SpecEscape SpecFloat SpecFormat SpecDecimal SpecField SpecSpecs SpecString.
From Verif Require Import ConversionProofs ReaderProofs SpecsProofs BitsetProofs StringProofs.

(** ** Text between fields *)
Definition plain_item (i : item) : Prop := match i with Field _ _ _ => False | _ => item_ok i end.

Lemma plain_ok its : Forall plain_item its -> Forall item_ok its.
Proof. apply Forall_impl. intros []; cbn; tauto. Qed.
Lemma text_of_app a b : text_of (a ++ b) = text_of a ++ text_of b.
Proof. apply flat_map_app. Qed.
Lemma text_of_length its : Forall plain_item its -> (length its <= length (text_of its))%nat.
Proof. induction 1 as [|[] its H]; cbn [length text_of flat_map item_text app]; [lia| | |contradiction]; unfold text_of in *; lia. Qed.

Lemma nth_skip {A} (l : list A) n : nth_error l n = match skipn n l with [] => None | x :: _ => Some x end.
Proof. revert l. induction n as [|n IH]; intros [|x l]; cbn; auto. Qed.
Lemma skip_succ {A} n (T : list A) c l : skipn n T = c :: l -> skipn (S n) T = l.
Proof. intros H. replace (S n) with (n + 1)%nat by lia. rewrite <- skipn_skipn_nat, H. reflexivity. Qed.

Lemma check_text_skip its : forall fuel T n rest, Forall plain_item its -> skipn n T = text_of its ++ rest -> (length its <= fuel)%nat ->
  check_text fuel (mk_reader T n) = check_text (fuel - length its) (mk_reader T (n + length (text_of its))).
Proof.
  induction its as [|i its IH]; intros fuel T n rest HF HS HL; [cbn [length text_of flat_map]; now rewrite Nat.sub_0_r, Nat.add_0_r|].
  inversion HF as [|? ? Hi HF']; subst. destruct fuel as [|fuel]; [cbn in HL; lia|]. cbn [length] in HL. cbn [length Nat.sub].
  destruct i as [c|c|]; [| |contradiction]; cbn [plain_item item_ok] in Hi; cbn [text_of flat_map item_text app] in HS; cbn [check_text rtext rpos].
  - rewrite nth_skip, HS. change ch_lbrace with 123. change ch_rbrace with 125. unfold is_brace in Hi. replace (c =? 123) with false by lia. replace (c =? 125) with false by lia.
    unfold set_pos. cbn [rtext]. rewrite (IH fuel T (S n) rest HF'); [|apply (skip_succ _ _ _ _ HS)|lia]. f_equal. f_equal. cbn [text_of flat_map item_text app length]. fold (text_of its). lia.
  - assert (H2 := skip_succ _ _ _ _ HS). assert (H3 := skip_succ _ _ _ _ H2).
    rewrite nth_skip, HS. change ch_lbrace with 123. change ch_rbrace with 125. destruct Hi as [-> | ->]; (rewrite nth_skip, H2; change (123 =? 123) with true; change (125 =? 123) with false; change (125 =? 125) with true; cbv iota);
    unfold set_pos; cbn [rtext]; (rewrite (IH fuel T (S (S n)) rest HF'); [|exact H3|lia]); f_equal; f_equal; cbn [text_of flat_map item_text app length]; fold (text_of its); lia.
Qed.

(** What follows the text: nothing, a field, or a brace that is wrong. *)
Inductive text_end : list Z -> Prop :=
| end_nothing : text_end []
| end_field c l : c <> 123 -> text_end (123 :: c :: l)
| end_open : text_end [123]
| end_close l : (forall x t, l = x :: t -> x <> 125) -> text_end (125 :: l).
Lemma split_text s : exists its rest, s = text_of its ++ rest /\ Forall plain_item its /\ text_end rest.
Proof.
  assert (X : forall k s, (length s <= k)%nat -> exists its rest, s = text_of its ++ rest /\ Forall plain_item its /\ text_end rest).
  { clear s. induction k as [|k IH]; intros s HL.
    - destruct s; [|cbn in HL; lia]. exists [], []. repeat constructor.
    - destruct s as [|c s]; [exists [], []; repeat constructor|]. cbn [length] in HL.
      destruct (Z.eq_dec c 123) as [->|N1]; [|destruct (Z.eq_dec c 125) as [->|N2]].
      + destruct s as [|c s]; [exists [], [123]; repeat constructor|]. destruct (Z.eq_dec c 123) as [->|N].
        * cbn [length] in HL. destruct (IH s ltac:(lia)) as (its & rest & -> & HF & HE). exists (Brace 123 :: its), rest. split; [reflexivity|]. split; [|exact HE]. constructor; [now left|exact HF].
        * exists [], (123 :: c :: s). split; [reflexivity|]. split; constructor. exact N.
      + destruct s as [|c s]; [exists [], [125]; split; [reflexivity|]; split; constructor; discriminate|]. destruct (Z.eq_dec c 125) as [->|N].
        * cbn [length] in HL. destruct (IH s ltac:(lia)) as (its & rest & -> & HF & HE). exists (Brace 125 :: its), rest. split; [reflexivity|]. split; [|exact HE]. constructor; [now right|exact HF].
        * exists [], (125 :: c :: s). split; [reflexivity|]. split; constructor. intros x t [= <- _]. exact N.
      + destruct (IH s ltac:(lia)) as (its & rest & -> & HF & HE). exists (Literal c :: its), rest. split; [reflexivity|]. split; [|exact HE]. constructor; [|exact HF]. intros [H|H]; contradiction. }
  exact (X (length s) s (Nat.le_refl _)).
Qed.

Definition text_result (T : list Z) (n : nat) (rest : list Z) : outcome bool * reader :=
  match rest with
  | [] => (Ok false, mk_reader T n)
  | 123 :: _ :: _ => (Ok true, mk_reader T (S n))
  | _ => (Err invalid_format, mk_reader T (S n))
  end.
Lemma check_text_at fuel T n its rest : Forall plain_item its -> skipn n T = text_of its ++ rest -> text_end rest -> (length T < fuel)%nat ->
  check_text fuel (mk_reader T n) = text_result T (n + length (text_of its)) rest.
Proof.
  intros HF HS HE HL. assert (L := text_of_length its HF). assert (LT := f_equal (@length Z) HS). rewrite skipn_length, app_length in LT.
  rewrite (check_text_skip its fuel T n rest HF HS) by lia. assert (HR := skip_part _ _ _ _ HS).
  destruct (fuel - length its)%nat as [|f] eqn:EF; [lia|]. set (p := (n + length (text_of its))%nat) in *. clearbody p. clear HS HF L LT EF HL.
  cbn [check_text rtext rpos]. rewrite nth_skip, HR. change ch_lbrace with 123. change ch_rbrace with 125. destruct HE as [|c l N| |l N]; [reflexivity| | |].
  - change (123 =? 123) with true. cbv iota. rewrite nth_skip, (skip_succ _ _ _ _ HR). replace (c =? 123) with false by lia. reflexivity.
  - change (123 =? 123) with true. cbv iota. rewrite nth_skip, (skip_succ _ _ _ _ HR). reflexivity.
  - change (125 =? 123) with false. change (125 =? 125) with true. cbv iota. rewrite nth_skip, (skip_succ _ _ _ _ HR). destruct l as [|x t]; [reflexivity|].
    assert (X := N x t eq_refl). replace (x =? 125) with false by lia. reflexivity.
Qed.

(** ** Accepted strings *)

(** A field with the number 255 ends the string wherever it is. *)
Definition cut_text (use : option bool) (s : list Z) : Prop := use <> Some false /\ field_255 s.

(** From position [n] on the string consists of [its] and [e]. *)
Inductive acc (tys : list fty) (T : list Z) : nat -> option bool -> nat -> list item -> list nat -> list Z -> Prop :=
| acc_end n use inc its e : Forall plain_item its -> skipn n T = text_of its ++ e -> e = [] \/ cut_text use e -> acc tys T n use inc its [] e
| acc_field n use inc lits index colon sp rest its k ns e use' inc' t p :
    Forall plain_item lits -> skipn n T = text_of lits ++ text_of [Field index colon sp] ++ rest -> (colon = false -> sp = [125]) ->
    picks use inc index (Z.of_nat k) use' inc' -> (k < 128)%nat -> nth_error tys k = Some t -> field_spec t sp ->
    p = (n + length (text_of lits) + 1 + length index + length (colon_text colon))%nat -> skipn p T = sp ++ rest ->
    parses t T p sp -> validate_fty t (mk_reader T p) = (Ok tt, mk_reader T (p + length sp)) ->
    acc tys T (p + length sp) use' inc' its ns e ->
    acc tys T n use inc (lits ++ Field index colon sp :: its) (k :: ns) e.

Lemma field_spec_cons t sp : field_spec t sp -> exists c l, sp = c :: l.
Proof. intros H. apply field_spec_end in H. destruct H as ([|c x] & -> & _); cbn; eauto. Qed.

Lemma field_text index colon sp : text_of [Field index colon sp] = 123 :: index ++ colon_text colon ++ sp.
Proof. cbn [text_of flat_map item_text app]. now rewrite app_nil_r. Qed.

Lemma not_open (index : list Z) colon sp rest : (index = [] \/ digits_text index) -> (colon = false -> sp = [125]) ->
  exists c l, index ++ colon_text colon ++ sp ++ rest = c :: l /\ c <> 123.
Proof.
  intros HI HC. destruct HI as [-> |[HN HF]].
  - destruct colon; cbn; [do 2 eexists; split; [reflexivity|lia]|]. rewrite HC by reflexivity. cbn. do 2 eexists. split; [reflexivity|lia].
  - destruct index as [|c index]; [congruence|]. cbn. do 2 eexists. split; [reflexivity|]. inversion HF; lia.
Qed.

Theorem validate_loop_sound tys T : Forall is_byte T -> Forall tuple_free tys -> forall fuel n use inc b,
  bs_ok b -> bs_bits b = 128%nat -> (inc <= 128)%nat ->
  validate_loop fuel tys (mk_reader T n) use (Z.of_nat inc) b = Ok true ->
  exists its ns e, acc tys T n use inc its ns e /\ (length tys <= 128)%nat /\ forall k, (k < length tys)%nat -> bit (bs_words b) k = true \/ In k ns.
Proof.
  intros HB HTF. induction fuel as [|fuel IH]; intros n use inc b HBS H128 HI H; [discriminate|]. cbn [validate_loop rtext] in H.
  destruct (split_text (skipn n T)) as (lits & rest & HS & HF & HE). rewrite (check_text_at _ T n lits rest HF HS HE (Nat.lt_succ_diag_r _)) in H.
  assert (AF : bitset_all_first b (length tys) = Ok true -> (length tys <= 128)%nat /\ forall k, (k < length tys)%nat -> bit (bs_words b) k = true).
  { intros X. destruct (all_first_ok b (length tys) HBS) as (q & EQ & HQ). rewrite EQ in X. injection X as ->. destruct HQ as [HQ _]. rewrite H128 in HQ. exact (HQ eq_refl). }
  destruct HE as [|c l N| |l N]; cbn [text_result] in H; try discriminate.
  { destruct (AF H) as [A1 A2]. exists lits, [], []. split; [constructor; auto|]. split; [exact A1|]. intros k HK. left. auto. }
  set (p0 := S (n + length (text_of lits))) in *.
  assert (HP0 : skipn p0 T = c :: l) by (unfold p0; apply (skip_succ _ _ 123); apply (skip_part _ _ _ _ HS)).
  destruct (check_field (mk_reader T p0) use (Z.of_nat inc)) as [[[[k use'] inc']|?| |] r'] eqn:EC; try discriminate.
  destruct (check_field_inv T p0 use inc k use' inc' r' HB ltac:(lia) EC) as (index & colon & l' & i & HS' & HP & -> & HK & ->).
  assert (HIX : index = [] \/ digits_text index) by (destruct HP; tauto).
  set (p := (p0 + length index + length (colon_text colon))%nat) in *.
  assert (HSP : skipn p T = if colon then l' else 125 :: l').
  { unfold p. rewrite <- Nat.add_assoc, <- app_length. rewrite app_assoc in HS'. apply (skip_part _ _ _ _ HS'). }
  change no_more_args with 255 in H. destruct (k =? 255) eqn:EK.
  - assert (k = 255) as -> by lia. destruct (AF H) as [A1 A2]. exists lits, [], (123 :: c :: l). split; [|split; [exact A1|intros k HK'; left; auto]].
    constructor; [exact HF|exact HS|]. right. destruct HP as [(-> & _ & X & _)|(HD & HU & X & _)]; [lia|]. split; [exact HU|].
    exists index, (if colon then 58 else 125), l'. split; [|auto 6]. f_equal. rewrite <- HP0, HS'. destruct colon; reflexivity. destruct colon; auto.
  - destruct (Z.of_nat (length tys) <=? k) eqn:EL; [discriminate|]. destruct (bitset_set b (Z.to_nat k)) as [b'| | |] eqn:EB; try discriminate. cbn [bind] in H.
    assert (HK2 : (Z.to_nat k < 128)%nat).
    { unfold bitset_set in EB. rewrite H128 in EB. destruct (128 <=? Z.to_nat k)%nat eqn:E; [discriminate|lia]. }
    destruct (nth_error tys (Z.to_nat k)) as [t|] eqn:EN; [|discriminate].
    destruct (validate_fty t (mk_reader T p)) as [[[]|?| |] r'] eqn:EV; try discriminate.
    assert (HT : tuple_at t T p) by (left; rewrite Forall_forall in HTF; apply HTF; eapply nth_error_In; eauto).
    destruct (validate_fty_sound t T p r' HB HT EV) as (sp & rest & H1 & H2 & -> & H4).
    destruct (set_ok b (Z.to_nat k) HBS ltac:(lia)) as (b2 & EB2 & HB2 & L2 & W2). rewrite EB in EB2. injection EB2 as <-.
    assert (HI' : (i <= 128)%nat) by (destruct HP as [(_ & _ & X & _ & ->)|(_ & _ & _ & _ & ->)]; lia).
    destruct (IH (p + length sp)%nat use' i b' HB2 ltac:(lia) HI' H) as (its & ns & e & HA & HL & HCov).
    exists (lits ++ Field index colon sp :: its), (Z.to_nat k :: ns), e. split; [|split; [exact HL|]].
    + assert (HCS : colon = false -> sp = [125]).
      { intros ->. rewrite H1 in HSP. destruct (field_spec_end t sp H2) as (x & -> & HX). destruct x as [|x0 x]; [reflexivity|]. cbn in HSP. injection HSP as -> _. exfalso. apply HX. now left. }
      apply (acc_field tys T n use inc lits index colon sp rest its (Z.to_nat k) ns e use' i t p); auto; try (rewrite ?Z2Nat.id by lia; assumption).
      * rewrite field_text, HS. f_equal. cbn [app]. f_equal. rewrite <- !app_assoc, <- HP0, HS'. f_equal. f_equal. rewrite <- H1, HSP. reflexivity.
      * unfold p, p0. lia.
    + intros j HJ. destruct (HCov j HJ) as [X|X]; [|right; now right]. apply W2 in X. destruct X as [X| ->]; [now left|right; now left].
Qed.

Theorem validate_loop_complete tys T : Forall is_byte T -> (length tys <= 128)%nat -> forall n use inc its ns e, acc tys T n use inc its ns e -> forall fuel b,
  bs_ok b -> bs_bits b = 128%nat -> (inc <= 128)%nat -> (length T - n < fuel)%nat ->
  (forall k, (k < length tys)%nat -> bit (bs_words b) k = true \/ In k ns) ->
  validate_loop fuel tys (mk_reader T n) use (Z.of_nat inc) b = Ok true.
Proof.
  intros HB HL n use inc its ns e HA. induction HA as [n use inc its e HF HS HE|n use inc lits index colon sp rest its k ns e use' inc' t p HF HS HC HP HK HN HFS Hp HSP HPar HV HA IH];
    intros fuel b HBS H128 HI HFu HCov; (destruct fuel as [|fuel]; [lia|]); cbn [validate_loop rtext].
  - assert (AF : bitset_all_first b (length tys) = Ok true).
    { destruct (all_first_ok b (length tys) HBS) as (q & -> & _ & HQ). f_equal. apply HQ. rewrite H128. split; [exact HL|]. intros i Hi. destruct (HCov i Hi) as [X|[]]. exact X. }
    destruct HE as [-> |(HU & index & c & r & -> & HD & H255 & HC)].
    + rewrite (check_text_at _ T n its [] HF HS end_nothing (Nat.lt_succ_diag_r _)). cbn [text_result]. exact AF.
    + assert (HE : text_end (123 :: index ++ c :: r)).
      { destruct HD as [HN HDF]. destruct index as [|d index]; [congruence|]. cbn [app]. constructor. inversion HDF; lia. }
      rewrite (check_text_at _ T n its _ HF HS HE (Nat.lt_succ_diag_r _)). set (p0 := (n + length (text_of its))%nat).
      assert (HTR : text_result T p0 (123 :: index ++ c :: r) = (Ok true, mk_reader T (S p0))) by (destruct index; reflexivity). rewrite HTR.
      assert (HP0 : skipn (S p0) T = index ++ colon_text (c =? 58) ++ (if c =? 58 then r else 125 :: r)).
      { rewrite (skip_succ p0 T 123 (index ++ c :: r)) by apply (skip_part _ _ _ _ HS). f_equal. destruct HC as [-> | ->]; reflexivity. }
      rewrite (check_field_fwd T (S p0) use inc 255 (Some true) inc index (c =? 58) r HB ltac:(lia) HP0); [|right; auto|lia]. cbv iota.
      change (255 =? no_more_args) with true. cbv iota. exact AF.
  - assert (HIX : index = [] \/ digits_text index) by (destruct HP; tauto).
    rewrite field_text in HS. cbn [app] in HS. rewrite <- !app_assoc in HS.
    assert (LT := f_equal (@length Z) HS). rewrite skipn_length, app_length in LT. cbn [length] in LT. rewrite !app_length in LT.
    destruct (not_open index colon sp rest HIX HC) as (c & l & EO & NO).
    rewrite (check_text_at _ T n lits (123 :: c :: l) HF); [|rewrite HS, EO; reflexivity|now constructor|lia]. cbn [text_result].
    set (p0 := (n + length (text_of lits))%nat) in *.
    assert (HP0 : skipn (S p0) T = index ++ colon_text colon ++ (if colon then (if colon then sp ++ rest else rest) else 125 :: (if colon then sp ++ rest else rest))).
    { rewrite (skip_succ p0 T 123 (index ++ colon_text colon ++ sp ++ rest)) by apply (skip_part _ _ _ _ HS). f_equal. f_equal. destruct colon; [reflexivity|]. now rewrite HC by reflexivity. }
    assert (KB : (k < length tys)%nat) by (apply nth_error_Some; congruence).
    assert (HI2 : (inc <= 254)%nat) by lia. assert (HK2 : Z.of_nat k <= 255) by lia.
    rewrite (check_field_fwd T (S p0) use inc (Z.of_nat k) use' inc' index colon _ HB HI2 HP0 HP HK2).
    replace (S p0 + length index + length (colon_text colon))%nat with p by (unfold p0 in *; lia). change no_more_args with 255.
    replace (Z.of_nat k =? 255) with false by lia. replace (Z.of_nat (length tys) <=? Z.of_nat k) with false by lia. rewrite Nat2Z.id.
    destruct (set_ok b k HBS ltac:(lia)) as (b2 & -> & HB2 & L2 & W2). cbn [bind]. rewrite HN, HV.
    apply IH; try assumption; try lia.
    + destruct HP as [(_ & _ & X & _ & ->)|(_ & _ & _ & _ & ->)]; lia.
    + intros j HJ. destruct (HCov j HJ) as [X|[-> |X]]; [left; apply W2; now left|left; apply W2; now right|now right].
Qed.

(** The parts that formatting needs; reading goes on at any later position. *)
Definition parses_to (t : fty) (T : list Z) (n : nat) (sp : list Z) (q : nat) : Prop :=
  forall d bs, (d = Some true -> sp = [125]) ->
  exists m, parse_with d (fresh t bs) (mk_reader T n) = (Ok m, mk_reader T q) /\
            fmtr_for (match d with Some true => true | _ => false end) bs t sp m.
Inductive pacc (tys : list fty) (T : list Z) : nat -> option bool -> nat -> list item -> list nat -> list Z -> Prop :=
| pacc_end n use inc its e : Forall plain_item its -> skipn n T = text_of its ++ e -> e = [] \/ cut_text use e -> pacc tys T n use inc its [] e
| pacc_field n use inc lits index colon sp rest its k ns e use' inc' t p q :
    Forall plain_item lits -> skipn n T = text_of lits ++ text_of [Field index colon sp] ++ rest -> (colon = false -> sp = [125]) ->
    picks use inc index (Z.of_nat k) use' inc' -> (k < 128)%nat -> nth_error tys k = Some t -> field_spec t sp ->
    p = (n + length (text_of lits) + 1 + length index + length (colon_text colon))%nat -> skipn p T = sp ++ rest ->
    parses_to t T p sp q -> (p < q <= length T)%nat ->
    pacc tys T q use' inc' its ns e ->
    pacc tys T n use inc (lits ++ Field index colon sp :: its) (k :: ns) e.
Lemma acc_pacc tys T n use inc its ns e : acc tys T n use inc its ns e -> pacc tys T n use inc its ns e.
Proof.
  induction 1 as [n use inc its e HF HS HE|n use inc lits index colon sp rest its k ns e use' inc' t p HF HS HC HP HK HN HFS Hp HSP HPar HV HA IH]; [now constructor|].
  apply (pacc_field tys T n use inc lits index colon sp rest its k ns e use' inc' t p (p + length sp)); auto.
  destruct (field_spec_cons t sp HFS) as (c1 & l1 & ->). assert (Y := f_equal (@length Z) HSP). rewrite skipn_length, app_length in Y. cbn [length] in *. lia.
Qed.

(** ** Accepted strings are well-formed *)
Lemma acc_text tys T n use inc its ns e : acc tys T n use inc its ns e -> skipn n T = text_of its ++ e.
Proof.
  induction 1 as [n use inc its e HF HS HE|n use inc lits index colon sp rest its k ns e use' inc' t p HF HS HC HP HK HN HFS Hp HSP HPar HV HA IH]; [exact HS|].
  rewrite (skip_part _ _ _ _ HSP) in IH. subst rest. rewrite HS, text_of_app, <- app_assoc. f_equal. change (Field index colon sp :: its) with ([Field index colon sp] ++ its).
  now rewrite text_of_app, <- app_assoc.
Qed.
Lemma acc_items tys T n use inc its ns e : acc tys T n use inc its ns e -> Forall item_ok its /\
  Forall2 (fun n spec => exists t, nth_error tys n = Some t /\ field_spec t spec) ns (field_specs its).
Proof.
  assert (PF : forall lits r, Forall plain_item lits -> field_specs (lits ++ r) = field_specs r).
  { intros lits r HF. unfold field_specs. rewrite flat_map_app. replace (flat_map _ lits) with (@nil (list Z)); [reflexivity|]. induction HF as [|[]]; [reflexivity|assumption|assumption|contradiction]. }
  induction 1 as [n use inc its e HF HS HE|n use inc lits index colon sp rest its k ns e use' inc' t p HF HS HC HP HK HN HFS Hp HSP HPar HV HA IH].
  - split; [now apply plain_ok|]. rewrite <- (app_nil_r its), PF by exact HF. constructor.
  - split.
    + apply Forall_app. split; [now apply plain_ok|]. constructor; [|apply IH]. split; [destruct HP; tauto|exact HC].
    + rewrite PF by exact HF. constructor; [eauto|apply IH].
Qed.
Lemma plain_indices lits r : Forall plain_item lits -> indices (lits ++ r) = indices r.
Proof.
  intros HF. unfold indices. rewrite flat_map_app. replace (flat_map _ lits) with (@nil (list Z)); [reflexivity|]. induction HF as [|[]]; [reflexivity|assumption|assumption|contradiction].
Qed.
Lemma acc_numbers tys T n use inc its ns e : acc tys T n use inc its ns e ->
  (use <> Some true /\ Forall (fun i => i = []) (indices its) /\ ns = seq inc (length (indices its))) \/
  (use <> Some false /\ Forall2 (fun i n => digits_text i /\ denotes 10 i = Z.of_nat n) (indices its) ns).
Proof.
  induction 1 as [n use inc its e HF HS HE|n use inc lits index colon sp rest its k ns e use' inc' t p HF HS HC HP HK HN HFS Hp HSP HPar HV HA IH].
  - rewrite <- (app_nil_r its), plain_indices by exact HF. cbn. destruct use as [[]|]; [right|left|left]; repeat split; try discriminate; constructor.
  - rewrite plain_indices by exact HF. cbn [indices flat_map app length]. fold (indices its).
    destruct HP as [(-> & HU & HKI & -> & ->)|(HD & HU & HKI & -> & ->)].
    + left. destruct IH as [(_ & H1 & H2)|(X & _)]; [|congruence]. split; [exact HU|]. split; [constructor; auto|]. cbn [seq]. f_equal; [lia|exact H2].
    + right. destruct IH as [(X & _)|(_ & H1)]; [congruence|]. split; [exact HU|]. constructor; [split; [exact HD|now symmetry]|exact H1].
Qed.
Lemma acc_cut tys T n use inc its ns e : acc tys T n use inc its ns e -> e = [] \/ (field_255 e /\ use <> Some false /\ Forall digits_text (indices its)).
Proof.
  induction 1 as [n use inc its e HF HS HE|n use inc lits index colon sp rest its k ns e use' inc' t p HF HS HC HP HK HN HFS Hp HSP HPar HV HA IH].
  - destruct HE as [HE|[HU HE]]; [now left|right]. split; [exact HE|]. split; [exact HU|]. rewrite <- (app_nil_r its), plain_indices by exact HF. constructor.
  - destruct IH as [IH|(H1 & H2 & H3)]; [now left|right]. split; [exact H1|]. rewrite plain_indices by exact HF.
    destruct HP as [(-> & HU & HKI & -> & ->)|(HD & HU & HKI & -> & ->)]; [congruence|]. split; [exact HU|]. cbn. constructor; assumption.
Qed.
Lemma acc_good tys T its ns e : acc tys T 0 None 0 its ns e -> T = text_of its ++ e /\ good_items tys its ns.
Proof.
  intros H. split; [exact (acc_text _ _ _ _ _ _ _ _ H)|]. destruct (acc_items _ _ _ _ _ _ _ _ H) as [H1 H2]. split; [exact H1|]. split; [|exact H2].
  destruct (acc_numbers _ _ _ _ _ _ _ _ H) as [(_ & H3 & H4)|(_ & H3)]; [left|right]; auto.
Qed.

(** ** Well-formed strings are accepted *)
Lemma acc_plain tys T n use inc i its ns e : plain_item i -> skipn n T = item_text i ++ text_of its ++ e ->
  acc tys T (n + length (item_text i)) use inc its ns e -> acc tys T n use inc (i :: its) ns e.
Proof.
  intros HI HS H. inversion H as [? ? ? ? ? HF HS' HE|? ? ? lits index colon sp rest its' k ns' ? use' inc' t p HF HS' HC HP HK HN HFS Hp HSP HPar HV HA]; subst.
  - constructor; [constructor; assumption| |exact HE]. rewrite HS. cbn [text_of flat_map]. now rewrite <- app_assoc.
  - change (i :: lits ++ Field index colon sp :: its') with ((i :: lits) ++ Field index colon sp :: its').
    assert (L : (length (text_of (i :: lits)) = length (item_text i) + length (text_of lits))%nat) by (cbn [text_of flat_map]; now rewrite app_length).
    eapply (acc_field _ _ _ _ _ (i :: lits) index colon sp rest its' k ns' e use' inc' t); try eassumption.
    + constructor; assumption.
    + rewrite HS. rewrite (skip_part _ _ _ _ HS) in HS'. cbn [text_of flat_map]. rewrite <- app_assoc. f_equal. exact HS'.
    + rewrite L. lia.
Qed.

Definition next_use (use : option bool) (index : list Z) : option bool := match index with [] => Some false | _ => Some true end.
Definition next_inc (inc : nat) (index : list Z) : nat := match index with [] => S inc | _ => inc end.

Lemma good_acc tys T e : Forall is_byte T -> (length tys <= 128)%nat -> (e = [] \/ Forall tuple_free tys) ->
  forall its n use inc ns, skipn n T = text_of its ++ e -> Forall item_ok its ->
  Forall2 (fun n spec => exists t, nth_error tys n = Some t /\ field_spec t spec) ns (field_specs its) ->
  Forall small_numbers (field_specs its) -> tuples_last tys its ns ->
  ((use <> Some true /\ Forall (fun i => i = []) (indices its) /\ ns = seq inc (length (indices its))) \/
   (use <> Some false /\ Forall2 (fun i n => digits_text i /\ denotes 10 i = Z.of_nat n) (indices its) ns)) ->
  (e = [] \/ (field_255 e /\ use <> Some false /\ Forall digits_text (indices its))) ->
  acc tys T n use inc its ns e.
Proof.
  intros HB HL HTE. induction its as [|i its IH]; intros n use inc ns HS HF H2 HSm HTL HNum HE.
  - cbn in H2. inversion H2; subst. constructor; [constructor|exact HS|]. destruct HE as [HE|(H & HU & _)]; [now left|right]. split; assumption.
  - inversion HF as [|? ? Hi HF']; subst. destruct i as [c|c|index colon sp].
    + apply acc_plain; [exact Hi|cbn [text_of flat_map] in HS; rewrite HS, <- app_assoc; reflexivity|]. apply IH; try assumption. cbn [text_of flat_map] in HS. rewrite <- app_assoc in HS. apply (skip_part _ _ _ _ HS).
    + apply acc_plain; [exact Hi|cbn [text_of flat_map] in HS; rewrite HS, <- app_assoc; reflexivity|]. apply IH; try assumption. cbn [text_of flat_map] in HS. rewrite <- app_assoc in HS. apply (skip_part _ _ _ _ HS).
    + cbn [field_specs flat_map app] in H2. fold (field_specs its) in H2. inversion H2 as [|k ? ns' ? (t & HT & HFS) H2']; subst. cbn [tuples_last] in HTL. destruct HTL as [HT1 HT2]. cbn [item_ok] in Hi. destruct Hi as [HI HC].
      assert (HS' : skipn n T = text_of [Field index colon sp] ++ text_of its ++ e) by (rewrite HS; change (Field index colon sp :: its) with ([Field index colon sp] ++ its); now rewrite text_of_app, <- app_assoc).
      set (p := (n + 1 + length index + length (colon_text colon))%nat).
      assert (HSP : skipn p T = sp ++ text_of its ++ e).
      { rewrite field_text in HS'. unfold p. replace (n + 1 + length index + length (colon_text colon))%nat with (n + length (123%Z :: index ++ colon_text colon))%nat by (cbn [length]; rewrite app_length; lia).
        refine (skip_part _ _ (123 :: index ++ colon_text colon) _ _). rewrite HS'. cbn [app]. now rewrite <- !app_assoc. }
      assert (KB : (k < length tys)%nat) by (apply nth_error_Some; congruence).
      assert (HTA : tuple_at t T p).
      { destruct HT1 as [-> |HT1]; [|left; auto]. destruct HTE as [-> |HTE]; [|left; rewrite Forall_forall in HTE; apply HTE; eapply nth_error_In; eauto].
        right. cbn [text_of flat_map app] in HSP. rewrite app_nil_r in HSP. rewrite HSP. now apply (field_spec_end t). }
      cbn [field_specs flat_map app] in HSm. fold (field_specs its) in HSm. inversion HSm as [|? ? HSS HSm']; subst.
      assert (HV := validate_fty_complete t T p sp _ HB HTA HSP HFS HSS).
      assert (HPar : parses t T p sp).
      { destruct (validate_fty_sound t T p _ HB HTA HV) as (sp' & rest' & H3 & H4 & H5 & H6). injection H5 as H5. assert (LE : length sp' = length sp) by lia.
        rewrite HSP in H3. replace sp with sp'; [exact H6|]. assert (X := f_equal (firstn (length sp)) H3). rewrite firstn_app_exact in X by reflexivity. rewrite <- LE, firstn_app_exact in X by reflexivity. now symmetry. }
      assert (HPk : picks use inc index (Z.of_nat k) (next_use use index) (next_inc inc index)).
      { cbn [indices flat_map app length] in HNum. destruct HNum as [(HU & HN1 & HN2)|(HU & HN1)].
        - inversion HN1; subst. cbn [seq] in HN2. injection HN2 as HN2 _. left. subst. auto 6.
        - inversion HN1 as [|? ? ? ? [HD1 HD2] _]; subst. right. destruct HD1 as [HD0 HD1]. destruct index as [|d index]; [congruence|]. cbn [next_use next_inc]. split; [split; assumption|]. auto. }
      change (Field index colon sp :: its) with ([] ++ Field index colon sp :: its).
      apply (acc_field tys T n use inc [] index colon sp (text_of its ++ e) its k ns' e (next_use use index) (next_inc inc index) t p); auto; try lia.
      * unfold p. cbn [text_of flat_map length]. lia.
      * apply IH; try assumption.
        -- apply (skip_part _ _ _ _ HSP).
        -- cbn [indices flat_map app length] in HNum. fold (indices its) in HNum. destruct HNum as [(HU & HN1 & HN2)|(HU & HN1)]; [left|right].
           ++ inversion HN1; subst. cbn [seq] in HN2. injection HN2 as _ HN2. cbn [next_use next_inc]. split; [discriminate|]. auto.
           ++ inversion HN1 as [|? ? ? ? [[HD0 _] _] HN3]; subst. split; [|exact HN3]. destruct index; [congruence|discriminate].
        -- destruct HE as [HE|(H1 & H3 & H4)]; [now left|right]. split; [exact H1|]. cbn in H4. inversion H4 as [|? ? [HD0 _] H6]; subst. split; [|exact H6]. destruct index; [congruence|discriminate].
Qed.

(** ** Validation ends without undefined behaviour *)
Definition settled {A} (r : reader) (x : outcome A * reader) : Prop :=
  match x with
  | (Ok _, r') | (Err _, r') => rwf r' /\ rtext r' = rtext r
  | _ => False
  end.
Lemma settled_bind {A B} r (x : outcome A * reader) (k : A -> reader -> outcome B * reader) :
  settled r x -> (forall a r', rwf r' -> rtext r' = rtext r -> settled r (k a r')) -> settled r (sbind x k).
Proof. destruct x as [[a|e| |] r']; cbn; intros H HK; try contradiction; [apply HK; tauto|exact H]. Qed.
Lemma settled_ok {A} r r' (a : A) : rwf r' -> rtext r' = rtext r -> settled r (Ok a, r').
Proof. cbn. auto. Qed.
Lemma settled_err {A} r r' e : rwf r' -> rtext r' = rtext r -> settled (A := A) r (Err e, r').
Proof. cbn. auto. Qed.
Lemma pop_wf r n : rwf r -> rwf (pop r n) /\ rtext (pop r n) = rtext r.
Proof. unfold pop, rwf, set_pos, cnt_remaining. destruct (_ <=? _)%nat eqn:E; cbn; (split; [lia|reflexivity]). Qed.
Lemma unpop_wf r n : rwf r -> rwf (unpop r n) /\ rtext (unpop r n) = rtext r.
Proof. unfold unpop, rwf, set_pos. destruct (_ <=? _)%nat eqn:E; cbn; (split; [lia|reflexivity]). Qed.
Lemma settled_read r0 r : rwf r -> rtext r = rtext r0 -> settled r0 (read_char r).
Proof.
  intros W HT. unfold read_char. destruct (peek_cases r W) as [(c & s' & Es & ->)|(Es & ->)]; cbn; auto. split; [|exact HT].
  assert (CR : (1 <= cnt_remaining r)%nat) by (rewrite <- view_length, Es; simpl; lia). now apply (rwf_set r 1).
Qed.
Lemma settled_peek r0 r : rwf r -> rtext r = rtext r0 -> settled r0 (peek_s r).
Proof. intros W HT. unfold peek_s. destruct (peek_cases r W) as [(c & s' & Es & ->)|(Es & ->)]; cbn; auto. Qed.
Lemma settled_parse r0 r : rwf r -> rtext r = rtext r0 -> settled r0 (parse_int fwrapv u32 10 r).
Proof.
  intros W HT. assert (P := parse_int_basic fwrapv u32 10 r ltac:(unfold is_ity; cbn; tauto) W). destruct (parse_int fwrapv u32 10 r) as [[z|e| |] r']; cbn.
  - destruct P as [H1 H2]. split; congruence.
  - subst. auto.
  - destruct P; discriminate.
  - contradiction.
Qed.
Lemma settled_index m r0 r : rwf r -> rtext r = rtext r0 -> settled r0 (parse_int m u8 10 r).
Proof.
  intros W HT. assert (P := parse_int_basic m u8 10 r ltac:(unfold is_ity; cbn; tauto) W). destruct (parse_int m u8 10 r) as [[z|e| |] r']; cbn.
  - destruct P as [H1 H2]. split; congruence.
  - subst. auto.
  - destruct P as (_ & X & _); discriminate.
  - contradiction.
Qed.
Ltac settle :=
  repeat first
    [ assumption | congruence
    | match goal with |- settled _ (sbind _ _) => apply settled_bind; [|intros ? ? ? ?] end
    | match goal with |- settled _ (Ok _, _) => apply settled_ok end
    | match goal with |- settled _ (Err _, _) => apply settled_err end
    | match goal with |- settled _ (read_char _) => apply settled_read end
    | match goal with |- settled _ (peek_s _) => apply settled_peek end
    | match goal with |- settled _ (parse_int fwrapv _ _ _) => apply settled_parse end
    | match goal with |- rwf (pop ?r ?n) => apply (pop_wf r n) end
    | match goal with |- rwf (unpop ?r ?n) => apply (unpop_wf r n) end
    | match goal with W : rwf ?r |- rtext (pop ?r ?n) = _ => rewrite (proj2 (pop_wf r n W)) end
    | match goal with W : rwf ?r |- rtext (unpop ?r ?n) = _ => rewrite (proj2 (unpop_wf r n W)) end
    | progress cbv zeta
    | match goal with |- settled _ (let (_, _) := ?x in _) => destruct x end
    | match goal with |- settled _ (match ?x with _ => _ end) => destruct x end
    | match goal with |- settled _ (if ?x then _ else _) => destruct x end ].

Lemma settled_specs r0 r s : rwf r -> rtext r = rtext r0 -> settled r0 (validate_format_specs r s).
Proof. intros W HT. unfold validate_format_specs. settle. Qed.
Lemma check_specs_total t s : check_specs t s = Ok tt \/ exists e, check_specs t s = Err e.
Proof.
  destruct t as [| |i| | |]; cbn [check_specs]; unfold check_bool_specs, check_char_specs, check_integral_specs, check_unsigned_specs, check_floating_point_specs, check_pointer_specs, check_string_specs;
  repeat match goal with |- context [if ?b then _ else _] => destruct b; cbn [bind] end; eauto.
Qed.
Lemma settled_brace r0 r : rwf r -> rtext r = rtext r0 -> settled r0 (match_rbrace r).
Proof.
  intros W HT. unfold match_rbrace, read_if_match_char. destruct (peek_cases r W) as [(c & s' & Es & ->)|(Es & ->)]; [|cbn; auto].
  destruct (c =? ch_rbrace); cbn; auto. split; [|exact HT]. assert (CR : (1 <= cnt_remaining r)%nat) by (rewrite <- view_length, Es; simpl; lia). now apply (rwf_set r 1).
Qed.
Theorem validate_fty_total t : forall r0 r, rwf r -> rtext r = rtext r0 -> settled r0 (validate_fty t r).
Proof.
  induction t as [t| |t IH| |k t IH|ts IH|t IH|] using fty_ind'; intros r0 r W HT; cbn [validate_fty]; try (now apply settled_brace); try (now apply IH).
  - unfold validate_core. apply settled_bind; [now apply settled_specs|]. intros s r' W' HT'. destruct (check_specs_total t s) as [-> |(e & ->)]; cbn; auto.
  - settle. now apply IH.
  - apply settled_bind; [settle|]. intros c r1 W1 HT1. apply settled_bind; [settle|]. intros c2 r2 W2 HT2. destruct (_ =? _); [settle|]. destruct (_ =? _); [|settle].
    unfold validate_for_each. destruct ts as [|t0 ts0]; [settle|]. set (ts := t0 :: ts0) in *. clearbody ts.
    assert (X : forall p, match validate_elements validate_fty ts r2 p with Undef | Abort => False | _ => True end).
    { induction IH as [|t ts Ht IH IHl]; intros p; [exact Logic.I|]. cbn [validate_elements]. assert (S := Ht r2 r2 W2 eq_refl). destruct (validate_fty t r2) as [[[]|e| |] r']; cbn in S; try contradiction; cbn [bind]; [|exact Logic.I].
      destruct (p =? 0)%nat; [apply IHl|]. destruct (p =? pos r')%nat; [apply IHl|exact Logic.I]. }
    specialize (X 0%nat). destruct (validate_elements validate_fty ts r2 0) as [p|e| |]; try contradiction; settle.
Qed.
Lemma settled_check_text fuel : forall r0 r, rwf r -> rtext r = rtext r0 -> (length (rtext r) - rpos r < fuel)%nat -> settled r0 (check_text fuel r).
Proof.
  induction fuel as [|fuel IH]; intros r0 r W HT HF; [lia|]. cbn [check_text]. unfold rwf in W.
  destruct (nth_error (rtext r) (rpos r)) as [c|] eqn:E; [|apply settled_ok; assumption]. assert (L : (rpos r < length (rtext r))%nat) by (apply nth_error_Some; congruence).
  assert (W1 : rwf (set_pos r (S (rpos r)))) by (unfold rwf; cbn; lia).
  destruct (c =? ch_lbrace); [|destruct (c =? ch_rbrace)].
  - destruct (nth_error (rtext r) (S (rpos r))) as [c2|] eqn:E2; [|now apply settled_err]. assert (L2 : (S (rpos r) < length (rtext r))%nat) by (apply nth_error_Some; congruence).
    destruct (c2 =? ch_lbrace); [|now apply settled_ok]. apply IH; cbn; [unfold rwf; cbn; lia|exact HT|lia].
  - destruct (nth_error (rtext r) (S (rpos r))) as [c2|] eqn:E2; [|now apply settled_err]. assert (L2 : (S (rpos r) < length (rtext r))%nat) by (apply nth_error_Some; congruence).
    destruct (c2 =? ch_rbrace); [|now apply settled_err]. apply IH; cbn; [unfold rwf; cbn; lia|exact HT|lia].
  - apply IH; cbn; [exact W1|exact HT|lia].
Qed.
Lemma settled_check_field r0 r use inc : rwf r -> rtext r = rtext r0 -> settled r0 (check_field r use inc).
Proof.
  intros W HT. unfold check_field. apply settled_bind; [settle|]. intros c r1 W1 HT1. apply settled_bind; [|intros; settle].
  destruct (isdigit c); destruct use as [[]|]; settle; now apply settled_index.
Qed.
Theorem validate_loop_total tys T : Forall is_byte T -> Forall tuple_free tys -> (length tys <= 128)%nat -> forall fuel n use inc b,
  bs_ok b -> bs_bits b = 128%nat -> (inc <= 128)%nat -> (n <= length T)%nat -> (length T - n < fuel)%nat ->
  exists v, validate_loop fuel tys (mk_reader T n) use (Z.of_nat inc) b = Ok v.
Proof.
  intros HB HTF HL. induction fuel as [|fuel IH]; intros n use inc b HBS H128 HI HN HFu; [lia|]. cbn [validate_loop rtext].
  destruct (split_text (skipn n T)) as (lits & rest & HS & HF & HE). rewrite (check_text_at _ T n lits rest HF HS HE (Nat.lt_succ_diag_r _)).
  assert (AF : exists v, bitset_all_first b (length tys) = Ok v) by (destruct (all_first_ok b (length tys) HBS) as (q & EQ & _); eauto).
  destruct HE as [|c l N| |l N]; cbn [text_result]; try (exact AF); eauto.
  set (p0 := S (n + length (text_of lits))) in *.
  assert (HP0 : skipn p0 T = c :: l) by (unfold p0; apply (skip_succ _ _ 123); apply (skip_part _ _ _ _ HS)).
  assert (LP0 := skip_bound _ _ _ _ HP0).
  assert (SC := settled_check_field (mk_reader T p0) (mk_reader T p0) use (Z.of_nat inc) ltac:(unfold rwf; cbn; lia) eq_refl).
  destruct (check_field (mk_reader T p0) use (Z.of_nat inc)) as [[[[k use'] inc']|?| |] r'] eqn:EC; cbn in SC; try contradiction; eauto.
  destruct (check_field_inv T p0 use inc k use' inc' r' HB ltac:(lia) EC) as (index & colon & l' & i & HS' & HP & -> & HK & ->).
  set (p := (p0 + length index + length (colon_text colon))%nat) in *. destruct SC as [WP _]. unfold rwf in WP. cbn [rpos rtext] in WP.
  change no_more_args with 255. destruct (k =? 255) eqn:EK; [exact AF|].
  destruct (Z.of_nat (length tys) <=? k) eqn:EL; [eauto|]. destruct (set_ok b (Z.to_nat k) HBS ltac:(lia)) as (b' & EB & HB2 & L2 & W2). rewrite EB. cbn [bind].
  destruct (nth_error tys (Z.to_nat k)) as [t|] eqn:EN; [|apply nth_error_None in EN; lia].
  assert (SV := validate_fty_total t (mk_reader T p) (mk_reader T p) ltac:(unfold rwf; cbn; lia) eq_refl).
  destruct (validate_fty t (mk_reader T p)) as [[[]|?| |] r'] eqn:EV; cbn in SV; try contradiction; [|eauto].
  assert (HT : tuple_at t T p) by (left; rewrite Forall_forall in HTF; apply HTF; eapply nth_error_In; eauto).
  destruct (validate_fty_sound t T p r' HB HT EV) as (sp & rest & H1 & H2 & -> & H4). destruct SV as [WV _]. unfold rwf in WV. cbn [rpos rtext] in WV.
  apply IH; try assumption; try lia.
  destruct HP as [(_ & _ & X & _ & ->)|(_ & _ & _ & _ & ->)]; lia.
Qed.

(** ** Whole strings *)
Lemma new_bits : bs_bits (bitset_new 128) = 128%nat.
Proof. reflexivity. Qed.
Theorem validate_string_sound s tys : Forall is_byte s -> Forall tuple_free tys -> validate_string s tys = Ok true ->
  exists its ns e, acc tys s 0 None 0 its ns e /\ (length tys <= 128)%nat /\ forall k, (k < length tys)%nat -> In k ns.
Proof.
  intros HB HT H. destruct (new_ok 128) as [N1 N2].
  destruct (validate_loop_sound tys s HB HT _ 0%nat None 0%nat _ N1 new_bits (Nat.le_0_l _) H) as (its & ns & e & HA & HL & HC).
  exists its, ns, e. split; [exact HA|]. split; [exact HL|]. intros k HK. destruct (HC k HK) as [X|X]; [rewrite N2 in X; discriminate|exact X].
Qed.
Theorem validate_string_complete s tys its ns e : Forall is_byte s -> (length tys <= 128)%nat -> acc tys s 0 None 0 its ns e ->
  (forall k, (k < length tys)%nat -> In k ns) -> validate_string s tys = Ok true.
Proof.
  intros HB HL HA HC. destruct (new_ok 128) as [N1 N2]. unfold validate_string, reader_of. change 0 with (Z.of_nat 0) at 1.
  apply (validate_loop_complete tys s HB HL 0%nat None 0%nat its ns e HA); [exact N1|reflexivity|lia|lia|]. intros k HK. right. auto.
Qed.
Theorem validate_string_total s tys : Forall is_byte s -> Forall tuple_free tys -> (length tys <= 128)%nat -> exists v, validate_string s tys = Ok v.
Proof.
  intros HB HT HL. destruct (new_ok 128) as [N1 N2]. unfold validate_string, reader_of. change 0 with (Z.of_nat 0) at 1.
  apply validate_loop_total; auto; lia.
Qed.

Lemma good_string tys s its ns e : Forall is_byte s -> (length tys <= 128)%nat -> s = text_of its ++ e -> good_items tys its ns ->
  Forall small_numbers (field_specs its) -> tuples_last tys its ns -> (e = [] \/ (Forall tuple_free tys /\ field_255 e /\ Forall digits_text (indices its))) ->
  acc tys s 0 None 0 its ns e.
Proof.
  intros HB HL HS (H1 & H2 & H3) HSm HTL HE.
  apply good_acc; auto; try tauto; [|destruct HE as [HE|(_ & HE & HD)]; [now left|right; split; [exact HE|split; [discriminate|exact HD]]]].
  destruct H2 as [H2|H2]; [left|right]; (split; [discriminate|exact H2]).
Qed.

Lemma tuples_last_free tys its : Forall tuple_free tys -> forall ns, tuples_last tys its ns.
Proof.
  intros HF. induction its as [|i its IH]; intros ns; [exact Logic.I|]. destruct i; cbn [tuples_last]; auto. destruct ns as [|k ns]; [apply IH|]. split; [|apply IH].
  right. intros t HN. rewrite Forall_forall in HF. apply HF. eapply nth_error_In; eauto.
Qed.

(** The numbers that are 255. *)
Definition digit_char (c : Z) : Prop := 48 <= c <= 57.
Lemma digit_value_char c : digit_char c -> digit_value c = Some (c - 48).
Proof. unfold digit_char, digit_value. intros H. replace ((48 <=? c) && (c <=? 57)) with true by lia. reflexivity. Qed.
Lemma denotes_pos l : Forall digit_char l -> 0 <= denotes 10 l.
Proof.
  intros H. induction l as [|c l IH] using rev_ind; [cbn; lia|]. apply Forall_app in H. destruct H as [H1 H2]. inversion H2; subst.
  rewrite denotes_snoc, digit_value_char by assumption. specialize (IH H1). unfold digit_char in *. lia.
Qed.
Lemma denotes_last l q d : Forall digit_char l -> denotes 10 l = 10 * q + d -> 0 <= d < 10 -> 0 < 10 * q + d ->
  exists a, l = a ++ [48 + d] /\ denotes 10 a = q /\ Forall digit_char a.
Proof.
  intros HF HV HD HP. destruct l as [|c l _] using rev_ind; [cbn in HV; lia|]. apply Forall_app in HF. destruct HF as [H1 H2]. inversion H2; subst.
  rewrite denotes_snoc, digit_value_char in HV by assumption. assert (X := denotes_pos l H1). unfold digit_char in H3. exists l.
  assert (denotes 10 l = q) by lia. split; [|auto]. f_equal. f_equal. lia.
Qed.
Lemma denotes_zero l : Forall digit_char l -> denotes 10 l = 0 -> l = repeat 48 (length l).
Proof.
  intros HF HV. induction l as [|c l IH] using rev_ind; [reflexivity|]. apply Forall_app in HF. destruct HF as [H1 H2]. inversion H2; subst.
  rewrite denotes_snoc, digit_value_char in HV by assumption. assert (X := denotes_pos l H1). unfold digit_char in H3.
  rewrite IH at 1; [|assumption|lia]. assert (c = 48) as -> by lia. rewrite app_length. cbn [length]. rewrite repeat_app. reflexivity.
Qed.
Lemma denotes_255 l : digits_text l -> denotes 10 l = 255 -> exists z, l = repeat 48 z ++ str "255".
Proof.
  intros [_ HF] HV. destruct (denotes_last l 25 5 HF HV) as (a & -> & HA & FA); [lia|lia|]. destruct (denotes_last a 2 5 FA HA) as (b & -> & HB & FB); [lia|lia|].
  destruct (denotes_last b 0 2 FB HB) as (c & -> & HC & FC); [lia|lia|]. exists (length c). rewrite (denotes_zero c FC HC) at 1. now rewrite <- !app_assoc.
Qed.
Lemma no_255_field its e : no_255 (text_of its ++ e) -> ~ field_255 e.
Proof.
  intros H (index & c & rest & -> & HD & HV & _). destruct (denotes_255 index HD HV) as (z & ->). apply (H (text_of its) z (c :: rest)). cbn [app]. now rewrite <- app_assoc.
Qed.

Lemma plain_string s : check_if_plain_string s = true -> exists its, s = text_of its /\ Forall plain_item its.
Proof.
  intros H. exists (map Literal s). split; [clear H; induction s as [|c s IH]; [reflexivity|]; cbn; f_equal; exact IH|].
  apply Forall_forall. intros i HI. apply in_map_iff in HI. destruct HI as (c & <- & HC). cbn. intros HB.
  unfold check_if_plain_string in H. apply negb_true_iff in H. assert (X : existsb (fun c => (c =? ch_lbrace) || (c =? ch_rbrace)) s = true); [|congruence].
  apply existsb_exists. exists c. split; [exact HC|]. destruct HB as [-> | ->]; reflexivity.
Qed.
Lemma plain_acc s its : s = text_of its -> Forall plain_item its -> acc [] s 0 None 0 its [] [].
Proof. intros H HF. constructor; [exact HF|cbn [skipn]; now rewrite app_nil_r|now left]. Qed.

Theorem accepted_sound s tys : Forall is_byte s -> Forall tuple_free tys -> accepted s tys ->
  exists its ns e, acc tys s 0 None 0 its ns e /\ (length tys <= 128)%nat /\ forall k, (k < length tys)%nat -> In k ns.
Proof.
  intros HB HT (v & HV & HS). unfold vstr_from in HV. destruct ((length tys =? 0)%nat && check_if_plain_string s) eqn:EP.
  - destruct tys; [|discriminate]. cbn in EP. destruct (plain_string s EP) as (its & E & HF). exists its, [], []. split; [now apply plain_acc|]. cbn. split; [lia|intros; lia].
  - destruct (validate_string s tys) as [[]| | |] eqn:E; try discriminate; injection HV as <-; [|discriminate]. now apply validate_string_sound.
Qed.
Theorem accepted_complete s tys its ns e : Forall is_byte s -> (length tys <= 128)%nat -> acc tys s 0 None 0 its ns e ->
  (forall k, (k < length tys)%nat -> In k ns) -> accepted s tys.
Proof.
  intros HB HL HA HC. unfold accepted, vstr_from. destruct ((length tys =? 0)%nat && check_if_plain_string s); [eexists; split; reflexivity|].
  rewrite (validate_string_complete s tys its ns e HB HL HA HC). cbn [bind]. eexists; split; reflexivity.
Qed.
Theorem accepted_decided s tys : Forall is_byte s -> Forall tuple_free tys -> (length tys <= 128)%nat ->
  exists v, vstr_from s tys = Ok v /\ (vs_str v = Ok s \/ vs_str v = Err invalid_format).
Proof.
  intros HB HT HL. unfold vstr_from. destruct ((length tys =? 0)%nat && check_if_plain_string s); [eexists; split; [reflexivity|now left]|].
  destruct (validate_string_total s tys HB HT HL) as ([] & ->); cbn [bind]; eexists; (split; [reflexivity|]); auto.
Qed.
