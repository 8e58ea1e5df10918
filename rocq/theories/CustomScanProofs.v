(** Proofs about CustomScan.v: scan strings with user-defined scanners. *)
From Verif Require Import Base Conversion Reader Buffer Writer Bitset Specs FormatArg FloatArg Format Custom Scan CustomScan.
From Verif Require Import Lib SpecNum SpecReader SpecEscape SpecFloat SpecFormat SpecDecimal SpecField SpecSpecs SpecString SpecCustom SpecScan SpecCustomScan.
From Verif Require Import ConversionProofs ReaderProofs SpecsProofs BitsetProofs BufferProofs Emits WriterProofs StringProofs StringLoop StringEmits StringTop CustomProofs ScanText ScanTop.
Import SpecString.

(** ** Matching texts *)
Lemma match_error r s e r' : read_if_match_str r s = (Err e, r') -> e = eof \/ e = invalid_data.
Proof.
  unfold read_if_match_str. intros H. repeat match type of H with
  | (if ?b then _ else _) = _ => destruct b
  | (let (_, _) := ?x in _) = _ => destruct x
  | match ?x with _ => _ end = _ => destruct x
  end; inversion H; auto.
Qed.
Lemma part_error st b it e st' : match_part st b it = (Err e, st') -> e = eof \/ e = invalid_data.
Proof.
  unfold match_part. destruct st as [fr [r vars]]. destruct (read_if_match_str r _) as [[x|e'| |] r'] eqn:E; cbn [bind]; intros H; inversion H; subst. eapply match_error; eauto.
Qed.
Lemma text_error : forall fuel st b e st', scan_text fuel st b = (Err e, st') -> e = eof \/ e = invalid_data.
Proof.
  induction fuel as [|fuel IH]; intros st b e st' H; [discriminate|]. cbn [scan_text] in H. destruct st as [fr rv].
  destruct (nth_error (rtext fr) (rpos fr)) as [c|].
  - destruct (c =? ch_lbrace).
    + destruct (nth_error (rtext fr) (S (rpos fr))) as [c2|]; [|discriminate]. destruct (c2 =? ch_lbrace).
      * destruct (match_part _ _ _) as [[x|e'| |] st2] eqn:E; cbn [sbind] in H; try discriminate; [eapply IH; eauto|]. inversion H; subst. eapply part_error; eauto.
      * destruct (_ =? _)%nat; cbn [sbind] in H; [discriminate|]. destruct (match_part _ _ _) as [[x|e'| |] st2] eqn:E; cbn [sbind] in H; try discriminate. inversion H; subst. eapply part_error; eauto.
    + destruct (c =? ch_rbrace).
      * destruct (match_part _ _ _) as [[x|e'| |] st2] eqn:E; cbn [sbind] in H; try discriminate; [|inversion H; subst; eapply part_error; eauto].
        destruct (_ <? _)%nat; [|discriminate]. eapply IH; eauto.
      * eapply IH; eauto.
  - destruct (_ =? _)%nat; cbn [sbind] in H; [discriminate|]. destruct (match_part _ _ _) as [[x|e'| |] st2] eqn:E; cbn [sbind] in H; try discriminate. inversion H; subst. eapply part_error; eauto.
Qed.

(** ** Variables *)
Lemma set_changes {V} (vars : list V) n old v : nth_error vars n = Some old -> changes vars n old v (set_var vars n v).
Proof.
  revert n. induction vars as [|x vars IH]; intros [|n] H; try discriminate; cbn in *.
  - injection H as ->. exists [], vars. auto.
  - destruct (IH n H) as (a & b & H1 & H2 & H3). exists (x :: a), b. cbn. split; [now f_equal|]. split; now f_equal.
Qed.
Lemma set_length {V} (vars : list V) n v : length (set_var vars n v) = length vars.
Proof. revert n. induction vars as [|x vars IH]; intros [|n]; cbn; auto. Qed.
Lemma changes_unique {V} (vars : list V) n old v vars1 old' v' vars1' : changes vars n old v vars1 -> changes vars n old' v' vars1' ->
  old = old' /\ (v = v' -> vars1 = vars1').
Proof.
  intros (a & b & H1 & H2 & H3) (a' & b' & H1' & H2' & H3'). assert (a = a' /\ old :: b = old' :: b') as [-> E].
  { assert (X := H2). rewrite H2' in X. assert (L : length a' = length a) by congruence. clear - X L. revert a L X. induction a' as [|y a' IH]; intros [|z a] L X; try discriminate; cbn in *; [auto|].
    injection X as -> X. destruct (IH a ltac:(lia) X) as [-> H]. auto. }
  injection E as -> ->. split; [reflexivity|]. intros ->. now rewrite H3, H3'.
Qed.
Lemma changes_nth {V} (vars : list V) n old v vars1 : changes vars n old v vars1 -> nth_error vars n = Some old.
Proof. intros (a & b & H1 & -> & _). rewrite nth_error_app2 by lia. now rewrite H1, Nat.sub_diag. Qed.

(** ** The promise about the string *)
Definition string_contract {V} (c : scan_contract V) : contract := mk_contract (sc_reads c) (fun _ out o => out = [] /\ o = Ok tt).
Lemma keeps_string {V} (u : suser V) c : keeps_scan u c -> keeps (checked u) (string_contract c).
Proof.
  intros H. split; cbn [string_contract c_reads c_does].
  - exact (ks_closed u c H).
  - exact (ks_sound u c H).
  - exact (ks_complete u c H).
  - intros T n sp rest HB HS HR HV. destruct (ks_parse u c H T n sp rest HB HS HR HV) as (m & HP). exists m, [], (Ok tt). split; [exact HP|]. split; [auto|]. split; [now left|].
    exists []. split; [reflexivity|]. intros K vt R cap amax room HL. apply emits_ret.
Qed.

Section Strings.
  Context {V : Type} (us : list (suser V)) (cs : list (scan_contract V)) (HK : Forall2 keeps_scan us cs).
  Notation us' := (map checked us).
  Notation cs' := (map string_contract cs).

  Lemma string_keeps : Forall2 keeps us' cs'.
  Proof. induction HK; cbn; constructor; auto. now apply keeps_string. Qed.
  Lemma scan_keeps_len : length us = length cs.
  Proof. now apply (Forall2_len keeps_scan). Qed.
  Lemma scan_keeps_nth k u : nth_error us k = Some u -> exists c, nth_error cs k = Some c /\ keeps_scan u c.
  Proof.
    revert k. induction HK as [|u' c' us' cs' H1 H2 IH]; intros [|k] H; try discriminate; cbn in *; [injection H as <-; eauto|now apply IH].
  Qed.
  Lemma items_string its ns : user_scan_items cs its ns <-> user_items cs' its ns.
  Proof.
    unfold user_scan_items, user_items. split; intros (H1 & H2 & H3); (split; [exact H1|]); (split; [exact H2|]); clear H1 H2;
      induction H3 as [|n sp ns' l (c & HN & HR) H3 IH]; constructor; auto.
    - exists (string_contract c). split; [now rewrite nth_error_map, HN|exact HR].
    - rewrite nth_error_map in HN. destruct (nth_error cs n) as [c0|]; [|discriminate]. injection HN as <-. exists c0. split; [reflexivity|exact HR].
  Qed.

  Lemma scans_lits e lits its ns input rest vars vars' : Forall plain_item lits -> user_scans cs e its ns input rest vars vars' ->
    user_scans cs e (lits ++ its) ns (literal_text lits ++ input) rest vars vars'.
  Proof. induction 1 as [|[] lits H HF IH]; intros HS; cbn; [exact HS|now constructor; apply IH|now constructor; apply IH|contradiction]. Qed.
  Lemma lits_then lits its : Forall plain_item lits -> literal_text (lits ++ its) = literal_text lits ++ literal_text its.
  Proof. induction 1 as [|[] lits H HF IH]; cbn; auto; try (now rewrite IH). contradiction. Qed.

  Theorem user_loop_reads T I : Forall is_byte T -> Forall is_byte I -> Z.of_nat (length I) < 2 ^ 64 -> (length us <= 128)%nat ->
    forall q use inc its ns e, uacc us' cs' T q use inc its ns e -> forall ei, end_items ei -> text_of ei = e ->
    forall fuel i vars, (length T - q < fuel)%nat -> (q <= length T)%nat -> (i <= length I)%nat -> (inc <= 128)%nat -> length vars = length us ->
    match user_scan_loop fuel us (Z.of_nat inc) (mk_reader T q, (mk_reader I i, vars)) with
    | (Ok _, (_, (r', vars'))) => exists rest j, user_scans cs ei its ns (skipn i I) rest vars vars' /\
        r' = mk_reader I j /\ skipn j I = rest /\ (i <= j <= length I)%nat
    | (o, (_, (r', vars'))) => user_stops cs ei its ns (skipn i I) o vars vars' /\ exists j, r' = mk_reader I j /\ (i <= j <= length I)%nat
    end.
  Proof.
    intros HBT HBI HLI HL q use inc its ns e HA. induction HA as [q use inc its e HF HS HE|q use inc lits index colon sp rest its k ns e use' inc' u ct p HF HS HC HP HK' HN HNc HKu HFS Hp HSP HV HA IH];
      intros ei HEI EE fuel i vars HFu HQ HI Hinc HVar; (destruct fuel as [|fuel]; [lia|]); cbn [user_scan_loop rtext rpos fst].
    - assert (LL : (length its < S (length T))%nat).
      { assert (X : (length its <= length (text_of its))%nat) by (clear; induction its as [|i its IH]; cbn; [lia|]; rewrite app_length; assert (1 <= length (item_text i))%nat by (destruct i; cbn; lia); unfold text_of in IH; lia).
        apply (f_equal (@length Z)) in HS. rewrite skipn_length, app_length in HS. lia. }
      assert (FS : field_start e) by (destruct HEI as [-> |(? & ? & ? & ? & -> & HO & _)]; subst e; [now left|right]; destruct HO as (c & l & HO & NC); exists c, l; cbn; rewrite app_nil_r; auto).
      destruct (scan_text_at T I its (S (length T)) q i [] q [] e HF HS FS LL eq_refl ltac:(lia) HI) as [(b & EB & ->)|(NB & er & fr & r & ET & HR1 & HR2)]; [cbn [sbind app] in *|rewrite ET; cbn [sbind app] in *].
      + assert (R : user_scans cs ei its [] (skipn i I) b vars vars) by (rewrite EB, <- (app_nil_r its) at 1; apply scans_lits; [exact HF|constructor]).
        assert (HJ : (i + length (literal_text its) <= length I)%nat) by (apply (f_equal (@length Z)) in EB; rewrite skipn_length, app_length in EB; lia).
        assert (RES : exists rest j, user_scans cs ei its [] (skipn i I) rest vars vars /\ mk_reader I (i + length (literal_text its)) = mk_reader I j /\ skipn j I = rest /\ (i <= j <= length I)%nat).
        { exists b, (i + length (literal_text its))%nat. split; [exact R|]. split; [reflexivity|]. split; [apply (skip_part _ _ _ _ EB)|lia]. }
        destruct e as [|e0 e']; cbn [starts negb]; [exact RES|].
        destruct HE as [HE|(HU & index & c & r & HE & HD & H255 & HC)]; [discriminate|]. rewrite HE in *. rewrite Nat.add_1_r. set (p0 := (q + length (text_of its))%nat).
        assert (HP0 : skipn (S p0) T = index ++ colon_text (c =? 58) ++ (if c =? 58 then r else 125 :: r)).
        { rewrite (skip_succ p0 T 123 (index ++ c :: r)) by apply (skip_part _ _ _ _ HS). f_equal. destruct HC as [-> | ->]; reflexivity. }
        rewrite (parse_field_fwd T (S p0) use inc 255 (Some true) inc index (c =? 58) r HBT ltac:(lia) HP0); [|right; auto|lia]. cbn [sbind].
        change (255 =? no_more_args) with true. cbv iota. exact RES.
      + split; [|exists (rpos r); destruct r; cbn in *; subst; split; [reflexivity|lia]]. exists [], its, [], [], (skipn i I), vars. split; [reflexivity|]. split; [reflexivity|]. split; [constructor|]. left.
        split; [intros (b & EB); exact (NB b EB)|]. split; [|reflexivity]. destruct (text_error _ _ _ _ _ ET) as [-> | ->]; auto.
    - assert (HIX : index = [] \/ digits_text index) by (destruct HP; tauto).
      assert (HIt := uacc_items _ _ _ _ _ _ _ _ _ HA). destruct HIt as [HIt _].
      assert (HTx := uacc_text _ _ _ _ _ _ _ _ _ HA).
      assert (LT := f_equal (@length Z) HS). rewrite field_text, skipn_length, app_length in LT. cbn [length app] in LT. rewrite !app_length in LT.
      assert (LL : (length lits <= length (text_of lits))%nat) by (clear; induction lits as [|i its IH]; cbn; [lia|]; rewrite app_length; assert (1 <= length (item_text i))%nat by (destruct i; cbn; lia); unfold text_of in IH; lia).
      rewrite nth_error_map in HN. destruct (nth_error us k) as [u0|] eqn:EU; [|discriminate]. injection HN as <-.
      rewrite nth_error_map in HNc. destruct (nth_error cs k) as [c0|] eqn:ECk; [|discriminate]. injection HNc as <-. cbn [string_contract c_reads] in HFS.
      destruct (scan_keeps_nth k u0 EU) as (c0' & EX & HKs). assert (c0' = c0) as -> by congruence. clear EX.
      destruct (ks_closed _ _ HKs sp HFS) as (y & ESP & _). assert (LSP : (1 <= length sp)%nat) by (subst sp; rewrite app_length; cbn; lia). clear y ESP.
      destruct (not_open index colon sp rest HIX HC) as (c & l & EO & NO).
      assert (FS : field_start (text_of [Field index colon sp] ++ rest)) by (right; exists c, l; split; [rewrite field_text; cbn [app]; f_equal; rewrite <- !app_assoc; exact EO|exact NO]).
      destruct (scan_text_at T I lits (S (length T)) q i [] q [] _ HF HS FS ltac:(lia) eq_refl ltac:(lia) HI) as [(b & EB & ->)|(NB & er & fr & r & ET & HR1 & HR2)]; [cbn [sbind app] in *|rewrite ET; cbn [sbind app] in *].
      + cbn [text_of flat_map item_text app starts negb]. rewrite Nat.add_1_r. set (p0 := (q + length (text_of lits))%nat) in *. set (i1 := (i + length (literal_text lits))%nat).
        assert (HI1 : (i1 <= length I)%nat) by (apply (f_equal (@length Z)) in EB; rewrite skipn_length, app_length in EB; unfold i1; lia).
        assert (EB1 : skipn i1 I = b) by apply (skip_part _ _ _ _ EB).
        assert (HP0 : skipn (S p0) T = index ++ colon_text colon ++ (if colon then (if colon then sp ++ rest else rest) else 125 :: (if colon then sp ++ rest else rest))).
        { rewrite field_text in HS. cbn [app] in HS. rewrite <- !app_assoc in HS. rewrite (skip_succ p0 T 123 (index ++ colon_text colon ++ sp ++ rest)) by apply (skip_part _ _ _ _ HS). f_equal. f_equal. destruct colon; [reflexivity|]. now rewrite HC by reflexivity. }
        assert (KB : (k < length us)%nat) by (apply nth_error_Some; congruence).
        assert (HI2 : (inc <= 254)%nat) by lia. assert (HK2 : Z.of_nat k <= 255) by lia.
        rewrite (parse_field_fwd T (S p0) use inc (Z.of_nat k) use' inc' index colon _ HBT HI2 HP0 HP HK2). cbn [sbind].
        replace (S p0 + length index + length (colon_text colon))%nat with p by (unfold p0 in *; lia). change no_more_args with 255.
        replace (Z.of_nat k =? 255) with false by lia. rewrite Nat2Z.id, EU.
        destruct (nth_error vars k) as [old|] eqn:EVk; [|apply nth_error_None in EVk; lia].
        destruct (ks_parse _ _ HKs T p sp rest HBT HSP HFS HV) as (m & HPar). rewrite HPar.
        assert (HSf : rest = text_of (its ++ ei)) by (rewrite text_of_app, EE, <- HTx; symmetry; apply (skip_part _ _ _ _ HSP)).
        assert (HPf : (p + length sp <= length T)%nat) by lia.
        assert (HOf : Forall open_item (its ++ ei)) by (apply Forall_app; split; [now apply ok_open|now apply end_open]).
        rewrite HSf in HSP.
        assert (X := ks_scan _ _ HKs T p sp (its ++ ei) m HBT HSP HOf HFS HV HPar I i1 old HBI HLI HI1).
        assert (HCh := fun v => set_changes vars k old v EVk).
        assert (FAIL : forall o v, sc_fails c0 sp (its ++ ei) old (skipn i1 I) o v ->
          user_stops cs ei (lits ++ Field index colon sp :: its) (k :: ns) (skipn i I) o vars (set_var vars k v)).
        { intros o v HFl. exists lits, (Field index colon sp :: its), [], (k :: ns), b, vars. split; [reflexivity|]. split; [reflexivity|]. split; [rewrite EB, <- (app_nil_r lits) at 1; apply scans_lits; [exact HF|constructor]|].
          right. exists index, colon, sp, its, k, ns, c0, old, v. rewrite <- EB1. auto 6. }
        destruct (su_scan u0 m old (mk_reader I i1)) as [[[]|er| |] [r' v]]; cbn [sbind].
        * destruct X as (piece & rest' & EP & -> & HR).
          assert (HJ : (i1 + length piece <= length I)%nat) by (apply (f_equal (@length Z)) in EP; rewrite skipn_length, app_length in EP; lia).
          assert (Hinc' : (inc' <= 128)%nat) by (destruct HP as [(_ & _ & Y & _ & ->)|(_ & _ & _ & _ & ->)]; lia).
          assert (HVar' : length (set_var vars k v) = length us) by now rewrite set_length.
          assert (IHx := IH ei HEI EE fuel (i1 + length piece)%nat (set_var vars k v) ltac:(lia) HPf HJ Hinc' HVar').
          assert (ER : skipn (i1 + length piece) I = rest') by apply (skip_part _ _ _ _ EP). rewrite ER in IHx.
          assert (STOP : forall o vars' r', (user_stops cs ei its ns rest' o (set_var vars k v) vars' /\ exists j, r' = mk_reader I j /\ (i1 + length piece <= j <= length I)%nat) ->
            user_stops cs ei (lits ++ Field index colon sp :: its) (k :: ns) (skipn i I) o vars vars' /\ exists j, r' = mk_reader I j /\ (i <= j <= length I)%nat).
          { intros o vars' r' [(its1 & its2 & ns1 & ns2 & mid & vars1 & E1 & E2 & H1 & H2) (j & H3 & H4)]. split; [|exists j; split; [exact H3|unfold i1 in *; lia]].
            exists (lits ++ Field index colon sp :: its1), its2, (k :: ns1), ns2, mid, vars1. split; [rewrite E1; now rewrite <- app_assoc|]. split; [rewrite E2; reflexivity|]. split; [|exact H2].
            rewrite EB, <- EB1, EP. apply scans_lits; [exact HF|]. rewrite E1, <- app_assoc in HR. econstructor; eauto. }
          destruct (user_scan_loop fuel us (Z.of_nat inc') (mk_reader T (p + length sp), (mk_reader I (i1 + length piece), set_var vars k v))) as [[[]|er| |] [fr [r' vars']]]; try (now apply STOP).
          destruct IHx as (rest2 & j & H1 & H2 & H3 & H4). exists rest2, j. split; [|split; [exact H2|]; split; [exact H3|unfold i1 in *; lia]].
          rewrite EB, <- EB1, EP. apply scans_lits; [exact HF|]. econstructor; eauto.
        * destruct X as [X1 (j & -> & X2)]. split; [now apply FAIL|]. exists j. split; [reflexivity|]. unfold i1 in *; lia.
        * destruct X as [X1 (j & -> & X2)]. split; [now apply FAIL|]. exists j. split; [reflexivity|]. unfold i1 in *; lia.
        * destruct X as [X1 (j & -> & X2)]. split; [now apply FAIL|]. exists j. split; [reflexivity|]. unfold i1 in *; lia.
      + split; [|exists (rpos r); destruct r; cbn in *; subst; split; [reflexivity|lia]]. exists [], (lits ++ Field index colon sp :: its), [], (k :: ns), (skipn i I), vars. split; [reflexivity|]. split; [reflexivity|]. split; [constructor|]. left.
        split; [|split; [|reflexivity]]; [|destruct (text_error _ _ _ _ _ ET) as [-> | ->]; auto].
        intros (b & EB). apply (NB b). rewrite EB, lits_then by exact HF. cbn [literal_text]. now rewrite app_nil_r.
  Qed.

  (** ** Whole calls *)
  Theorem user_from_reads T its ns ei I i vars : Forall is_byte T -> Forall is_byte I -> Z.of_nat (length I) < 2 ^ 64 -> (length us <= 128)%nat -> (i <= length I)%nat -> length vars = length us ->
    uacc us' cs' T 0 None 0 its ns (text_of ei) -> end_items ei -> (forall k, (k < length us)%nat -> In k ns) ->
    match user_scan_from (mk_reader I i) T us vars with
    | (Ok _, (r', vars')) => exists rest j, user_scans cs ei its ns (skipn i I) rest vars vars' /\ r' = mk_reader I j /\ skipn j I = rest /\ (i <= j <= length I)%nat
    | (o, (r', vars')) => user_stops cs ei its ns (skipn i I) o vars vars' /\ exists j, r' = mk_reader I j /\ (i <= j <= length I)%nat
    end.
  Proof.
    intros HBT HBI HLI HL HI HVar HA HEI HCov. assert (HLm : (length us' <= 128)%nat) by now rewrite map_length.
    assert (HAc : user_accepted T us') by (apply (user_complete us' cs' T its ns (text_of ei)); auto; rewrite map_length; exact HCov).
    destruct HAc as (v & HV & HS). unfold user_scan_from, user_scan_string. rewrite HV. unfold user_string in HV. destruct ((length us' =? 0)%nat && check_if_plain_string T) eqn:EP.
    - injection HV as <-. apply andb_true_iff in EP. destruct EP as [E0 EP]. apply Nat.eqb_eq in E0. unfold user_vscan_from. cbn [vs_str vs_plain].
      assert (HT := uacc_text _ _ _ _ _ _ _ _ _ HA). cbn [skipn] in HT.
      inversion HA as [? ? ? ? ? HF HSk HE|? ? ? lits index colon sp rest its' k ns' ? use' inc' u ct p HF HSk HC HP HK' HN]; subst.
      2: { assert (X : (k < length us')%nat) by (apply nth_error_Some; congruence). lia. }
      assert (EE : text_of ei = []).
      { destruct HE as [HE|(_ & index & c & r & HE & _)]; [exact HE|exfalso]. rewrite HE in EP. unfold check_if_plain_string in EP. apply negb_true_iff in EP. rewrite existsb_app in EP. apply orb_false_iff in EP. destruct EP as [_ EP]. discriminate. }
      rewrite EE, app_nil_r in *. assert (HLT := plain_literal its HF EP). rewrite <- HLT in *.
      destruct (match_str I i (literal_text its) HI) as [(b & ES & ->)|(NS & e & -> & HEr)]; cbn [bind].
      + exists b, (i + length (literal_text its))%nat. split; [rewrite ES, <- (app_nil_r its) at 1; apply scans_lits; [exact HF|constructor]|]. split; [reflexivity|]. split; [apply (skip_part _ _ _ _ ES)|].
        apply (f_equal (@length Z)) in ES. rewrite skipn_length, app_length in ES. lia.
      + split; [|exists i; auto]. exists [], its, [], [], (skipn i I), vars. split; [reflexivity|]. split; [reflexivity|]. split; [constructor|left]. split; [intros (b & EB); exact (NS b EB)|]. split; [|reflexivity]. destruct HEr as [-> | ->]; auto.
    - destruct (user_loop (S (length T)) us' (reader_of T) None 0 (bitset_new 128)) as [[]| | |]; try discriminate; injection HV as <-; [|discriminate].
      unfold user_vscan_from. cbn [vs_str vs_plain].
      assert (X := user_loop_reads T I HBT HBI HLI HL _ _ _ _ _ _ HA ei HEI eq_refl (S (length T)) i vars ltac:(lia) ltac:(lia) HI ltac:(lia) HVar).
      change (reader_of T) with (mk_reader T 0). change (Z.of_nat 0) with 0 in X. destruct (user_scan_loop (S (length T)) us 0 (mk_reader T 0, (mk_reader I i, vars))) as [[[]|e| |] [fr [r' vars']]]; cbn [snd]; exact X.
  Qed.

  (** ** What is certain *)
  Lemma certain_nth n c : nth_error (map certain cs) n = Some c -> exists c0, nth_error cs n = Some c0 /\ c = certain c0.
  Proof. rewrite nth_error_map. destruct (nth_error cs n) as [c0|]; [|discriminate]. intros [= <-]. eauto. Qed.

  Lemma certain_unique e its ns input rest vars vars' : user_scans (map certain cs) e its ns input rest vars vars' ->
    forall rest2 vars2, user_scans cs e its ns input rest2 vars vars2 -> rest2 = rest /\ vars2 = vars'.
  Proof.
    induction 1 as [rest vars|c its ns input rest vars vars' H IH|c its ns input rest vars vars' H IH|index colon sp its n ns c old v piece input rest vars vars1 vars' HN HT HC H IH];
      intros rest2 vars2 H2.
    - inversion H2; auto.
    - inversion H2; subst. auto.
    - inversion H2; subst. auto.
    - inversion H2 as [| | |? ? ? ? ? ? c2 old2 v2 piece2 input2 ? ? vars12 ? HN2 HT2 HC2 HS2]; subst. destruct (certain_nth _ _ HN) as (c0 & HN0 & ->). assert (c2 = c0) as -> by congruence.
      destruct (changes_unique _ _ _ _ _ _ _ _ HC HC2) as [<- HV]. destruct HT as (HT & HU & _). match goal with X : piece2 ++ input2 = piece ++ input |- _ => destruct (HU _ _ _ HT2 X) as [-> ->]; apply app_inv_head in X; subst input2 end.
      rewrite <- (HV eq_refl) in HS2. now apply IH.
  Qed.

  Lemma certain_rest e its2 its1 ns1 input mid vars vars1 : user_scans cs (its2 ++ e) its1 ns1 input mid vars vars1 ->
    forall ns2 rest vars', user_scans (map certain cs) e (its1 ++ its2) (ns1 ++ ns2) input rest vars vars' -> user_scans (map certain cs) e its2 ns2 mid rest vars1 vars'.
  Proof.
    induction 1 as [rest vars|c its ns input rest vars vars1 H IH|c its ns input rest vars vars1 H IH|index colon sp its n ns c old v piece input rest vars vars0 vars1 HN HT HC H IH];
      intros ns2 rest2 vars2 H2; cbn [app] in H2.
    - exact H2.
    - inversion H2; subst. now apply IH.
    - inversion H2; subst. now apply IH.
    - inversion H2 as [| | |? ? ? ? ? ? c2 old2 v2 piece2 input2 ? ? vars12 ? HN2 HT2 HC2 HS2]; subst. destruct (certain_nth _ _ HN2) as (c0 & HN0 & ->). assert (c0 = c) as -> by congruence.
      destruct (changes_unique _ _ _ _ _ _ _ _ HC HC2) as [<- HV]. destruct HT2 as (HT2 & HU & _). rewrite app_assoc in HT.
      match goal with X : piece2 ++ input2 = piece ++ input |- _ => symmetry in X; destruct (HU _ _ _ HT X) as [-> ->]; apply app_inv_head in X; subst input2 end.
      rewrite <- (HV eq_refl) in HS2. now apply IH.
  Qed.
  Lemma user_scans_follow cs0 e its ns input rest vars vars' : @user_scans V cs0 e its ns input rest vars vars' -> text_follows its input.
  Proof.
    induction 1 as [rest vars|c its ns input rest vars vars' H (b & ->)|c its ns input rest vars vars' H (b & ->)|]; cbn; unfold text_follows; cbn; eauto.
  Qed.
  Lemma certain_goes_on e its ns input rest vars vars' o vars2 : user_scans (map certain cs) e its ns input rest vars vars' -> ~ user_stops cs e its ns input o vars vars2.
  Proof.
    intros H (its1 & its2 & ns1 & ns2 & mid & vars1 & -> & -> & H1 & H2). assert (X := certain_rest _ _ _ _ _ _ _ _ H1 _ _ _ H).
    destruct H2 as [(H2 & _)|(index & colon & sp & its3 & n & ns3 & c & old & v & -> & -> & HN & HF & HC)].
    - apply H2. eapply user_scans_follow; eauto.
    - inversion X as [| | |? ? ? ? ? ? c2 old2 v2 piece2 input2 ? ? vars12 ? HN2 HT2 HC2 HS2]; subst. destruct (certain_nth _ _ HN2) as (c0 & HN0 & ->). assert (c0 = c) as -> by congruence.
      destruct (changes_unique _ _ _ _ _ _ _ _ HC HC2) as [<- _]. destruct HT2 as (_ & _ & HF2). exact (HF2 _ _ HF).
  Qed.
End Strings.
