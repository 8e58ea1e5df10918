(** Proofs about Scan.v: fields for integers and characters. *)
From Verif Require Import Base Conversion Reader Specs Format Scan.
From Verif Require Import Lib SpecNum SpecDigits SpecReader SpecSpecs SpecString SpecScan.
From Verif Require Import ConversionProofs ReaderProofs SpecsProofs ScanSpecs ScanNumber.

Lemma read_number_in m t s T n neg base sign p ds rest : big_ity t -> good_type s -> Forall is_byte (skipn n T) ->
  number_in s (skipn n T) neg base sign p ds rest ->
  match read_number m t s (mk_reader T n) with
  | (Ok w, r') => r' = mk_reader T (n + length (sign ++ p ++ ds)) /\ (neg = true -> signed t = true) /\ value_read m t neg base ds w
  | (Err e, _) => e = out_of_range /\ ((neg = true /\ signed t = false) \/ ~ in_range t (number_value neg base ds))
  | (Undef, _) => m = iso /\ signed t = true /\ ~ in_range t (number_value neg base ds)
  | (Abort, _) => False
  end.
Proof.
  intros B GT CL HI. rewrite (number_forward m t s T n _ _ _ _ _ _ GT HI). destruct HI as (E & HS & HD & HF & HR).
  assert (E2 : skipn (n + length sign + length p) T = ds ++ rest) by (rewrite app_assoc in E; rewrite <- Nat.add_assoc, <- app_length; apply (skip_part _ _ _ _ E)).
  assert (HB := number_form_base _ _ _ _ _ HF GT).
  assert (HN2 : (n + length sign + length p <= length T)%nat) by (destruct HD as [HD _]; destruct ds; [congruence|]; apply skip_bound in E2; lia).
  assert (DA : Forall is_byte (skipn (n + length sign + length p) T)).
  { replace (n + length sign + length p)%nat with (n + (length sign + length p))%nat by lia. rewrite <- skipn_skipn_nat. now apply forall_skipn. }
  assert (X := detail_int m t base neg (mk_reader T (n + length sign + length p)) B ltac:(lia) HN2 DA). cbv zeta in X.
  change (view_remaining (mk_reader T (n + length sign + length p))) with (skipn (n + length sign + length p) T) in X. rewrite E2, (taken_run_app base ds rest) in X by (apply HD || exact HR).
  destruct (detail_parse_int m t base neg (mk_reader T (n + length sign + length p))) as [[w|e| |] r'].
  - destruct X as (_ & NS & -> & RW & VV). split; [|split; [exact NS|split; [exact RW|exact VV]]]. unfold set_pos. cbn. f_equal. rewrite !app_length. lia.
  - destruct X as [(X & _)|[(_ & X & _)|(_ & -> & X)]]; [destruct HD as [HD _]; destruct ds; [congruence|discriminate]|destruct HD; congruence|]. split; [reflexivity|exact X].
  - destruct X as (H1 & H2 & _ & H4). auto.
  - exact X.
Qed.

Lemma forall_firstn {A} (P : A -> Prop) n l : Forall P l -> Forall P (firstn n l).
Proof. intros H. rewrite <- (firstn_skipn n l) in H. apply Forall_app in H. tauto. Qed.

(** ** The part of the input that a width selects *)
Lemma sub_at T n w : (n <= length T)%nat -> Z.of_nat (length T) < 2 ^ 64 -> 0 <= w <= Z.of_nat (length T - n) ->
  subreader 0 (mk_reader T n) 0 (Some w) = Ok (mk_reader (firstn (Z.to_nat w) (skipn n T)) 0).
Proof.
  intros HN HL HW. unfold subreader. cbn [rtext rpos]. rewrite !Z.add_0_l, Z.add_0_r, !(Z.mod_small (Z.of_nat n)) by lia.
  replace (Z.of_nat (length T) <? Z.of_nat n) with false by lia. rewrite (Z.mod_small (Z.of_nat (length T) - Z.of_nat n)) by lia. rewrite Z.min_l by lia.
  replace ((0 <=? Z.of_nat n) && (Z.of_nat n + w <=? Z.of_nat (length T))) with true by lia. unfold reader_of. do 2 f_equal. f_equal. rewrite Z.sub_0_r, Nat2Z.id. reflexivity.
Qed.

(** ** Integers *)
Lemma number_of_reads s piece rest neg base ds : sc_width s = -1 -> reads_number s piece rest neg base ds ->
  exists sign p, piece = sign ++ p ++ ds /\ number_in s (piece ++ rest) neg base sign p ds rest.
Proof.
  intros HW (sign & p & -> & HS & HD & HF & HR). exists sign, p. split; [reflexivity|]. rewrite HW in HR. change (-1 =? -1) with true in HR.
  split; [now rewrite <- !app_assoc|]. split; [exact HS|]. split; [exact HD|]. split; [|exact HR].
  unfold number_form in *. destruct ((sc_type s =? 0) && sc_alternate s); [|exact HF]. destruct HF as [H1 H2]. split; [exact H1|]. intros H10. destruct (H2 H10) as [H|(H & [H'|H'])]; [auto|auto|contradiction].
Qed.
Lemma number_of_reads_width s piece rest neg base ds : sc_width s <> -1 -> reads_number s piece rest neg base ds ->
  Z.of_nat (length piece) = sc_width s /\ exists sign p, piece = sign ++ p ++ ds /\ number_in s piece neg base sign p ds [].
Proof.
  intros HW (sign & p & -> & HS & HD & HF & HR). replace (sc_width s =? -1) with false in HR by lia. split; [exact HR|]. exists sign, p. split; [reflexivity|].
  split; [now rewrite app_nil_r|]. split; [exact HS|]. split; [exact HD|]. split; [|discriminate].
  unfold number_form in *. destruct ((sc_type s =? 0) && sc_alternate s); [|exact HF]. destruct HF as [H1 H2]. split; [exact H1|]. intros H10. destruct (H2 H10) as [H|(H & _)]; auto.
Qed.
Lemma reads_of_number s input neg base sign p ds rest : sc_width s = -1 -> number_in s input neg base sign p ds rest -> reads_number s (sign ++ p ++ ds) rest neg base ds.
Proof.
  intros HW (E & HS & HD & HF & HR). exists sign, p. rewrite HW. change (-1 =? -1) with true. split; [reflexivity|]. split; [exact HS|]. split; [exact HD|]. split; [|exact HR].
  unfold number_form in *. destruct ((sc_type s =? 0) && sc_alternate s); [|exact HF]. destruct HF as [H1 H2]. split; [exact H1|]. intros H10. destruct (H2 H10) as [H|(H & H')]; auto.
Qed.
Lemma reads_of_number_width s input neg base sign p ds rest : sc_width s <> -1 -> Z.of_nat (length (sign ++ p ++ ds)) = sc_width s -> number_in s input neg base sign p ds [] -> reads_number s (sign ++ p ++ ds) rest neg base ds.
Proof.
  intros HW HL (E & HS & HD & HF & HR). exists sign, p. replace (sc_width s =? -1) with false by lia. split; [reflexivity|]. split; [exact HS|]. split; [exact HD|]. split; [|exact HL].
  unfold number_form in *. destruct ((sc_type s =? 0) && sc_alternate s); [|exact HF]. destruct HF as [H1 H2]. split; [exact H1|]. intros H10. destruct (H2 H10) as [H|(H & H')]; auto.
Qed.

Lemma number_overlong t s input neg base sign p ds rest : good_type s -> number_in s input neg base sign p ds rest -> ~ in_range t (number_value neg base ds) -> overlong t input.
Proof.
  intros GT (E & HS & HD & HF & _) HN. exists [], sign, p, ds, rest, neg, base. split; [exact E|]. split; [exact HS|]. unfold number_form in HF.
  assert (HB : (p = [] \/ base_prefix base p) /\ In base [2; 8; 10; 16]).
  { destruct ((sc_type s =? 0) && sc_alternate s).
    - destruct HF as [HF _]. split; [now right|]. unfold base_prefix in HF. cbn [In]. lia.
    - destruct HF as [HL HF]. split; [destruct (sc_alternate s); auto|]. unfold letter_base in HL. cbn [In] in *. repeat (destruct HL as [HL|HL]; [injection HL as _ <-; tauto|]). contradiction. }
  tauto.
Qed.
Lemma overlong_app t x y : overlong t x -> overlong t (x ++ y).
Proof. intros (a & sign & p & ds & b & neg & base & -> & H). exists a, sign, p, ds, (b ++ y), neg, base. split; [now rewrite <- !app_assoc|exact H]. Qed.
Lemma overlong_front t x y : overlong t y -> overlong t (x ++ y).
Proof. intros (a & sign & p & ds & b & neg & base & -> & H). exists (x ++ a), sign, p, ds, b, neg, base. split; [now rewrite <- !app_assoc|exact H]. Qed.
Lemma overlong_skip t n x : overlong t (skipn n x) -> overlong t x.
Proof. intros H. rewrite <- (firstn_skipn n x). now apply overlong_front. Qed.

Theorem read_arg_at m t s T n : big_ity t -> good_type s -> width_ok s -> (n <= length T)%nat -> Z.of_nat (length T) < 2 ^ 64 -> Forall is_byte (skipn n T) ->
  match read_arg_int m t s (mk_reader T n) with
  | (Ok _, (r', v)) => exists w piece rest neg base ds, v = Some w /\ skipn n T = piece ++ rest /\ r' = mk_reader T (n + length piece) /\
      reads_number s piece rest neg base ds /\ (neg = true -> signed t = true) /\ value_read m t neg base ds w
  | (Err e, (r', v)) => r' = mk_reader T n /\ (v = None \/ sc_width s <> -1) /\
      forall piece rest neg base ds, skipn n T = piece ++ rest -> reads_number s piece rest neg base ds ->
        e = out_of_range /\ ((neg = true /\ signed t = false) \/ ~ in_range t (number_value neg base ds))
  | (Undef, _) => m = iso /\ signed t = true /\ overlong t (skipn n T)
  | (Abort, _) => False
  end.
Proof.
  intros B GT WO HN HL CL. unfold read_arg_int. destruct WO as [WO|WO].
  - rewrite WO. change (-1 =? -1) with true. cbv iota. assert (X := read_number_at m t s T n B GT HN CL).
    destruct (read_number m t s (mk_reader T n)) as [[w|e| |] r'].
    + destruct X as (neg & base & sign & p & ds & rest & HI & -> & NS & VR). exists w, (sign ++ p ++ ds), rest, neg, base, ds. split; [reflexivity|].
      split; [destruct HI as [E _]; rewrite E, <- !app_assoc; reflexivity|]. split; [reflexivity|]. split; [eapply reads_of_number; eauto|auto].
    + split; [reflexivity|]. split; [now left|]. intros piece rest neg base ds E HR. destruct (number_of_reads _ _ _ _ _ _ WO HR) as (sign & p & _ & HI). rewrite <- E in HI. eapply X; eauto.
    + destruct X as (H1 & H2 & neg & base & sign & p & ds & rest & HI & NR). split; [exact H1|]. split; [exact H2|]. exact (number_overlong t s _ neg base sign p ds rest GT HI NR).
    + exact X.
  - replace (sc_width s =? -1) with false by lia. unfold cnt_remaining. cbn [rtext rpos].
    destruct (Z.of_nat (length T - n) <? sc_width s) eqn:EL.
    { split; [reflexivity|]. split; [now left|]. intros piece rest neg base ds E HR. exfalso. destruct (number_of_reads_width s piece rest neg base ds ltac:(lia) HR) as [LP _].
      assert (L := f_equal (@length Z) E). rewrite skipn_length, app_length in L. lia. }
    rewrite (sub_at T n (sc_width s) HN HL) by lia. set (sub := firstn (Z.to_nat (sc_width s)) (skipn n T)).
    assert (LS : length sub = Z.to_nat (sc_width s)) by (unfold sub; rewrite firstn_length, skipn_length; lia).
    assert (CS : Forall is_byte (skipn 0 sub)).
    { cbn [skipn]. unfold sub. now apply forall_firstn. }
    assert (ST : skipn n T = sub ++ skipn (Z.to_nat (sc_width s)) (skipn n T)) by (unfold sub; now rewrite firstn_skipn).
    assert (NW : sc_width s <> -1) by lia.
    assert (X := read_number_at m t s sub 0 B GT ltac:(lia) CS). cbn [skipn] in X, CS.
    assert (Y : forall piece rest neg base ds, skipn n T = piece ++ rest -> reads_number s piece rest neg base ds -> exists sign p, piece = sub /\ sub = sign ++ p ++ ds /\ number_in s sub neg base sign p ds []).
    { intros piece rest neg base ds E HR. destruct (number_of_reads_width s piece rest neg base ds NW HR) as [LP (sign & p & EP & HI)]. assert (piece = sub) as ->.
      { unfold sub. rewrite E. replace (Z.to_nat (sc_width s)) with (length piece) by lia. now rewrite firstn_app_exact. }
      exists sign, p. auto. }
    destruct (read_number m t s (mk_reader sub 0)) as [[w|e| |] r'] eqn:ER.
    + destruct X as (neg & base & sign & p & ds & rest & HI & -> & NS & VR). unfold at_eof. cbn [rtext rpos]. rewrite Nat.add_0_l.
      destruct (length sub =? length (sign ++ p ++ ds))%nat eqn:EE; cbn [negb].
      * assert (rest = []) as ->.
        { destruct HI as [E _]. rewrite app_assoc, app_assoc in E. rewrite E, <- (app_assoc sign), app_length in EE. destruct rest; [reflexivity|]. cbn [length] in EE. lia. }
        exists w, (sign ++ p ++ ds), (skipn (Z.to_nat (sc_width s)) (skipn n T)), neg, base, ds. split; [reflexivity|].
        assert (ES : sub = sign ++ p ++ ds) by (destruct HI as [E _]; rewrite E at 1; now rewrite app_nil_r).
        split; [rewrite <- ES; exact ST|]. split; [rewrite pop_pos by (unfold cnt_remaining; cbn; lia); unfold set_pos; cbn; f_equal; rewrite <- ES; lia|].
        split; [|auto]. eapply reads_of_number_width; eauto. rewrite <- ES. lia.
      * split; [reflexivity|]. split; [now right|]. intros piece rest2 neg2 base2 ds2 E HR. exfalso. destruct (Y _ _ _ _ _ E HR) as (sign2 & p2 & _ & ES & HI2).
        assert (Z := read_number_in m t s sub 0 neg2 base2 sign2 p2 ds2 [] B GT). cbn [skipn] in Z. specialize (Z CS HI2). rewrite ER in Z. destruct Z as (Z & _). injection Z as Z. rewrite Z, <- ES in EE. lia.
    + split; [reflexivity|]. split; [now left|]. intros piece rest2 neg2 base2 ds2 E HR. destruct (Y _ _ _ _ _ E HR) as (sign2 & p2 & _ & ES & HI2). eapply X; eauto.
    + destruct X as (H1 & H2 & neg & base & sign & p & ds & rest & HI & NR). split; [exact H1|]. split; [exact H2|]. rewrite ST. apply overlong_app. exact (number_overlong t s _ neg base sign p ds rest GT HI NR).
    + exact X.
Qed.

Ltac limits := unfold in_range;
  repeat match goal with
         | |- context [imin ?t] => let v := eval vm_compute in (imin t) in change (imin t) with v
         | |- context [imax ?t] => let v := eval vm_compute in (imax t) in change (imax t) with v
         end; lia.
Lemma upcasted_facts t : is_ity t -> signed (upcasted t) = signed t /\ (forall z, in_range t z -> in_range (upcasted t) z) /\
  ((32 <= bits t /\ upcasted t = t) \/ (bits t <= 16 /\ forall z, 65536 <= z -> ~ in_range t z /\ ~ in_range t (- z))).
Proof.
  unfold is_ity. cbn [In]. intros H.
  repeat (destruct H as [<-|H]; [split; [reflexivity|]; split; [limits|]; (left; split; [cbn; lia|reflexivity]) || (right; split; [cbn; lia|limits])|]). contradiction.
Qed.

Definition no_number (t : ity) (s : scan_specs) (input : list Z) (e : err) : Prop :=
  forall piece rest neg base ds, input = piece ++ rest -> reads_number s piece rest neg base ds ->
    e = out_of_range /\ ((neg = true /\ signed t = false) \/ ~ in_range t (number_value neg base ds)).

Theorem scan_int_at m t s T n : is_ity t -> good_type s -> width_ok s -> (n <= length T)%nat -> Z.of_nat (length T) < 2 ^ 64 -> Forall is_byte (skipn n T) ->
  match scan_int m t s (mk_reader T n) with
  | (Ok _, (r', v)) => exists w piece rest, v = Some w /\ skipn n T = piece ++ rest /\ r' = mk_reader T (n + length piece) /\ reads_int m t s piece rest w
  | (Err e, (r', v)) => (r' = mk_reader T n \/ (bits t <= 16 /\ e = out_of_range /\
        exists piece rest neg base ds, skipn n T = piece ++ rest /\ reads_number s piece rest neg base ds /\ r' = mk_reader T (n + length piece))) /\
      (v = None \/ (32 <= bits t /\ sc_width s <> -1)) /\ no_number t s (skipn n T) e
  | (Undef, _) => m = iso /\ signed t = true /\ overlong (upcasted t) (skipn n T)
  | (Abort, _) => False
  end.
Proof.
  intros IT GT WO HN HL CL. destruct (upcasted_facts t IT) as (SU & RU & UC). assert (B := upcasted_big t IT). unfold scan_int.
  assert (X := read_arg_at m (upcasted t) s T n B GT WO HN HL CL). destruct (read_arg_int m (upcasted t) s (mk_reader T n)) as [o [r' v]] eqn:ER. cbn [fst snd].
  destruct UC as [(HB & UT)|(HB & NAR)].
  - replace (32 <=? bits t) with true by lia. rewrite UT in *. destruct o as [[]|e| |].
    + destruct X as (w & piece & rest & neg & base & ds & -> & E & -> & HR & NS & RW & VV). exists w, piece, rest. split; [reflexivity|]. split; [exact E|]. split; [reflexivity|].
      exists neg, base, ds. split; [exact HR|]. split; [exact NS|]. split; [exact RW|]. destruct VV as [VV|(_ & V1 & V2)]; [now left|right]. split; [exact HB|auto].
    + destruct X as (-> & HV & HX). split; [now left|]. split; [destruct HV; auto|]. exact HX.
    + exact X.
    + exact X.
  - replace (32 <=? bits t) with false by lia. destruct o as [[]|e| |].
    + destruct X as (w & piece & rest & neg & base & ds & -> & E & -> & HR & NS & RW & VV). destruct ((w <? imin t) || (imax t <? w)) eqn:ERG.
      * split; [right; split; [exact HB|]; split; [reflexivity|]; exists piece, rest, neg, base, ds; auto|]. split; [now left|]. intros piece2 rest2 neg2 base2 ds2 E2 HR2. split; [reflexivity|right].
        assert (V2 : (neg2 = true -> signed (upcasted t) = true) /\ value_read m (upcasted t) neg2 base2 ds2 w).
        { clear -ER WO GT CL HN HL B HR2 E2. unfold read_arg_int in ER. destruct WO as [WO|WO].
          - rewrite WO in ER. change (-1 =? -1) with true in ER. cbv iota in ER. destruct (number_of_reads _ _ _ _ _ _ WO HR2) as (sign & p & _ & HI). rewrite <- E2 in HI.
            assert (Y := read_number_in m (upcasted t) s T n neg2 base2 sign p ds2 rest2 B GT CL HI). destruct (read_number m (upcasted t) s (mk_reader T n)) as [[x|e| |] r']; try discriminate. injection ER as _ <-. tauto.
          - replace (sc_width s =? -1) with false in ER by lia. unfold cnt_remaining in ER. cbn [rtext rpos] in ER. destruct (Z.of_nat (length T - n) <? sc_width s) eqn:EL; [discriminate|].
            rewrite (sub_at T n (sc_width s) HN HL) in ER by lia. set (sub := firstn (Z.to_nat (sc_width s)) (skipn n T)) in *.
            assert (CS : Forall is_byte (skipn 0 sub)) by (cbn [skipn]; unfold sub; now apply forall_firstn).
            destruct (number_of_reads_width s piece2 rest2 neg2 base2 ds2 ltac:(lia) HR2) as [LP (sign & p & EP & HI)]. assert (piece2 = sub) as ->.
            { unfold sub. rewrite E2. replace (Z.to_nat (sc_width s)) with (length piece2) by lia. now rewrite firstn_app_exact. }
            assert (Y := read_number_in m (upcasted t) s sub 0 neg2 base2 sign p ds2 [] B GT CS HI). destruct (read_number m (upcasted t) s (mk_reader sub 0)) as [[x|e| |] r']; try discriminate.
            destruct (negb (at_eof r')); [discriminate|]. injection ER as _ <-. tauto. }
        destruct V2 as (_ & _ & [->|(V2 & V3 & _)]); [unfold in_range; lia|]. intros H. now apply V3, RU.
      * assert (RT : in_range t w) by (unfold in_range; lia). exists w, piece, rest. split; [reflexivity|]. split; [exact E|]. split; [reflexivity|]. exists neg, base, ds. split; [exact HR|]. rewrite SU in NS. split; [exact NS|]. split; [exact RT|]. left.
        destruct VV as [VV|(V2 & _)]; [exact VV|exfalso]. unfold mg in V2. destruct (NAR _ V2) as [N1 N2]. destruct neg; [rewrite Z.opp_involutive in N2; now apply N2|now apply N1].
    + destruct X as (-> & HV & HX). split; [now left|]. split; [now left|]. intros piece rest neg base ds E HR. destruct (HX piece rest neg base ds E HR) as [H1 H2]. split; [exact H1|]. rewrite SU in H2. destruct H2 as [H2|H2]; [now left|right; auto].
    + rewrite SU in X. exact X.
    + exact X.
Qed.

(** What is read is determined by the input. *)
Theorem scan_int_reads m t s T n piece rest neg base ds : is_ity t -> good_type s -> width_ok s -> (n <= length T)%nat -> Z.of_nat (length T) < 2 ^ 64 -> Forall is_byte (skipn n T) ->
  skipn n T = piece ++ rest -> reads_number s piece rest neg base ds -> (neg = true -> signed t = true) -> in_range t (number_value neg base ds) ->
  scan_int m t s (mk_reader T n) = (Ok tt, (mk_reader T (n + length piece), Some (number_value neg base ds))).
Proof.
  intros IT GT WO HN HL CL E HR NS RV. destruct (upcasted_facts t IT) as (SU & RU & UC). assert (B := upcasted_big t IT). set (V := number_value neg base ds) in *.
  assert (A : read_arg_int m (upcasted t) s (mk_reader T n) = (Ok tt, (mk_reader T (n + length piece), Some V))).
  { unfold read_arg_int. destruct WO as [WO|WO].
    - rewrite WO. change (-1 =? -1) with true. cbv iota. destruct (number_of_reads _ _ _ _ _ _ WO HR) as (sign & p & -> & HI). rewrite <- E in HI.
      assert (Y := read_number_in m (upcasted t) s T n neg base sign p ds rest B GT CL HI). fold V in Y.
      destruct (read_number m (upcasted t) s (mk_reader T n)) as [[x|e| |] r'].
      + destruct Y as (-> & _ & _ & [-> |(_ & Y & _)]); [reflexivity|]. exfalso. now apply Y, RU.
      + exfalso. destruct Y as (_ & [[Y1 Y2]|Y]); [rewrite SU, (NS Y1) in Y2; discriminate|]. now apply Y, RU.
      + exfalso. destruct Y as (_ & _ & Y). now apply Y, RU.
      + contradiction.
    - replace (sc_width s =? -1) with false by lia. destruct (number_of_reads_width s piece rest neg base ds ltac:(lia) HR) as [LP (sign & p & EP & HI)].
      assert (L := f_equal (@length Z) E). rewrite skipn_length, app_length in L. unfold cnt_remaining. cbn [rtext rpos]. replace (Z.of_nat (length T - n) <? sc_width s) with false by lia.
      rewrite (sub_at T n (sc_width s) HN HL) by lia. assert (ES : firstn (Z.to_nat (sc_width s)) (skipn n T) = piece) by (rewrite E; replace (Z.to_nat (sc_width s)) with (length piece) by lia; apply firstn_app_exact).
      rewrite ES. assert (CS : Forall is_byte (skipn 0 piece)) by (rewrite <- ES; cbn [skipn]; now apply forall_firstn).
      assert (Y := read_number_in m (upcasted t) s piece 0 neg base sign p ds [] B GT CS HI). fold V in Y. destruct (read_number m (upcasted t) s (mk_reader piece 0)) as [[x|e| |] r'].
      + destruct Y as (-> & _ & _ & [-> |(_ & Y & _)]); [|exfalso; now apply Y, RU]. unfold at_eof. cbn [rtext rpos]. rewrite Nat.add_0_l, <- EP, Nat.eqb_refl. cbn [negb].
        rewrite pop_pos by (unfold cnt_remaining; cbn; lia). unfold set_pos. cbn. do 3 f_equal. lia.
      + exfalso. destruct Y as (_ & [[Y1 Y2]|Y]); [rewrite SU, (NS Y1) in Y2; discriminate|]. now apply Y, RU.
      + exfalso. destruct Y as (_ & _ & Y). now apply Y, RU.
      + contradiction. }
  unfold scan_int. rewrite A. cbn [fst snd]. destruct (32 <=? bits t); [reflexivity|]. unfold in_range in RV. now replace ((V <? imin t) || (imax t <? V)) with false by lia.
Qed.

(** ** Characters *)
Lemma scan_char_at T n : (n <= length T)%nat ->
  (skipn n T = [] /\ scan_char (mk_reader T n) = (Err eof, (mk_reader T n, None))) \/
  exists c l, skipn n T = c :: l /\ scan_char (mk_reader T n) = (Ok tt, (mk_reader T (S n), Some c)).
Proof.
  intros H. unfold scan_char. destruct (reader_at T n H) as [(E & _ & ->)|(c & l & E & _ & _ & _ & -> & _)]; [left; auto|right]. exists c, l. auto.
Qed.
