(** Property C57: user-defined scanners. *)
From Verif Require Import Base Conversion Reader Buffer Writer Bitset Specs FormatArg FloatArg Format Custom Scan CustomScan.
From Verif Require Import Lib SpecNum SpecDigits SpecReader SpecEscape SpecFloat SpecFormat SpecDecimal SpecField SpecSpecs SpecString SpecCustom SpecScan SpecCustomScan.
From Verif Require Import ConversionProofs ReaderProofs SpecsProofs BitsetProofs BufferProofs Emits WriterProofs StringProofs StringLoop StringEmits StringTop CustomProofs ScanSpecs ScanLoop ScanNumber ScanInt ScanText ScanTop CustomScanProofs PropsFormat PropsCustom PropsScan SpecString SpecScan SpecCustomScan.

(** ** Accepted scan strings *)
Theorem C57_accepted : forall V s (us : list (suser V)) cs,
  Forall2 keeps_scan us cs -> Forall is_byte s -> user_scan_accepted s us ->
  (length us <= 128)%nat /\ (user_scan_well_formed s cs \/ user_scan_cut_short s cs).
Proof.
  intros V s us cs HK HB HA. destruct (C56_accepted s (map checked us) (map string_contract cs) (string_keeps us cs HK) HB HA) as [HL H]. rewrite map_length in HL. split; [exact HL|].
  destruct H as [(its & ns & HS & HG & HC)|(its & ns & e & HS & HG & HC & HE)]; rewrite map_length in HC; apply items_string in HG; [left; exists its, ns|right; exists its, ns, e]; auto.
Qed.
Print Assumptions C57_accepted.

Theorem C57_accepted_iff : forall V s (us : list (suser V)) cs,
  Forall2 keeps_scan us cs -> Forall is_byte s -> (length us <= 128)%nat -> small_numbers s ->
  user_scan_accepted s us <-> user_scan_well_formed s cs \/ user_scan_cut_short s cs.
Proof.
  intros V s us cs HK HB HL HSm. split; [intros HA; exact (proj2 (C57_accepted V s us cs HK HB HA))|]. intros H.
  apply (C56_accepted_iff s (map checked us) (map string_contract cs) (string_keeps us cs HK) HB); [now rewrite map_length|exact HSm|].
  destruct H as [(its & ns & HS & HG & HC)|(its & ns & e & HS & HG & HC & HE)]; apply items_string in HG; [left; exists its, ns|right; exists its, ns, e]; rewrite map_length; auto.
Qed.
Print Assumptions C57_accepted_iff.

(** Other strings are rejected: the call fails, and neither input nor variables change. *)
Theorem C57_rejected : forall V s (us : list (suser V)) cs r vars,
  Forall2 keeps_scan us cs -> Forall is_byte s -> (length us <= 128)%nat -> ~ user_scan_well_formed s cs -> ~ user_scan_cut_short s cs ->
  user_scan_from r s us vars = (Err invalid_format, (r, vars)).
Proof.
  intros V s us cs r vars HK HB HL N1 N2. destruct (user_decided (map checked us) (map string_contract cs) (string_keeps us cs HK) s HB) as (v & HV & [HS|HS]); [now rewrite map_length| |].
  - exfalso. destruct (C57_accepted V s us cs HK HB) as [_ [H|H]]; [exists v; auto|contradiction..].
  - unfold user_scan_from, user_scan_string. rewrite HV. unfold user_vscan_from. now rewrite HS.
Qed.
Print Assumptions C57_rejected.

(** ** What a scan does *)
Definition user_scan_call {V} (input fmt : list Z) (us : list (suser V)) (cs : list (scan_contract V)) (vars : list V) : Prop :=
  Forall2 keeps_scan us cs /\ Forall is_byte fmt /\ Forall is_byte input /\ Z.of_nat (length input) < 2 ^ 64 /\ length vars = length us /\ user_scan_accepted fmt us.

Lemma call_reading {V} input fmt (us : list (suser V)) cs vars its ns : user_scan_call input fmt us cs vars -> fmt = text_of its -> user_scan_items cs its ns ->
  (length us <= 128)%nat /\ uacc (map checked us) (map string_contract cs) fmt 0 None 0 its ns (text_of []) /\ forall k, (k < length us)%nat -> In k ns.
Proof.
  intros (HK & HB & _ & _ & _ & HA) HS HG. assert (HK' := string_keeps us cs HK). destruct (user_sound _ _ HK' fmt HB HA) as (its' & ns' & e & HAc & HL & HC).
  apply items_string in HG. destruct (uacc_reading _ _ HK' fmt its ns its' ns' e HL HAc HS HG) as (-> & -> & ->). rewrite map_length in *. auto.
Qed.

(** The input from the position of the reader on is the text of the string, in which
    every field stands for a piece that its scanner takes, and the variables have got
    the values; or there is a first field or text at which the scan stops, with the
    error of the scanner or of the comparison, and only the variables up to there have
    changed. *)
Theorem C57_scan_from : forall V input i fmt (us : list (suser V)) cs vars its ns,
  user_scan_call input fmt us cs vars -> (i <= length input)%nat -> fmt = text_of its -> user_scan_items cs its ns ->
  match user_scan_from (mk_reader input i) fmt us vars with
  | (Ok _, (r', vars')) => exists rest j, user_scans cs [] its ns (skipn i input) rest vars vars' /\
      r' = mk_reader input j /\ skipn j input = rest /\ (i <= j <= length input)%nat
  | (o, (r', vars')) => user_stops cs [] its ns (skipn i input) o vars vars' /\ exists j, r' = mk_reader input j /\ (i <= j <= length input)%nat
  end.
Proof.
  intros V input i fmt us cs vars its ns HCall Hi HS HG. destruct (call_reading _ _ _ _ _ _ _ HCall HS HG) as (HL & HA & HC). destruct HCall as (HK & HB & HI & HLI & HV & _).
  exact (user_from_reads us cs HK fmt its ns [] input i vars HB HI HLI HL Hi HV HA no_end HC).
Qed.
Print Assumptions C57_scan_from.

(** scan succeeds if this is the whole input. *)
Theorem C57_scan : forall V input fmt (us : list (suser V)) cs vars its ns,
  user_scan_call input fmt us cs vars -> fmt = text_of its -> user_scan_items cs its ns ->
  match user_scan input fmt us vars with
  | (Ok _, vars') => user_scans cs [] its ns input [] vars vars'
  | (o, vars') => user_stops cs [] its ns input o vars vars' \/
      (o = Err invalid_format /\ exists rest, rest <> [] /\ user_scans cs [] its ns input rest vars vars')
  end.
Proof.
  intros V input fmt us cs vars its ns HC HS HG. assert (X := C57_scan_from V input 0 fmt us cs vars its ns HC ltac:(lia) HS HG). unfold user_scan, reader_of.
  destruct (user_scan_from (mk_reader input 0) fmt us vars) as [[u|e| |] [r' vars']]; try (left; exact (proj1 X)).
  destruct X as (rest & j & HR & -> & Hj & HJ). assert (P := eof_rest input j ltac:(lia)). rewrite Hj in P. destruct (at_eof (mk_reader input j)).
  - rewrite (proj1 P eq_refl) in HR. exact HR.
  - right. split; [reflexivity|]. exists rest. split; [|exact HR]. intros E. apply P in E. discriminate.
Qed.
Print Assumptions C57_scan.

(** The same without a reading of the string at hand: an accepted string has one.
    [ei] stands for what follows a field for the argument 255. *)
Theorem C57_any : forall V input fmt (us : list (suser V)) cs vars,
  user_scan_call input fmt us cs vars ->
  exists its ns ei, fmt = text_of (its ++ ei) /\ user_scan_items cs its ns /\ (ei = [] \/ field_255 (text_of ei)) /\
  match user_scan_from (reader_of input) fmt us vars with
  | (Ok _, (r', vars')) => exists rest j, user_scans cs ei its ns input rest vars vars' /\ r' = mk_reader input j /\ skipn j input = rest
  | (o, (_, vars')) => user_stops cs ei its ns input o vars vars'
  end.
Proof.
  intros V input fmt us cs vars (HK & HB & HI & HLI & HV & HA). assert (HK' := string_keeps us cs HK). destruct (user_sound _ _ HK' fmt HB HA) as (its & ns & e & HAc & HL & HC). rewrite map_length in *.
  assert (HE : e = [] \/ field_255 e) by (destruct (uacc_cut _ _ _ _ _ _ _ _ _ HAc) as [->|(? & _)]; auto). destruct (end_of e HE) as (ei & HEi & <-). destruct (uacc_good _ _ _ _ _ _ HAc) as (HS & HG).
  exists its, ns, ei. split; [now rewrite text_of_app|]. split; [now apply items_string|]. split; [destruct HE as [HE|HE]; [left; destruct HEi as [->|(? & ? & ? & ? & -> & _)]; [reflexivity|discriminate]|now right]|].
  assert (X := user_from_reads us cs HK fmt its ns ei input 0 vars HB HI HLI HL (Nat.le_0_l _) HV HAc HEi HC). change (mk_reader input 0) with (reader_of input) in X. cbn [skipn] in X.
  destruct (user_scan_from (reader_of input) fmt us vars) as [[u|e| |] [r' vars']]; try exact (proj1 X). destruct X as (rest & j & H1 & H2 & H3 & _). eauto.
Qed.
Print Assumptions C57_any.

(** Conversely, where the scanners leave nothing open: if the input is the text of the
    string with pieces that they take, this is what scan_from reads. *)
Theorem C57_complete : forall V input i fmt (us : list (suser V)) cs vars its ns rest vars',
  user_scan_call input fmt us cs vars -> (i <= length input)%nat -> fmt = text_of its -> user_scan_items cs its ns ->
  user_scans (map certain cs) [] its ns (skipn i input) rest vars vars' ->
  exists j, user_scan_from (mk_reader input i) fmt us vars = (Ok tt, (mk_reader input j, vars')) /\ skipn j input = rest /\ (i <= j <= length input)%nat.
Proof.
  intros V input i fmt us cs vars its ns rest vars' HC Hi HS HG HR. assert (X := C57_scan_from V input i fmt us cs vars its ns HC Hi HS HG).
  destruct (user_scan_from (mk_reader input i) fmt us vars) as [[[]|e| |] [r' vars2]]; try (exfalso; exact (certain_goes_on cs _ _ _ _ _ _ _ _ _ HR (proj1 X))).
  destruct X as (rest2 & j & HR2 & -> & Hj & HJ). destruct (certain_unique cs _ _ _ _ _ _ _ HR _ _ HR2) as [-> ->]. eauto.
Qed.
Print Assumptions C57_complete.

(** ** The scanners of the library *)

(** They are a special case: the same strings are accepted, and the same is read. *)
Theorem C57_builtin : forall m tys fmt r vars, length vars = length tys ->
  user_scan_string fmt (map (scan_builtin m) tys) = scan_string fmt tys /\
  user_scan_from r fmt (map (scan_builtin m) tys) vars = scan_from m r fmt tys vars /\
  (r = reader_of (rtext r) -> user_scan (rtext r) fmt (map (scan_builtin m) tys) vars = scan m (rtext r) fmt tys vars).
Proof.
  intros m tys fmt r vars HV.
  assert (A : user_scan_string fmt (map (scan_builtin m) tys) = scan_string fmt tys).
  { unfold user_scan_string, user_string, scan_string, scan_validate. rewrite map_map, !map_length. destruct (_ && _); [reflexivity|]. f_equal.
    generalize (S (length fmt)) (reader_of fmt) (@None bool) 0 (bitset_new 128). clear. induction n as [|fuel IH]; intros r use inc b; [reflexivity|].
    cbn [user_loop scan_validate_loop]. rewrite !map_length. destruct (check_text _ r) as [[[]|?| |] r1]; try reflexivity.
    destruct (check_field r1 use inc) as [[[[k use'] inc']|?| |] r2]; try reflexivity. destruct (k =? no_more_args); [reflexivity|]. destruct (_ <=? k); [reflexivity|].
    destruct (bitset_set b (Z.to_nat k)) as [b'| | |]; try reflexivity. cbn [bind]. rewrite !nth_error_map. destruct (nth_error tys (Z.to_nat k)) as [t|]; [|reflexivity]. cbn [option_map].
    change (validate_trait (checked (scan_builtin m t)) r2) with (validate_sty t r2). destruct (validate_sty t r2) as [[[]|?| |] r3]; try reflexivity. apply IH. }
  assert (TX : forall fuel fr r vars b, scan_text fuel (fr, (r, vars)) b = (let '(o, (fr', (r', _))) := scan_text fuel (fr, (r, [])) b in (o, (fr', (r', vars))))).
  { clear. induction fuel as [|fuel IH]; intros fr r vars b; [reflexivity|]. cbn [scan_text].
    assert (MP : forall fr r vars b it, match_part (fr, (r, vars)) b it = (let '(o, (fr', (r', _))) := match_part (fr, (r, [])) b it in (o, (fr', (r', vars))))) by (intros fr0 r0 v0 b0 it0; unfold match_part; destruct (read_if_match_str r0 _); reflexivity).
    destruct (nth_error (rtext fr) (rpos fr)) as [c|].
    - destruct (c =? ch_lbrace).
      + destruct (nth_error (rtext fr) (S (rpos fr))) as [c2|]; [|reflexivity]. destruct (c2 =? ch_lbrace).
        * rewrite MP. destruct (match_part _ _ _) as [[x|e| |] [fr' [r' v']]] eqn:E; cbn [sbind snd]; try reflexivity. rewrite IH. rewrite (IH _ _ v'). destruct (scan_text fuel _ _) as [? [? [? ?]]]. reflexivity.
        * destruct (_ =? _)%nat; cbn [sbind]; [reflexivity|]. rewrite MP. destruct (match_part _ _ _) as [[x|e| |] [fr' [r' v']]]; reflexivity.
      + destruct (c =? ch_rbrace).
        * rewrite MP. destruct (match_part _ _ _) as [[x|e| |] [fr' [r' v']]] eqn:E; cbn [sbind snd]; try reflexivity. destruct (_ <? _)%nat; [|reflexivity]. rewrite IH. rewrite (IH _ _ v'). destruct (scan_text fuel _ _) as [? [? [? ?]]]. reflexivity.
        * apply IH.
    - destruct (_ =? _)%nat; cbn [sbind]; [reflexivity|]. rewrite MP. destruct (match_part _ _ _) as [[x|e| |] [fr' [r' v']]]; reflexivity. }
  assert (L : forall fuel inc fr r vars, length vars = length tys -> user_scan_loop fuel (map (scan_builtin m) tys) inc (fr, (r, vars)) = scan_loop fuel m tys inc (fr, (r, vars))).
  { clear - TX. induction fuel as [|fuel IH]; intros inc fr r vars HV; [reflexivity|]. cbn [user_scan_loop scan_loop fst]. rewrite (TX _ _ _ vars). destruct (scan_text (S (length (rtext fr))) (fr, (r, [])) (rpos fr)) as [[field|e| |] [fr1 [r1 v1]]]; cbn [sbind]; try reflexivity.
    destruct (negb field); [reflexivity|]. destruct (parse_field fr1 inc) as [[[n inc']|e| |] fr2]; cbn [sbind]; try reflexivity. destruct (n =? no_more_args); [reflexivity|]. rewrite nth_error_map.
    destruct (nth_error tys (Z.to_nat n)) as [t|] eqn:EN; cbn [option_map]; [|reflexivity]. assert (HN : (Z.to_nat n < length tys)%nat) by (apply nth_error_Some; congruence).
    destruct (nth_error vars (Z.to_nat n)) as [x|] eqn:EV; [|apply nth_error_None in EV; lia]. cbn [scan_builtin su_parse su_scan]. unfold scan_field.
    destruct (parse_scan_specs fr2 default_scan) as [[s|e| |] fr3]; cbn [sbind]; try reflexivity. cbn [fst snd].
    destruct (scan_value m t s fr3 r1) as [o [r2 v]]. assert (SV : set_var vars (Z.to_nat n) (match v with Some v => v | None => x end) = assign vars (Z.to_nat n) v).
    { clear - EV. revert EV. generalize (Z.to_nat n) as k. induction vars as [|y vars IH]; intros [|k] H; try discriminate; cbn in *; destruct v; cbn in *; try reflexivity.
      - now injection H as ->.
      - f_equal. now apply IH.
      - f_equal. now apply IH. }
    rewrite SV. destruct o as [[]|e| |]; cbn [sbind]; try reflexivity. apply IH. rewrite <- SV, set_length. exact HV. }
  assert (B : user_scan_from r fmt (map (scan_builtin m) tys) vars = scan_from m r fmt tys vars).
  { unfold user_scan_from, scan_from. rewrite A. destruct (scan_string fmt tys) as [v| | |]; try reflexivity. unfold user_vscan_from, vscan_from. destruct (vs_str v) as [sv| | |]; try reflexivity. destruct (vs_plain v); [reflexivity|]. now rewrite L. }
  split; [exact A|]. split; [exact B|]. intros E. rewrite scan_is. unfold user_scan. rewrite E in B. now rewrite B.
Qed.
Print Assumptions C57_builtin.

(** They keep the promises of C38, C39, C40 and C49, so that they can be used together
    with others.  The text that a field for a text takes depends on the items behind it. *)
Definition builtin_scan_contract (m : overflow_mode) (t : sty) : scan_contract sval :=
  mk_scan_contract (scan_field_spec t)
    (fun sp following old piece rest v => exists s, scan_spec_text sp s /\ field_reads (reads_int m) takes_then t s following piece rest v)
    (fun sp following old input o v =>
      (small_numbers sp -> forall s piece rest x, input = piece ++ rest -> scan_spec_text sp s -> ~ field_reads reads_exactly takes t s following piece rest x) /\
      (((exists e, o = Err e) /\ (v = old \/ exists k s, t = SInt k /\ 32 <= bits k /\ scan_spec_text sp s /\ sc_width s <> -1)) \/
       (o = Undef /\ m = iso /\ exists k, t = SInt k /\ signed k = true /\ overlong (upcasted k) input))).
Lemma undef_stays m t s r ra : scan_int m t s r = (Undef, ra) -> fst ra = r.
Proof.
  unfold scan_int. assert (A : forall t' ra, read_arg_int m t' s r = (Undef, ra) -> fst ra = r).
  { clear. intros t' ra. unfold read_arg_int. destruct (if sc_width s =? -1 then _ else _) as [r0| | |]; try discriminate; [|now intros [= <-]].
    destruct (read_number m t' s r0) as [[v|e| |] r1]; try discriminate; [|now intros [= <-]]. destruct (sc_width s =? -1); [discriminate|]. destruct (negb (at_eof r1)); discriminate. }
  destruct (read_arg_int m (upcasted t) s r) as [o ra'] eqn:E. destruct (32 <=? bits t).
  - intros [= -> <-]. now apply A in E.
  - destruct o as [[]|e| |]; try discriminate; [|intros [= <-]; now apply A in E]. destruct (snd ra') as [v|] eqn:ES; [destruct ((v <? imin t) || (imax t <? v)); discriminate|].
    exfalso. unfold read_arg_int in E. destruct (if sc_width s =? -1 then _ else _) as [r0| | |]; try discriminate. destruct (read_number m (upcasted t) s r0) as [[v|e| |] r1]; try discriminate.
    destruct (sc_width s =? -1); [injection E as <-; discriminate|]. destruct (negb (at_eof r1)); [discriminate|]. injection E as <-. discriminate.
Qed.
Theorem C57_builtin_keeps : forall m t, sty_ok t -> keeps_scan (scan_builtin m t) (builtin_scan_contract m t).
Proof.
  intros m t HT. assert (VT : forall r, validate_trait (checked (scan_builtin m t)) r = validate_sty t r) by reflexivity. split; cbn [builtin_scan_contract sc_reads sc_takes sc_fails].
  - intros sp (s & HS & _). eapply scan_spec_end; eauto.
  - intros T n HB HN. rewrite VT. assert (S := validate_sty_total t (mk_reader T n) (mk_reader T n) HN eq_refl). destruct (validate_sty t (mk_reader T n)) as [[[]|?| |] r] eqn:E; try exact S; [|exact Logic.I].
    destruct (validate_sty_sound t T n r HB E) as (sp & rest & s & H1 & H2 & H3 & H4 & _). exists sp, rest. split; [exact H1|]. split; [exists s; auto|exact H4].
  - intros T n sp rest HB HS (s & H1 & H2) HSm. rewrite VT. exact (proj1 (validate_sty_complete t T n sp rest s HB HS H1 H2 HSm)).
  - intros T n sp rest HB HS HF HV. rewrite VT in HV. destruct (validate_sty_sound t T n _ HB HV) as (sp' & rest' & s & H1 & H2 & H3 & H4 & H5). injection H4 as H4. assert (LE : length sp' = length sp) by lia.
    unfold scan_parses in H5. rewrite LE in H5. exists (s, mk_reader T (n + length sp)). cbn [scan_builtin su_parse]. rewrite H5. reflexivity.
  - intros T n sp foll mo HB HS HO HF HV HP I i old HI HLI Hi. rewrite VT in HV. destruct (validate_sty_sound t T n _ HB HV) as (sp' & rest' & s & H1 & H2 & H3 & H4 & H5). injection H4 as H4. assert (LE : length sp' = length sp) by lia.
    assert (sp' = sp) as ->. { rewrite HS in H1. assert (X := f_equal (firstn (length sp)) H1). rewrite firstn_app_exact in X. rewrite <- LE, firstn_app_exact in X. now symmetry. }
    unfold scan_parses in H5. cbn [scan_builtin su_parse] in HP. rewrite H5 in HP. cbn [sbind] in HP. injection HP as <-. cbn [scan_builtin su_scan fst snd].
    assert (HSf : skipn (n + length sp) T = text_of foll) by apply (skip_part _ _ _ _ HS). assert (HPf : (n + length sp <= length T)%nat) by (destruct (Nat.le_gt_cases n (length T)); [apply (f_equal (@length Z)) in HS; rewrite skipn_length, app_length in HS; lia|exfalso; rewrite skipn_all2 in HS by lia; destruct (scan_spec_end _ _ H2) as (y & -> & _); destruct y; discriminate]).
    assert (HCl : Forall is_byte (skipn i I)) by now apply forall_skipn.
    assert (X := value_at m t s T (n + length sp) I i foll H3 HT (spec_width _ _ H2) HSf HPf HO Hi HLI HCl).
    assert (N : fst (scan_value m t s (mk_reader T (n + length sp)) (mk_reader I i)) <> Ok tt -> small_numbers sp -> forall s0 piece rest x, skipn i I = piece ++ rest -> scan_spec_text sp s0 -> ~ field_reads reads_exactly takes t s0 foll piece rest x).
    { intros NO HSm s0 piece rest x EI HS0 HR. apply NO. assert (HBs : Forall is_byte sp) by (apply (Forall_app is_byte sp (text_of foll)); rewrite <- HS; now apply forall_skipn).
      assert (s0 = s) as -> by (eapply scan_spec_unique; eauto). now rewrite (value_first m t s T (n + length sp) I i foll piece rest x H3 HT (spec_width _ _ H2) HSf HPf HO Hi HLI HCl EI HR). }
    destruct (scan_value m t s (mk_reader T (n + length sp)) (mk_reader I i)) as [[[]|e| |] [r' v]] eqn:EV; cbn [fst] in N.
    + destruct X as (x & piece & rest & -> & EP & -> & HR). exists piece, rest. split; [exact EP|]. split; [reflexivity|]. exists s. auto.
    + destruct X as [X1 X2]. split; [split; [apply N; discriminate|left; split; [eauto|]]|].
      * destruct v as [v|]; [|now left]. right. destruct X2 as [X2|((k & -> & X2) & X3)]; [discriminate|]. eauto 7.
      * destruct X1 as [-> |(_ & j & -> & X1)]; eauto.
    + destruct X as (X1 & k & -> & X2 & X3). split; [split; [apply N; discriminate|right; split; [reflexivity|split; [exact X1|eauto]]]|].
      cbn [scan_value] in EV. unfold into in EV. destruct (scan_int m k s (mk_reader I i)) as [o ra] eqn:ES. injection EV as -> <- _. apply undef_stays in ES. exists i. split; [exact ES|lia].
    + contradiction.
Qed.
Print Assumptions C57_builtin_keeps.

(** ** Scanners of the documentation *)

(** scanner.hpp:42-61, docs/API.md:960-990: a closing brace; the number is read with parse_int *)
Definition number_scan (m : overflow_mode) (t : ity) : suser Z :=
  mk_suser unit (Some match_rbrace) match_rbrace
    (fun _ old r => match parse_int m t 10 r with
                    | (Ok v, r) => (Ok tt, (r, v))
                    | (Err e, r) => (Err e, (r, old))
                    | (Undef, _) => (Undef, (r, old))
                    | (Abort, _) => (Abort, (r, old))
                    end).
(** A number, with the sign it may have; see C39 for a number that does not fit. *)
Definition number_scan_contract (m : overflow_mode) (t : ity) : scan_contract Z :=
  mk_scan_contract (eq [125]) (fun _ _ _ piece rest v => reads_int m t default_scan piece rest v)
    (fun _ _ old input o v => v = old /\ (forall piece rest x, input = piece ++ rest -> ~ reads_exactly t default_scan piece rest x) /\
      ((exists e, o = Err e) \/ (o = Undef /\ m = iso /\ signed t = true /\ overlong (upcasted t) input))).

Lemma rbrace_scan {V} (validates : bool) f (takes : _ -> _ -> V -> _ -> _ -> V -> Prop) fails :
  (forall following I i old, Forall is_byte I -> Z.of_nat (length I) < 2 ^ 64 -> (i <= length I)%nat ->
    match f tt old (mk_reader I i) with
    | (Ok _, (r, v)) => exists piece rest, skipn i I = piece ++ rest /\ r = mk_reader I (i + length piece) /\ takes [125] following old piece rest v
    | (o, (r, v)) => fails [125] following old (skipn i I) o v /\ exists j, r = mk_reader I j /\ (i <= j <= length I)%nat
    end) ->
  keeps_scan (mk_suser unit (if validates then Some match_rbrace else None) match_rbrace f) (mk_scan_contract (eq [125]) takes fails).
Proof.
  intros H. set (u := mk_suser unit _ match_rbrace f).
  assert (VT : forall r, validate_trait (checked u) r = match_rbrace r) by (intros r; unfold validate_trait, u; cbn [checked u_validate su_validate su_parse u_parse]; destruct validates; [reflexivity|apply trait_discard]).
  split; cbn [sc_reads sc_takes sc_fails].
  - intros sp <-. exists []. auto.
  - intros T n _ HN. rewrite VT. exact (rbrace_trait T n HN).
  - intros T n sp rest _ HS <- _. rewrite VT. apply match_rbrace_ok. split; [eauto|reflexivity].
  - intros T n sp rest _ HS <- HV. rewrite VT in HV. exists tt. exact HV.
  - intros T n sp foll [] _ HS _ <- HV _ I i old HI HL Hi. apply H; assumption.
Qed.

Lemma default_good : good_type default_scan.
Proof. unfold good_type. cbn. auto. Qed.
Lemma default_width : width_ok default_scan.
Proof. now left. Qed.

Theorem C57_number : forall m t, is_ity t -> keeps_scan (number_scan m t) (number_scan_contract m t).
Proof.
  intros m t HT. apply (rbrace_scan true). intros _ I i old HI HL Hi. assert (HCl : Forall is_byte (skipn i I)) by now apply forall_skipn.
  assert (X := scan_int_at m t default_scan I i HT default_good default_width Hi HL HCl).
  assert (N : fst (scan_int m t default_scan (mk_reader I i)) <> Ok tt -> forall piece rest x, skipn i I = piece ++ rest -> ~ reads_exactly t default_scan piece rest x).
  { intros NO piece rest x EI (neg & base & ds & HR & HN & HV & ->). apply NO. now rewrite (scan_int_reads m t default_scan I i piece rest neg base ds HT default_good default_width Hi HL HCl EI HR HN HV). }
  destruct (upcasted_facts t HT) as (SU & RU & UC).
  assert (P : parse_int m t 10 (mk_reader I i) = match scan_int m t default_scan (mk_reader I i) with
    | (Ok _, (r, Some v)) => (Ok v, r)
    | (Err e, _) => (Err e, mk_reader I i)
    | (Undef, _) => (Undef, snd (parse_sign_and_int m (upcasted t) 10 (mk_reader I i)))
    | (Abort, _) => (Abort, snd (parse_sign_and_int m (upcasted t) 10 (mk_reader I i)))
    | (Ok _, (r, None)) => (Undef, r)
    end).
  { revert X. unfold parse_int, scan_int, read_arg_int. change (sc_width default_scan =? -1) with true. cbv iota.
    assert (RN : read_number m (upcasted t) default_scan (mk_reader I i) = parse_sign_and_int m (upcasted t) 10 (mk_reader I i)).
    { unfold read_number, parse_sign_and_int. destruct (parse_sign (mk_reader I i)) as [[neg|e| |] r]; reflexivity. }
    rewrite RN. destruct (parse_sign_and_int m (upcasted t) 10 (mk_reader I i)) as [[v|e| |] r]; cbn [fst snd]; destruct (32 <=? bits t) eqn:EB; intros X; try reflexivity.
    - destruct X as (w & piece & rest & [= <-] & _ & _ & (neg & base & ds & _ & _ & HR & _)). unfold in_range in HR. replace ((v <? imin t) || (imax t <? v)) with false by lia. reflexivity.
    - destruct ((v <? imin t) || (imax t <? v)); reflexivity. }
  rewrite P. destruct (scan_int m t default_scan (mk_reader I i)) as [[[]|e| |] [r v]] eqn:ES; cbn [fst] in N.
  - destruct X as (w & piece & rest & -> & EP & -> & HR). exists piece, rest. auto.
  - split; [|exists i; auto]. split; [reflexivity|]. split; [apply N; discriminate|]. left. eauto.
  - split; [|exists i; auto]. split; [reflexivity|]. split; [apply N; discriminate|]. right. tauto.
  - contradiction.
Qed.
Print Assumptions C57_number.

(** The numbers without a sign, and what is certain about them: they fit, and no digit
    follows. *)
Lemma run_same (P : Z -> bool) a b x y : Forall (fun c => P c = true) a -> Forall (fun c => P c = true) b ->
  (forall c l, x = c :: l -> P c = false) -> (forall c l, y = c :: l -> P c = false) -> a ++ x = b ++ y -> a = b /\ x = y.
Proof.
  intros HA. revert b. induction HA as [|c a Hc HA IH]; intros [|d b] HB HX HY E; cbn [app] in E.
  - auto.
  - exfalso. specialize (HX _ _ E). inversion HB. congruence.
  - exfalso. specialize (HY _ _ (eq_sym E)). congruence.
  - injection E as <- E. destruct (IH b (Forall_inv_tail HB) HX HY E) as [-> ->]. auto.
Qed.
Lemma default_number piece rest neg base ds : reads_number default_scan piece rest neg base ds ->
  base = 10 /\ exists sign, piece = sign ++ ds /\ signed_text neg sign /\ digits_of 10 ds /\ forall c l, rest = c :: l -> taken_digit 10 c = false.
Proof.
  intros (sign & p & -> & HS & HD & HF & HR). unfold number_form in HF. cbn [default_scan sc_type sc_alternate sc_width] in *. change (no_type =? 0) with true in HF. cbn [andb] in HF. change (-1 =? -1) with true in HR. cbv iota in *.
  destruct HF as [HL ->]. assert (base = 10) as ->.
  { unfold letter_base in HL. cbn in HL. repeat (destruct HL as [HL|HL]; [injection HL; intros; subst; try reflexivity; discriminate|]). contradiction. }
  split; [reflexivity|]. exists sign. auto.
Qed.
Lemma default_same piece rest neg base ds piece' rest' neg' base' ds' : reads_number default_scan piece rest neg base ds -> reads_number default_scan piece' rest' neg' base' ds' ->
  piece' ++ rest' = piece ++ rest -> piece' = piece /\ neg' = neg /\ base' = base /\ ds' = ds.
Proof.
  intros H H' E. destruct (default_number _ _ _ _ _ H) as (-> & sign & -> & HS & [HN HD] & HR). destruct (default_number _ _ _ _ _ H') as (-> & sign' & -> & HS' & [HN' HD'] & HR'). rewrite <- !app_assoc in E.
  assert (D : forall c, taken_digit 10 c = true -> c <> 43 /\ c <> 45) by (intros c HT; split; intros ->; discriminate).
  assert (sign' = sign /\ neg' = neg) as [-> ->].
  { destruct ds as [|d ds]; [congruence|]. destruct ds' as [|d' ds']; [congruence|]. apply Forall_inv in HD, HD'. apply D in HD, HD'. unfold signed_text in *.
    destruct neg, neg'; subst; cbn [app] in E; repeat match goal with X : _ \/ _ |- _ => destruct X end; subst; cbn [app] in E; try discriminate E; auto; injection E; intros; subst; tauto. }
  apply app_inv_head in E. destruct (run_same (taken_digit 10) ds' ds rest' rest HD' HD HR' HR E) as [-> _]. auto.
Qed.
Theorem C57_number_certain : forall m t sp following old piece rest x,
  reads_exactly t default_scan piece rest x -> sc_takes (certain (number_scan_contract m t)) sp following old piece rest x.
Proof.
  intros m t sp following old piece rest x HR. cbn [certain sc_takes number_scan_contract sc_fails]. split; [|split].
  - destruct HR as (neg & base & ds & H1 & H2 & H3 & ->). exists neg, base, ds. auto.
  - intros piece' rest' v' (neg' & base' & ds' & H1' & H2' & H3' & HV) E. destruct HR as (neg & base & ds & H1 & H2 & H3 & ->).
    destruct (default_same _ _ _ _ _ _ _ _ _ _ H1 H1' E) as (-> & -> & -> & ->). split; [reflexivity|]. destruct HV as [HV|(_ & NV & _)]; [exact HV|contradiction].
  - intros o v' (_ & HF & _). exact (HF _ _ _ eq_refl HR).
Qed.
Print Assumptions C57_number_certain.

(** docs/API.md:1003-1020: a scanner that is derived from another one and passes a part
    of its variable on *)
Definition derived {V W} (get : V -> W) (put : V -> W -> V) (u : suser W) : suser V :=
  mk_suser (su_object u) (su_validate u) (su_parse u) (fun m x r => let '(o, (r, w)) := su_scan u m (get x) r in (o, (r, put x w))).
Definition derived_contract {V W} (get : V -> W) (put : V -> W -> V) (c : scan_contract W) : scan_contract V :=
  mk_scan_contract (sc_reads c)
    (fun sp following old piece rest v => exists w, sc_takes c sp following (get old) piece rest w /\ v = put old w)
    (fun sp following old input o v => exists w, sc_fails c sp following (get old) input o w /\ v = put old w).
Theorem C57_derived : forall V W (get : V -> W) (put : V -> W -> V) u c, keeps_scan u c -> keeps_scan (derived get put u) (derived_contract get put c).
Proof.
  intros V W get put u c H. assert (VT : forall r, validate_trait (checked (derived get put u)) r = validate_trait (checked u) r) by reflexivity.
  split; cbn [derived_contract sc_reads sc_takes sc_fails].
  - exact (ks_closed u c H).
  - exact (ks_sound u c H).
  - exact (ks_complete u c H).
  - exact (ks_parse u c H).
  - intros T n sp foll m HB HS HO HR HV HP I i old HI HL Hi. assert (X := ks_scan u c H T n sp foll m HB HS HO HR HV HP I i (get old) HI HL Hi). cbn [derived su_scan].
    destruct (su_scan u m (get old) (mk_reader I i)) as [[[]|e| |] [r w]]; [destruct X as (piece & rest & X1 & X2 & X3); eauto 8|destruct X as [X1 X2]; eauto..].
Qed.
Print Assumptions C57_derived.

(** A scanner that reads its variable with a scan string of its own: it calls scan_from *)
Definition nested_scan (m : overflow_mode) (fmt : list Z) (tys : list sty) : suser (list sval) :=
  mk_suser unit None match_rbrace (fun _ old r => match scan_from m r fmt tys old with (Undef, _) => (Undef, (r, old)) | res => res end).
Definition nested_contract (m : overflow_mode) (tys : list sty) (its : list item) (ns : list nat) : scan_contract (list sval) :=
  mk_scan_contract (eq [125])
    (fun _ _ old piece rest v => exists vs, scans (read_fields m tys []) its ns (piece ++ rest) rest vs /\ v = assigned old vs)
    (fun _ _ old input o v => ((exists e, o = Err e) /\ stops m tys its ns [] input old v) \/
      (o = Undef /\ m = iso /\ exists n t, In n ns /\ nth_error tys n = Some (SInt t) /\ signed t = true /\ overlong (upcasted t) input)).
Theorem C57_nested : forall m fmt tys its ns,
  Forall is_byte fmt -> Forall sty_ok tys -> (length tys <= 128)%nat -> scan_accepted fmt tys -> fmt = text_of its -> scan_items tys its ns ->
  keeps_scan (nested_scan m fmt tys) (nested_contract m tys its ns).
Proof.
  intros m fmt tys its ns HB HT HL HA HS HG. apply (rbrace_scan false). intros _ I i old HI HLI Hi. destruct (accepted_items _ _ _ _ HB HA HS HG) as (HAc & HC).
  assert (X := from_reads m tys fmt its ns [] I i old HB HI HLI HT HL Hi HAc no_end HC). destruct (scan_from m (mk_reader I i) fmt tys old) as [[[]|e| |] [r v]].
  - destruct X as (rest & vs & j & HR & -> & Hj & HJ & ->). exists (firstn (j - i) (skipn i I)), rest.
    assert (E : skipn i I = firstn (j - i) (skipn i I) ++ rest) by (rewrite <- Hj, <- (firstn_skipn (j - i) (skipn i I)) at 1; f_equal; rewrite skipn_skipn_nat; f_equal; lia).
    split; [exact E|]. split; [f_equal; rewrite firstn_length, skipn_length; lia|]. exists vs. rewrite <- E. auto.
  - destruct X as [X1 X2]. split; [left; eauto|exact X2].
  - split; [|exists i; auto]. right. tauto.
  - contradiction.
Qed.
Print Assumptions C57_nested.

(** ** Examples *)
Definition the_int (v : sval) : Z := match v with NInt z => z | _ => 0 end.
Definition foo_scan (t : ity) : suser sval := derived the_int (fun _ z => NInt z) (number_scan iso t).
Definition foo_scan_contract (t : ity) : scan_contract sval := derived_contract the_int (fun _ z => NInt z) (number_scan_contract iso t).

(** docs/API.md:995-997; and between fields of the library, in another order *)
Example C57_test : user_scan (str "42") (str "{}") [number_scan iso i32] [0] = (Ok tt, [42]) /\
  user_scan (str "<abc|-7") (str "<{1}|{0:}") [foo_scan i32; scan_builtin iso SStr] [NInt 0; NStr []] = (Ok tt, [NInt (-7); NStr (str "abc")]) /\
  user_scan (str "5,x,6") (str "{},{},{}") [scan_builtin iso (SInt i32); foo_scan i32; scan_builtin iso (SInt i32)] [NInt 0; NInt 1; NInt 2] = (Err invalid_data, [NInt 5; NInt 1; NInt 2]) /\
  user_scan (str "42") (str "{:d}") [number_scan iso i32] [0] = (Err invalid_format, [0]).
Proof. vm_compute. repeat split. Qed.

(** The hypotheses of the theorems are met by a call with mixed scanners. *)
Definition mixed_items : list item := [Literal 60; Field (str "1") false [125]; Literal 124; Field (str "0") true [125]].
Example C57_mixed : user_scan_call (str "<abc|-7") (str "<{1}|{0:}") [foo_scan i32; scan_builtin iso SStr] [foo_scan_contract i32; builtin_scan_contract iso SStr] [NInt 0; NStr []] /\
  str "<{1}|{0:}" = text_of mixed_items /\ user_scan_items [foo_scan_contract i32; builtin_scan_contract iso SStr] mixed_items [1; 0]%nat.
Proof.
  split; [|split; [reflexivity|]].
  - split; [constructor; [apply C57_derived, C57_number; vm_compute; auto 12|constructor; [apply C57_builtin_keeps; exact Logic.I|constructor]]|]. split; [bytes|]. split; [bytes|]. split; [vm_compute; reflexivity|]. split; [reflexivity|].
    exists (mk_vstr false (Ok (str "<{1}|{0:}"))). split; vm_compute; reflexivity.
  - split; [|split].
    + constructor; [intros [H|H]; discriminate|]. constructor; [split; [right; digs|reflexivity]|]. constructor; [intros [H|H]; discriminate|]. constructor; [split; [right; digs|reflexivity]|constructor].
    + right. constructor; [split; [digs|reflexivity]|]. constructor; [split; [digs|reflexivity]|constructor].
    + constructor; [|constructor; [|constructor]]; eexists; (split; [reflexivity|]); [|reflexivity].
      exists default_scan. split; [|cbn; tauto]. exists [], [], [], false, (-1), 0. split; [reflexivity|]. split; [reflexivity|]. split; [left; auto|]. split; [left; auto|reflexivity].
Qed.

(** A scan with two numbers, whose outcome C57_complete determines *)
Definition pair_items : list item := [Field [] false [125]; Literal 120; Field [] false [125]].
Definition pair_contracts : list (scan_contract Z) := [number_scan_contract iso i32; number_scan_contract iso i8].
Example C57_pair : user_scan_call (str "12x-7!") (str "{}x{}") [number_scan iso i32; number_scan iso i8] pair_contracts [0; 0] /\
  str "{}x{}" = text_of pair_items /\ user_scan_items pair_contracts pair_items [0; 1]%nat /\
  user_scans (map certain pair_contracts) [] pair_items [0; 1]%nat (str "12x-7!") (str "!") [0; 0] [12; -7].
Proof.
  split; [|split; [reflexivity|split]].
  - split; [constructor; [apply C57_number; unfold is_ity; cbn; auto 12|constructor; [apply C57_number; unfold is_ity; cbn; auto 12|constructor]]|]. split; [bytes|]. split; [bytes|]. split; [vm_compute; reflexivity|]. split; [reflexivity|].
    exists (mk_vstr false (Ok (str "{}x{}"))). split; vm_compute; reflexivity.
  - split; [|split].
    + constructor; [split; [now left|reflexivity]|]. constructor; [intros [H|H]; discriminate|]. constructor; [split; [now left|reflexivity]|constructor].
    + left. split; [constructor; [reflexivity|constructor; [reflexivity|constructor]]|reflexivity].
    + constructor; [|constructor; [|constructor]]; eexists; (split; reflexivity).
  - change (str "12x-7!") with (str "12" ++ str "x-7!"). eapply usc_field with (v := 12); [reflexivity| |exists [], [0]; split; [reflexivity|split; reflexivity]|].
    + apply C57_number_certain. exists false, 10, (str "12"). split; [|split; [reflexivity|split; [vm_compute; split; discriminate|reflexivity]]]. exists [], []. split; [reflexivity|]. split; [now left|]. split; [split; [discriminate|repeat constructor]|].
      split; [split; [cbn; tauto|reflexivity]|]. intros c l H. injection H as <- _. reflexivity.
    + change (str "x-7!") with (120 :: str "-7!"). constructor. change (str "-7!") with (str "-7" ++ str "!"). eapply usc_field with (v := -7); [reflexivity| |exists [12], []; split; [reflexivity|split; reflexivity]|constructor].
      apply C57_number_certain. exists true, 10, (str "7"). split; [|split; [reflexivity|split; [vm_compute; split; discriminate|reflexivity]]]. exists [45], []. split; [reflexivity|]. split; [reflexivity|]. split; [split; [discriminate|repeat constructor]|].
      split; [split; [cbn; tauto|reflexivity]|]. intros c l H. injection H as <- _. reflexivity.
Qed.

(** ** Three claims that are false *)

(** docs/API.md:1016-1019: with a scanner that is derived from that of int,
    scan("0x2A", "{:x}", f) gives 42.  It reads the number 0 and fails at the x: a
    prefix is only read with the alternate form. *)
Definition derived_int : suser Z := derived NInt (fun _ v => the_int v) (scan_builtin iso (SInt i32)).
Theorem C57_doc_refuted :
  user_scan (str "0x2A") (str "{:x}") [derived_int] [7] = (Err invalid_format, [0]) /\
  user_scan (str "0x2A") (str "{:#x}") [derived_int] [7] = (Ok tt, [42]).
Proof. vm_compute. split; reflexivity. Qed.
Print Assumptions C57_doc_refuted.

(** A failing scan leaves the variable of the failing field as it was: a scanner may
    write to it first, and the library does not put the old value back. *)
Definition eager_scan : suser Z := mk_suser unit None match_rbrace (fun _ _ r => let (o, r) := parse_int iso i32 10 r in match o with Ok v => (if v <? 10 then Ok tt else Err invalid_argument, (r, v)) | Err e => (Err e, (r, 0)) | _ => (Undef, (r, 0)) end).
Theorem C57_untouched_refuted : exists (u : suser Z) s input, Forall is_byte s /\ Forall is_byte input /\ user_scan_accepted s [u] /\
  user_scan input s [u] [1] = (Err invalid_argument, [12]).
Proof. exists eager_scan, (str "{}"), (str "12"). split; [bytes|]. split; [bytes|]. split; [exists (mk_vstr false (Ok (str "{}"))); split; vm_compute; reflexivity|]. vm_compute. reflexivity. Qed.
Print Assumptions C57_untouched_refuted.

(** The promise of [ks_parse] is needed: a scanner whose parse function succeeds but
    does not stop where its validate function did leads behind the end of the string. *)
Definition lazy_scan : suser Z := mk_suser unit (Some match_rbrace) (fun r => (Ok tt, r)) (fun _ x r => (Ok tt, (r, x))).
Theorem C57_lazy_parse_refuted : exists (u : suser Z) s, Forall is_byte s /\ user_scan_accepted s [u] /\
  (forall T n, (n <= length T)%nat -> exists m r, su_parse u (mk_reader T n) = (Ok m, r)) /\
  fst (user_scan (str "}") s [u] [0]) = Undef.
Proof.
  exists lazy_scan, (str "{}"). split; [bytes|]. split; [exists (mk_vstr false (Ok (str "{}"))); split; vm_compute; reflexivity|]. split; [|vm_compute; reflexivity].
  intros T n _. exists tt, (mk_reader T n). reflexivity.
Qed.
Print Assumptions C57_lazy_parse_refuted.
