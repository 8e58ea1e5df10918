(** Properties C23, C39, C40, C41, C42, C49, C50: scanning. *)
From Verif Require Import Base Conversion Reader Bitset Specs Format Scan.
From Verif Require Import Lib SpecNum SpecDigits SpecReader SpecSpecs SpecString SpecScan.
From Verif Require Import ConversionProofs ReaderProofs SpecsProofs DigitProofs StringProofs StringLoop StringTop ScanSpecs ScanLoop ScanNumber ScanInt ScanText ScanTop PropsFormat.
Import SpecString.

(** What C++ guarantees for a call: the strings consist of bytes, the input is
    shorter than 2^64, and there are at most 128 arguments (with more of them no
    string is accepted, see C49). *)
Definition scan_call (input fmt : list Z) (tys : list sty) : Prop :=
  Forall is_byte fmt /\ Forall is_byte input /\ Z.of_nat (length input) < 2 ^ 64 /\ Forall sty_ok tys /\ (length tys <= 128)%nat.
(** What the fields of a successful scan read. *)
Definition read_fields (m : overflow_mode) (tys : list sty) (e : list item) := target_reads (field_reads (reads_int m) takes) tys e.

Ltac call := split; [bytes|]; split; [bytes|]; split; [cbn; lia|]; split; [repeat (constructor; [first [exact I|cbn [sty_ok]; unfold is_ity; cbn [In]; tauto]|]); constructor|cbn; lia].

(** ** C49 Accepted scan strings *)
Theorem C49_accepted_partial : forall s tys,
  Forall is_byte s -> scan_accepted s tys -> scan_well_formed s tys \/ scan_cut_short s tys.
Proof.
  intros s tys HB HA. destruct (scan_accepted_sound s tys HB HA) as (its & ns & e & HAc & _ & HC). destruct (sacc_good _ _ _ _ _ HAc) as (HS & HG).
  destruct (sacc_cut _ _ _ _ _ _ _ _ HAc) as [-> |(H255 & _ & HD)].
  - left. exists its, ns. rewrite app_nil_r in HS. auto.
  - right. exists its, ns, e. auto.
Qed.
Print Assumptions C49_accepted_partial.

Lemma small_fields s its e : s = text_of its ++ e -> small_numbers s -> Forall small_numbers (field_specs its).
Proof.
  intros HS HSm. apply Forall_forall. intros sp HI. unfold field_specs in HI. apply in_flat_map in HI. destruct HI as (i & HI & HX). destruct i as [| |index colon sp']; try contradiction. destruct HX as [->|[]].
  apply in_split in HI. destruct HI as (a & b & ->). rewrite text_of_app in HS. apply (small_sub (text_of a ++ [123] ++ index ++ (if colon then [58] else [])) sp (text_of b ++ e)).
  replace ((text_of a ++ [123] ++ index ++ (if colon then [58] else [])) ++ sp ++ text_of b ++ e) with s; [exact HSm|]. rewrite HS. cbn [text_of flat_map item_text]. fold (text_of b). rewrite <- !app_assoc. reflexivity.
Qed.
(** With numbers below 2^32 the accepted strings are exactly these. *)
Theorem C49_accepted_iff : forall s tys,
  Forall is_byte s -> (length tys <= 128)%nat -> small_numbers s -> (scan_accepted s tys <-> scan_well_formed s tys \/ scan_cut_short s tys).
Proof.
  intros s tys HB HL HSm. split; [now apply C49_accepted_partial|]. intros [(its & ns & HS & HG & HC)|(its & ns & e & HS & HG & HC & HF & HD)].
  - apply (scan_accepted_complete s tys its ns []); auto. apply scan_good_string; auto; [now rewrite app_nil_r|]. apply (small_fields s its []); [now rewrite app_nil_r|exact HSm].
  - apply (scan_accepted_complete s tys its ns e); auto. apply scan_good_string; auto. eapply small_fields; eauto.
Qed.
Print Assumptions C49_accepted_iff.
Theorem C49_accepted_iff_well_formed_partial : forall s tys,
  Forall is_byte s -> (length tys <= 128)%nat -> no_255 s -> small_numbers s -> (scan_accepted s tys <-> scan_well_formed s tys).
Proof.
  intros s tys HB HL H255 HSm. rewrite C49_accepted_iff by auto. split; [|tauto]. intros [H|(its & ns & e & HS & _ & _ & HF & _)]; [exact H|]. exfalso. rewrite HS in H255. now apply no_255_field in H255.
Qed.
Print Assumptions C49_accepted_iff_well_formed_partial.
(** Every other string is rejected with invalid_format, and a rejected string
    makes every scan fail with it; nothing is read or assigned. *)
Theorem C49_rejected : forall m r s tys vars,
  Forall is_byte s -> (length tys <= 128)%nat -> ~ scan_accepted s tys ->
  scan_from m r s tys vars = (Err invalid_format, (r, vars)) /\ scan m (rtext r) s tys vars = (Err invalid_format, vars).
Proof.
  intros m r s tys vars HB HL N. destruct (scan_accepted_decided s tys HB HL) as (v & HV & [HS|HS]); [exfalso; apply N; exists v; auto|].
  unfold scan_from, scan, vscan, vscan_from. rewrite HV, HS. auto.
Qed.
Print Assumptions C49_rejected.
Theorem C49_field_255_refuted : exists s, Forall is_byte s /\ scan_accepted s [] /\ ~ scan_well_formed s [].
Proof.
  exists (str "{255} { {x"). assert (HB : Forall is_byte (str "{255} { {x")) by bytes. assert (HA : scan_accepted (str "{255} { {x") []) by (eexists; split; vm_compute; reflexivity).
  split; [exact HB|]. split; [exact HA|]. intros (its & ns & HS & HG & _). destruct (scan_accepted_sound _ _ HB HA) as (its' & ns' & e & HAc & _).
  destruct (sacc_reading [] _ its ns its' ns' e ltac:(cbn; lia) HAc HS HG) as (-> & -> & ->).
  destruct HG as (HO & HN & HF). destruct its as [|i its]; [discriminate|]. assert (Hi := Forall_inv HO). destruct i as [c|c|index colon sp].
  - injection HS as <- _. apply Hi. now left.
  - injection HS as <- HS. discriminate.
  - cbn [field_specs flat_map app] in HF. inversion HF as [|n ? ns1 ? (t & HT & _)]; subst. destruct n; discriminate.
Qed.
Print Assumptions C49_field_255_refuted.
Theorem C49_arguments_refuted : scan_string (flat_map (fun _ => str "{}") (repeat tt 129)) (repeat SStr 129) = Abort.
Proof. vm_compute. reflexivity. Qed.
Print Assumptions C49_arguments_refuted.
(** A width from 2^32 on may be accepted as a different one. *)
Theorem C49_width_refuted : exists s, scan_accepted s [SStr] /\ s = str "{:5000000000}" /\
  validate_scan_specs (mk_reader s 2) default_scan = (Ok (mk_scan false 0 705032704), mk_reader s 13).
Proof. exists (str "{:5000000000}"). split; [eexists; split; vm_compute; reflexivity|]. split; [reflexivity|vm_compute; reflexivity]. Qed.
Print Assumptions C49_width_refuted.
Definition point_items : list item := [Literal 40; Field [48] true (str "#x}"); Literal 44; Field [49] true (str "3}"); Brace 125].
Definition point_tys : list sty := [SInt i16; SStr].
Lemma point_good : scan_items point_tys point_items [0%nat; 1%nat].
Proof.
  split; [|split].
  - constructor; [intros [H|H]; discriminate|]. constructor; [split; [right; digs|discriminate]|]. constructor; [intros [H|H]; discriminate|].
    constructor; [split; [right; digs|discriminate]|]. constructor; [now right|constructor].
  - right. constructor; [split; [digs|reflexivity]|]. constructor; [split; [digs|reflexivity]|constructor].
  - constructor; [|constructor; [|constructor]]; eexists; (split; [reflexivity|]).
    + exists (mk_scan true 120 (-1)). split; [|cbn; tauto]. exists [35], [], [120], true, (-1), 120. split; [reflexivity|]. split; [reflexivity|]. split; [left; auto|]. split; [right; split; [reflexivity|unfold is_letter; lia]|reflexivity].
    + exists (mk_scan false 0 3). split; [|cbn; tauto]. exists [], [51], [], false, 3, 0. split; [reflexivity|]. split; [reflexivity|]. split; [right; split; [|lia]; split; [digs|]; split; [lia|reflexivity]|]. split; [left; auto|reflexivity].
Qed.
Example C49_example :
  let s := str "({0:#x},{1:3}}}" in
  Forall is_byte s /\ no_255 s /\ small_numbers s /\ scan_well_formed s point_tys /\ scan_accepted s point_tys /\ ~ scan_accepted (str "({0:#x},{1:3}}") point_tys /\ ~ scan_accepted (str "{:#}{}") [SStr].
Proof.
  cbv zeta. split; [bytes|]. split; [now apply no_digits_255|]. split; [apply short_small; reflexivity|]. split.
  { exists point_items, [0%nat; 1%nat]. split; [reflexivity|]. split; [exact point_good|]. intros n H. cbn in H. assert (n = 0 \/ n = 1)%nat as [-> | ->] by lia; cbn; auto. }
  split; [eexists; split; vm_compute; reflexivity|]. split; intros (v & HV & HS); vm_compute in HV; injection HV as <-; discriminate.
Qed.

(** ** C39 A scan matches the whole string against the whole input *)
Lemma accepted_items s tys its ns :
  Forall is_byte s -> scan_accepted s tys -> s = text_of its -> scan_items tys its ns ->
  sacc tys s 0 None 0 its ns [] /\ forall k, (k < length tys)%nat -> In k ns.
Proof.
  intros HB HA HS HG. destruct (scan_accepted_sound s tys HB HA) as (its' & ns' & e & HAc & HL & HC).
  destruct (sacc_reading tys s its ns its' ns' e HL HAc HS HG) as (-> & -> & ->). auto.
Qed.
Lemma ok_accepted m r s tys vars st : Forall is_byte s -> (length tys <= 128)%nat -> scan_from m r s tys vars = (Ok tt, st) -> scan_accepted s tys.
Proof.
  intros HB HL H. destruct (scan_accepted_decided s tys HB HL) as (v & HV & [HS|HS]); [exists v; auto|]. unfold scan_from in H. rewrite HV in H. unfold vscan_from in H. rewrite HS in H. discriminate.
Qed.
Lemma no_end : end_items [].
Proof. now left. Qed.

(** If scan_from succeeds, the input from the position of the reader on is the
    text of the string with a piece for every field; every piece is what its
    field reads; the reader stands right behind, and nothing else than these
    assignments happens. *)
Theorem C39_scan_from : forall m input i fmt tys vars its ns r' vars',
  scan_call input fmt tys -> (i <= length input)%nat -> fmt = text_of its -> scan_items tys its ns ->
  scan_from m (mk_reader input i) fmt tys vars = (Ok tt, (r', vars')) ->
  exists rest vs j, scans (read_fields m tys []) its ns (skipn i input) rest vs /\
    r' = mk_reader input j /\ skipn j input = rest /\ (i <= j <= length input)%nat /\ vars' = assigned vars vs.
Proof.
  intros m input i fmt tys vars its ns r' vars' (HF & HI & HL & HO & HN) Hi HS HG H. assert (HA := ok_accepted _ _ _ _ _ _ HF HN H). destruct (accepted_items _ _ _ _ HF HA HS HG) as (HAc & HC).
  pose proof (from_reads m tys fmt its ns [] input i vars HF HI HL HO HN Hi HAc no_end HC) as P. rewrite H in P. exact P.
Qed.
Print Assumptions C39_scan_from.

(** If scan succeeds, this is the whole input. *)
Theorem C39_scan : forall m input fmt tys vars its ns vars',
  scan_call input fmt tys -> fmt = text_of its -> scan_items tys its ns ->
  scan m input fmt tys vars = (Ok tt, vars') ->
  exists vs, scans (read_fields m tys []) its ns input [] vs /\ vars' = assigned vars vs.
Proof.
  intros m input fmt tys vars its ns vars' HC HS HG H. rewrite scan_is in H. unfold reader_of in H. destruct (scan_from m (mk_reader input 0) fmt tys vars) as ([u|e| |] & (r' & vs')) eqn:E; try discriminate.
  destruct u. destruct (C39_scan_from _ _ 0%nat _ _ _ _ _ _ _ HC ltac:(lia) HS HG E) as (rest & vs & j & HR & -> & Hj & HJ & ->). destruct (at_eof (mk_reader input j)) eqn:EE; [|discriminate]. injection H as <-.
  apply eof_rest in EE; [|lia]. rewrite EE in Hj. subst rest. exists vs. auto.
Qed.
Print Assumptions C39_scan.

(** The same without a reading of the string at hand: an accepted string has one.
    [ei] stands for what follows a field for the argument 255. *)
Theorem C39_accepted_partial : forall m input fmt tys vars vars',
  scan_call input fmt tys -> scan m input fmt tys vars = (Ok tt, vars') ->
  exists its ns ei vs, fmt = text_of (its ++ ei) /\ scan_items tys its ns /\ (ei = [] \/ field_255 (text_of ei)) /\
    scans (read_fields m tys ei) its ns input [] vs /\ vars' = assigned vars vs.
Proof.
  intros m input fmt tys vars vars' (HF & HI & HL & HO & HN) H. rewrite scan_is in H. unfold reader_of in H. destruct (scan_from m (mk_reader input 0) fmt tys vars) as ([u|e| |] & (r' & vs')) eqn:E; try discriminate.
  destruct u. assert (HA := ok_accepted _ _ _ _ _ _ HF HN E). destruct (scan_accepted_sound fmt tys HF HA) as (its & ns & e & HAc & _ & HC). destruct (sacc_good _ _ _ _ _ HAc) as (HS & HG).
  assert (HE : e = [] \/ field_255 e) by (destruct (sacc_cut _ _ _ _ _ _ _ _ HAc) as [->|(? & _)]; auto). destruct (end_of e HE) as (ei & HEi & <-).
  pose proof (from_reads m tys fmt its ns ei input 0 vars HF HI HL HO HN ltac:(lia) HAc HEi HC) as P. rewrite E in P. destruct P as (rest & vs & j & HR & -> & Hj & HJ & ->).
  destruct (at_eof (mk_reader input j)) eqn:EE; [|discriminate]. injection H as <-. apply eof_rest in EE; [|lia]. rewrite EE in Hj. subst rest.
  exists its, ns, ei, vs. split; [now rewrite text_of_app|]. split; [exact HG|]. split; [|auto]. destruct HE as [HE|HE]; [|auto]. left. destruct HEi as [->|(? & ? & ? & ? & -> & _)]; [reflexivity|discriminate].
Qed.
Print Assumptions C39_accepted_partial.

(** Conversely: if the input is the text of the string with pieces that the
    fields read exactly, then scan_from succeeds. *)
Theorem C39_complete_partial : forall m input i fmt tys vars its ns rest vs,
  scan_call input fmt tys -> (i <= length input)%nat -> scan_accepted fmt tys -> small_numbers fmt -> fmt = text_of its -> scan_items tys its ns ->
  scans (target_reads (field_reads reads_exactly takes) tys []) its ns (skipn i input) rest vs ->
  exists j, scan_from m (mk_reader input i) fmt tys vars = (Ok tt, (mk_reader input j, assigned vars vs)) /\ skipn j input = rest /\ (i <= j <= length input)%nat.
Proof.
  intros m input i fmt tys vars its ns rest vs (HF & HI & HL & HO & HN) Hi HA HSm HS HG HR. destruct (accepted_items _ _ _ _ HF HA HS HG) as (HAc & HC).
  apply (from_first m tys fmt its ns [] input i vars rest vs); auto using no_end. apply (small_fields fmt its []); [now rewrite app_nil_r|exact HSm].
Qed.
Print Assumptions C39_complete_partial.
(** scan succeeds then iff nothing is left over. *)
Theorem C39_nothing_left_partial : forall m input fmt tys vars its ns rest vs,
  scan_call input fmt tys -> scan_accepted fmt tys -> small_numbers fmt -> fmt = text_of its -> scan_items tys its ns ->
  scans (target_reads (field_reads reads_exactly takes) tys []) its ns input rest vs ->
  (rest = [] -> scan m input fmt tys vars = (Ok tt, assigned vars vs)) /\
  (rest <> [] -> scan m input fmt tys vars = (Err invalid_format, assigned vars vs)).
Proof.
  intros m input fmt tys vars its ns rest vs HC HA HSm HS HG HR. destruct (C39_complete_partial m input 0 fmt tys vars its ns rest vs HC ltac:(lia) HA HSm HS HG HR) as (j & E & Hj & HB).
  rewrite scan_is. unfold reader_of. rewrite E. pose proof (eof_rest input j ltac:(lia)) as P. rewrite Hj in P. destruct (at_eof (mk_reader input j)); split; intros HH; auto; exfalso.
  - apply HH, P. reflexivity.
  - destruct P as (_ & P). specialize (P HH). discriminate.
Qed.
Print Assumptions C39_nothing_left_partial.
Example C39_example :
  let fmt := str "({0:#x},{1:3}}}" in let input := str "(-0x7f,ab}}" in
  scan_call input fmt point_tys /\ fmt = text_of point_items /\ scan_items point_tys point_items [0%nat; 1%nat] /\ scan_accepted fmt point_tys /\ small_numbers fmt /\
  scans (target_reads (field_reads reads_exactly takes) point_tys []) point_items [0%nat; 1%nat] input [] [(0%nat, NInt (-127)); (1%nat, NStr (str "ab}"))] /\
  scan iso input fmt point_tys [NInt 0; NStr []] = (Ok tt, [NInt (-127); NStr (str "ab}")]) /\
  scan iso (input ++ str " ") fmt point_tys [NInt 0; NStr []] = (Err invalid_format, [NInt (-127); NStr (str "ab}")]).
Proof.
  cbv zeta. split; [call|]. split; [reflexivity|]. split; [exact point_good|]. split; [eexists; split; vm_compute; reflexivity|]. split; [now apply short_small|]. split; [|split; vm_compute; reflexivity].
  constructor. apply (scans_field _ _ _ _ _ _ _ (str "-0x7f") (str ",ab}}")).
  - exists (SInt i16), (mk_scan true 120 (-1)). split; [reflexivity|]. split.
    { exists [35], [], [120], true, (-1), 120. split; [reflexivity|]. split; [reflexivity|]. split; [left; auto|]. split; [right; split; [reflexivity|unfold is_letter; lia]|reflexivity]. }
    exists true, 16, (str "7f"). split; [|split; [reflexivity|split; [vm_compute; split; discriminate|reflexivity]]]. exists [45], (str "0x"). split; [reflexivity|]. split; [reflexivity|]. split; [split; [discriminate|repeat constructor]|].
    split; [split; [cbn; tauto|right; right; left; auto]|]. intros c l H. injection H as <- _. reflexivity.
  - constructor. apply (scans_field _ _ _ _ _ _ _ (str "ab}") (str "}")).
    + exists SStr, (mk_scan false 0 3). split; [reflexivity|]. split; [|split; reflexivity]. exists [], [51], [], false, 3, 0. split; [reflexivity|]. split; [reflexivity|]. split; [right; split; [|lia]; split; [digs|]; split; [lia|reflexivity]|]. split; [left; auto|reflexivity].
    + repeat constructor.
Qed.

(** ** C23 Scanning with quoted text *)
Lemma plain_its its : Forall plain_item its -> indices its = [] /\ field_specs its = [].
Proof. induction 1 as [|i l Hi HF [IH1 IH2]]; [auto|]. destruct i; [| |destruct Hi]; cbn; auto. Qed.
Lemma plain_scan_items its : Forall plain_item its -> scan_items [] its [].
Proof.
  intros HP. destruct (plain_its its HP) as (E1 & E2). split; [|split].
  - revert HP. apply Forall_impl. intros [c|c|]; cbn; tauto.
  - rewrite E1. left. split; [constructor|reflexivity].
  - rewrite E2. constructor.
Qed.
Lemma plain_scan m input fmt its vars : Forall is_byte fmt -> Forall is_byte input -> Z.of_nat (length input) < 2 ^ 64 -> fmt = text_of its -> Forall plain_item its ->
  (scan m input fmt [] vars = (Ok tt, vars) <-> input = literal_text its).
Proof.
  intros HF HI HL HS HP. assert (HC : scan_call input fmt []) by (split; [exact HF|split; [exact HI|split; [exact HL|split; [constructor|cbn; lia]]]]). assert (HG := plain_scan_items its HP). split.
  - intros H. destruct (C39_scan _ _ _ _ _ _ _ _ HC HS HG H) as (vs & HR & _). rewrite <- (app_nil_r its) in HR. destruct (scans_plain_inv _ _ _ _ _ _ _ HP HR) as (i' & -> & HE).
    inversion HE; subst. rewrite app_nil_r. now rewrite ?app_nil_r.
  - intros ->. assert (HR : scans (target_reads (field_reads reads_exactly takes) [] []) its [] (literal_text its) [] []).
    { replace its with (its ++ []) at 1 by apply app_nil_r. rewrite <- (app_nil_r (literal_text its)). apply scans_plain; [exact HP|constructor]. }
    destruct (from_first m [] fmt its [] [] (literal_text its) 0 vars [] [] HF HI HL (Forall_nil _) ltac:(cbn; lia) ltac:(lia) (plain_sacc _ _ HS HP) no_end ltac:(cbn; intros; lia) ltac:(rewrite (proj2 (plain_its its HP)); constructor) HR) as (j & E & Hj & HB).
    rewrite scan_is. unfold reader_of. rewrite E. apply eof_rest in Hj; [|lia]. now rewrite Hj.
Qed.
Lemma literal_quoted t : literal_text (quoted_items t) = t.
Proof. induction t as [|c t IH]; [reflexivity|]. cbn [quoted_items map]. fold (quoted_items t). destruct ((c =? 123) || (c =? 125)); cbn [literal_text]; now rewrite IH. Qed.

(** Scanning with a quoted text succeeds for this text only. *)
Theorem C23_scan_quoted_text : forall m t input vars,
  Forall is_byte t -> Forall is_byte input -> Z.of_nat (length input) < 2 ^ 64 ->
  (scan m input (quoted t) [] vars = (Ok tt, vars) <-> input = t).
Proof.
  intros m t input vars HT HI HL. rewrite (plain_scan m input (quoted t) (quoted_items t) vars (bytes_quoted t HT) HI HL (eq_sym (quoted_text t)) (quoted_plain t)). now rewrite literal_quoted.
Qed.
Print Assumptions C23_scan_quoted_text.
Lemma quoted_self t : ~ In 123 t -> ~ In 125 t -> quoted t = t.
Proof.
  induction t as [|c t IH]; intros H1 H2; [reflexivity|]. cbn [quoted flat_map]. fold (quoted t). rewrite IH by (cbn in *; tauto). destruct ((c =? 123) || (c =? 125)) eqn:E; [|reflexivity]. exfalso. cbn in *. lia.
Qed.
(** A text without braces matches itself. *)
Theorem C23_scan_plain_text : forall m t input vars,
  Forall is_byte t -> ~ In 123 t -> ~ In 125 t -> Forall is_byte input -> Z.of_nat (length input) < 2 ^ 64 ->
  (scan m input t [] vars = (Ok tt, vars) <-> input = t).
Proof. intros m t input vars HT H1 H2 HI HL. rewrite <- (quoted_self t H1 H2) at 1. now apply C23_scan_quoted_text. Qed.
Print Assumptions C23_scan_plain_text.
Example C23_scan_example :
  Forall is_byte (str "O}{{x") /\ scan iso (str "O}{{x") (quoted (str "O}{{x")) [] [] = (Ok tt, []) /\ scan iso (str "O}{x") (quoted (str "O}{{x")) [] [] = (Err invalid_data, []).
Proof. split; [bytes|]. split; vm_compute; reflexivity. Qed.

(** ** What a field of a successful scan has read *)
Lemma scans_split reads its1 its2 : forall ns input rest vs, scans reads (its1 ++ its2) ns input rest vs ->
  exists ns1 ns2 before mid vs1 vs2, ns = ns1 ++ ns2 /\ input = before ++ mid /\ vs = vs1 ++ vs2 /\ length ns1 = length (indices its1) /\ map fst vs1 = ns1 /\ map fst vs2 = ns2 /\ scans reads its2 ns2 mid rest vs2.
Proof.
  induction its1 as [|i its1 IH]; intros ns input rest vs H.
  - exists [], ns, [], input, [], vs. repeat (split; [reflexivity|]). split; [|exact H]. clear -H. induction H; cbn; congruence.
  - cbn [app] in H. inversion H as [|? ? ? ? ? ? H'|? ? ? ? ? ? H'|? ? ? ? ? ? ? ? ? ? ? HR H']; subst; destruct (IH _ _ _ _ H') as (ns1 & ns2 & before & mid & vs1 & vs2 & -> & -> & -> & E1 & E2 & E3 & HS).
    + exists ns1, ns2, (c :: before), mid, vs1, vs2. repeat (split; [reflexivity || assumption|]). exact HS.
    + exists ns1, ns2, (c :: before), mid, vs1, vs2. repeat (split; [reflexivity || assumption|]). exact HS.
    + exists (n :: ns1), ns2, (piece ++ before), mid, ((n, v) :: vs1), vs2. split; [reflexivity|]. split; [now rewrite app_assoc|]. split; [reflexivity|]. split; [cbn; now rewrite E1|]. split; [cbn; now rewrite E2|]. auto.
Qed.
Lemma length_update vars : forall n v, length (update vars n v) = length vars.
Proof. induction vars as [|x vars IH]; intros [|n] v; cbn; auto. Qed.
Lemma length_assigned vs : forall vars, length (assigned vars vs) = length vars.
Proof. induction vs as [|(n, v) vs IH]; intros vars; [reflexivity|]. cbn. unfold assigned in IH. rewrite IH. apply length_update. Qed.
Lemma update_same vars : forall n v, (n < length vars)%nat -> nth_error (update vars n v) n = Some v.
Proof. induction vars as [|x vars IH]; intros [|n] v H; cbn in *; [lia|lia|reflexivity|]. apply IH. lia. Qed.
Lemma update_other vars : forall n k v, n <> k -> nth_error (update vars n v) k = nth_error vars k.
Proof. induction vars as [|x vars IH]; intros [|n] [|k] v H; cbn; auto; try congruence. Qed.
Lemma assigned_other vs : forall vars k, ~ In k (map fst vs) -> nth_error (assigned vars vs) k = nth_error vars k.
Proof.
  induction vs as [|(n, v) vs IH]; intros vars k H; [reflexivity|]. cbn in H. unfold assigned in *. cbn [fold_left fst snd]. rewrite IH by tauto. apply update_other. tauto.
Qed.
Lemma assigned_app vars vs1 vs2 : assigned vars (vs1 ++ vs2) = assigned (assigned vars vs1) vs2.
Proof. unfold assigned. apply fold_left_app. Qed.
Lemma assigned_at vars vs1 n v vs2 : (n < length vars)%nat -> ~ In n (map fst vs2) -> nth_error (assigned vars (vs1 ++ (n, v) :: vs2)) n = Some v.
Proof.
  intros HL HN. rewrite assigned_app. unfold assigned at 1. cbn [fold_left fst snd]. fold (assigned (update (assigned vars vs1) n v) vs2).
  rewrite assigned_other by exact HN. apply update_same. now rewrite length_assigned.
Qed.

Lemma app_parts {A} (a : list A) : forall b c d, a ++ b = c ++ d -> length a = length c -> a = c /\ b = d.
Proof. induction a as [|x a IH]; intros b [|y c] d E L; try discriminate; cbn in E; [auto|]. injection E as -> E. injection L as L. destruct (IH _ _ _ E L) as (-> & ->). auto. Qed.
Lemma two_lists {A B} (R : A -> B -> Prop) a b : Forall2 R a b -> length a = length b.
Proof. induction 1; cbn; congruence. Qed.
(** The field behind [its1] takes [piece] behind [before], and its target has the
    value [v] afterwards if no later field has the same target. *)
Lemma field_of_scan m input fmt tys vars vars' its1 index colon spec its2 ns1 n ns2 :
  scan_call input fmt tys -> fmt = text_of (its1 ++ Field index colon spec :: its2) -> scan_items tys (its1 ++ Field index colon spec :: its2) (ns1 ++ n :: ns2) -> length ns1 = length (indices its1) ->
  scan m input fmt tys vars = (Ok tt, vars') -> (n < length vars)%nat -> ~ In n ns2 ->
  exists before piece rest v t s, input = before ++ piece ++ rest /\ nth_error vars' n = Some v /\ nth_error tys n = Some t /\ scan_spec_text spec s /\
    field_reads (reads_int m) takes t s its2 piece rest v.
Proof.
  intros HC HS HG HN H HV HO. destruct (C39_scan _ _ _ _ _ _ _ _ HC HS HG H) as (vs & HR & ->).
  destruct (scans_split _ _ _ _ _ _ _ HR) as (ns1' & ns2' & before & mid & vs1 & vs2 & E & -> & -> & HL & M1 & M2 & HR').
  assert (ns1' = ns1 /\ ns2' = n :: ns2) as (-> & ->).
  { assert (L : length ns1' = length ns1) by congruence. symmetry in E. destruct (app_parts _ _ _ _ E L). auto. }
  inversion HR' as [| | |? ? ? ? ? ? piece rest' ? v vs' HRd HR'']; subst. destruct HRd as (t & s & HT & HSp & HRd). rewrite app_nil_r in HRd. cbn [map fst] in M2. injection M2 as M2.
  exists before, piece, rest', v, t, s. split; [reflexivity|]. split; [|auto]. apply assigned_at; [exact HV|now rewrite M2].
Qed.

(** ** C40 Texts are read up to what follows *)

(** In a successful scan, a field for a text without a width has taken everything
    up to the first occurrence of the text between this field and the next one
    (to the end, if it is the last item), provided that no doubled brace stands
    there. *)
Theorem C40_first_occurrence_partial : forall m input fmt tys vars vars' its1 index colon spec its2 ns1 n ns2,
  scan_call input fmt tys -> fmt = text_of (its1 ++ Field index colon spec :: its2) -> scan_items tys (its1 ++ Field index colon spec :: its2) (ns1 ++ n :: ns2) -> length ns1 = length (indices its1) ->
  nth_error tys n = Some SStr -> In spec [str "}"; str "s}"] -> (n < length vars)%nat -> ~ In n ns2 ->
  scan m input fmt tys vars = (Ok tt, vars') ->
  exists before piece rest, input = before ++ piece ++ rest /\ nth_error vars' n = Some (NStr piece) /\
    (its2 = [] -> rest = []) /\ (its2 <> [] -> exists b, rest = literal_text its2 ++ b) /\
    (its2 <> [] -> braces_follow its2 = false -> before_first (piece ++ rest) (literal_text its2) piece) /\
    (its2 <> [] -> braces_follow its2 = true -> (exists c l, its2 = Brace c :: l) /\ attempts (literal_text its2) piece).
Proof.
  intros m input fmt tys vars vars' its1 index colon spec its2 ns1 n ns2 HC HS HG HN HT HSp HV HO H. destruct (field_of_scan _ _ _ _ _ _ _ _ _ _ _ _ _ _ HC HS HG HN H HV HO) as (before & piece & rest & v & t & s & HI & Hv & HT' & HSs & HR).
  rewrite HT in HT'. injection HT' as <-. destruct v as [c|z|x]; try contradiction. destruct HR as (-> & HR).
  assert (HW : sc_width s = -1). { clear -HSp HSs. destruct HSs as (al & wd & ty & alt & w & type & E & HA & HW & HT & ->). cbn [sc_width]. destruct HW as [(_ & HW)|(HW & _)]; [exact HW|]. exfalso. destruct HW as ((Hd & HD) & _).
    assert (X : exists d, In d wd /\ 48 <= d <= 57). { destruct wd as [|d wd]; [congruence|]. exists d. split; [now left|]. apply Forall_inv in HD. unfold is_digit, digit_value in HD. destruct ((48 <=? d) && (d <=? 57)) eqn:X; [lia|]. destruct ((97 <=? d) && (d <=? 122)) eqn:Y; [lia|]. destruct ((65 <=? d) && (d <=? 90)) eqn:W; lia. }
    destruct X as (d & Hin & Hd'). assert (In d spec) by (rewrite E, !in_app_iff; tauto). cbn in HSp. destruct HSp as [<-|[<-|[]]]; cbn in H; lia. }
  rewrite HW in HR. change (-1 =? -1) with true in HR. cbv iota in HR. exists before, piece, rest. split; [exact HI|]. split; [exact Hv|]. destruct its2 as [|i its2]; cbn [takes] in HR.
  - split; [auto|]. split; [congruence|]. split; congruence.
  - destruct HR as (_ & HR1 & HR2). split; [discriminate|]. split; [auto|]. split; intros _ HB; rewrite HB in HR2; [exact HR2|tauto].
Qed.
Print Assumptions C40_first_occurrence_partial.

Lemma small_text s : short_runs 0 s = true -> small_numbers s.
Proof. apply short_small. Qed.
Definition braceless (t : list Z) : Prop := ~ In 123 t /\ ~ In 125 t.
Lemma braceless_items t : braceless t -> quoted_items t = map Literal t.
Proof.
  intros (H1 & H2). unfold quoted_items. apply map_ext_in. intros c HI. destruct ((c =? 123) || (c =? 125)) eqn:E; [|reflexivity]. exfalso. assert (c = 123 \/ c = 125) as [-> | ->] by lia; tauto.
Qed.
(** One field in front of a text. *)
Definition one_field (colon : bool) (spec t : list Z) : list item := Field [] colon spec :: quoted_items t.
Definition one_text (colon : bool) (spec t : list Z) : list Z := [123] ++ (if colon then [58] else []) ++ spec ++ quoted t.
Lemma one_is colon spec t : one_text colon spec t = text_of (one_field colon spec t).
Proof. unfold one_text, one_field. cbn [text_of flat_map item_text]. fold (text_of (quoted_items t)). rewrite quoted_text. now rewrite <- !app_assoc. Qed.
Lemma one_items y colon spec t : scan_field_spec y spec -> (colon = false -> spec = [125]) -> scan_items [y] (one_field colon spec t) [0%nat].
Proof.
  intros HF HC. destruct (plain_its _ (quoted_plain t)) as (E1 & E2). split; [|split].
  - constructor; [split; [now left|exact HC]|]. generalize (quoted_plain t). apply Forall_impl. intros [c|c|]; cbn; tauto.
  - left. change (indices (one_field colon spec t)) with ([] :: indices (quoted_items t)). rewrite E1. split; [repeat constructor|reflexivity].
  - change (field_specs (one_field colon spec t)) with (spec :: field_specs (quoted_items t)). rewrite E2. constructor; [|constructor]. exists y. auto.
Qed.
Lemma one_small colon spec t : small_numbers spec -> Forall small_numbers (field_specs (one_field colon spec t)).
Proof. intros H. change (field_specs (one_field colon spec t)) with (spec :: field_specs (quoted_items t)). rewrite (proj2 (plain_its _ (quoted_plain t))). auto. Qed.
Lemma one_cover (y : sty) k : (k < length [y])%nat -> In k [0%nat].
Proof. cbn. lia. Qed.
Lemma one_bytes colon spec t : Forall is_byte spec -> Forall is_byte t -> Forall is_byte (one_text colon spec t).
Proof.
  intros H1 H2. unfold one_text. apply Forall_app. split; [bytes|]. apply Forall_app. split; [destruct colon; bytes|]. apply Forall_app. split; [exact H1|now apply bytes_quoted].
Qed.
Lemma one_sacc y colon spec t : scan_field_spec y spec -> (colon = false -> spec = [125]) -> small_numbers spec -> Forall is_byte spec -> Forall is_byte t -> sacc [y] (one_text colon spec t) 0 None 0 (one_field colon spec t) [0%nat] [].
Proof. intros HF HC HS HB HT. apply scan_good_string; [now apply one_bytes|cbn; lia|rewrite one_is; now rewrite app_nil_r|now apply one_items|now apply one_small|now left]. Qed.

(** A scan with a field and a text behind it: what it has read if it succeeds. *)
Lemma one_reads m y colon spec t input i v r' vars' :
  scan_field_spec y spec -> (colon = false -> spec = [125]) -> Forall is_byte spec -> Forall is_byte t -> sty_ok y -> Forall is_byte input -> Z.of_nat (length input) < 2 ^ 64 -> (i <= length input)%nat ->
  scan_from m (mk_reader input i) (one_text colon spec t) [y] [v] = (Ok tt, (r', vars')) ->
  exists piece rest x s, skipn i input = piece ++ t ++ rest /\ scan_spec_text spec s /\ field_reads (reads_int m) takes y s (quoted_items t) piece (t ++ rest) x /\
    r' = mk_reader input (i + length piece + length t) /\ vars' = [x].
Proof.
  intros HF HC HSp HT HY HI HL Hi H. assert (HCall : scan_call input (one_text colon spec t) [y]) by (split; [now apply one_bytes|split; [exact HI|split; [exact HL|split; [now repeat constructor|cbn; lia]]]]).
  destruct (C39_scan_from _ _ _ _ _ _ _ _ _ _ HCall Hi (one_is colon spec t) (one_items y colon spec t HF HC) H) as (rest & vs & j & HR & -> & Hj & HB & ->).
  inversion HR as [| | |? ? ? ? ? ? piece mid ? x vs' HRd HR']; subst. destruct HRd as (y' & s & HT' & HSp' & HRd). injection HT' as <-. rewrite app_nil_r in HRd.
  rewrite <- (app_nil_r (quoted_items t)) in HR'. destruct (scans_plain_inv _ _ _ _ _ _ _ (quoted_plain t) HR') as (mid' & -> & HE). inversion HE; subst. rewrite literal_quoted in *.
  exists piece, (skipn j input), x, s. split; [congruence|]. split; [exact HSp'|]. split; [exact HRd|]. split; [|reflexivity]. f_equal.
  assert (L : length (skipn i input) = length (piece ++ t ++ skipn j input)) by congruence. rewrite !app_length, !skipn_length in L. lia.
Qed.
Lemma one_first m y colon spec t input i v piece rest x s :
  scan_spec_text spec s -> scan_allowed y s -> small_numbers spec -> (colon = false -> spec = [125]) -> Forall is_byte spec -> Forall is_byte t -> sty_ok y -> Forall is_byte input -> Z.of_nat (length input) < 2 ^ 64 -> (i <= length input)%nat ->
  skipn i input = piece ++ t ++ rest -> field_reads reads_exactly takes y s (quoted_items t) piece (t ++ rest) x ->
  scan_from m (mk_reader input i) (one_text colon spec t) [y] [v] = (Ok tt, (mk_reader input (i + length piece + length t), [x])).
Proof.
  intros HSp HA HSm HC HB HT HY HI HL Hi HE HR. assert (HF : scan_field_spec y spec) by (exists s; auto).
  assert (HS : scans (target_reads (field_reads reads_exactly takes) [y] []) (one_field colon spec t) [0%nat] (skipn i input) rest [(0%nat, x)]).
  { rewrite HE. constructor; [exists y, s; rewrite app_nil_r; auto|]. rewrite <- (app_nil_r (quoted_items t)). rewrite <- (literal_quoted t) at 2. apply scans_plain; [apply quoted_plain|constructor]. }
  destruct (from_first m [y] (one_text colon spec t) _ [0%nat] [] input i [v] rest _ (one_bytes _ _ _ HB HT) HI HL ltac:(repeat constructor; auto) ltac:(cbn; lia) Hi (one_sacc y colon spec t HF HC HSm HB HT) no_end (one_cover y) (one_small _ _ _ HSm) HS) as (j & E & Hj & Hb).
  rewrite E. do 3 f_equal. assert (L : length (skipn i input) = length (piece ++ t ++ rest)) by congruence. rewrite <- Hj in L. rewrite !app_length, !skipn_length in L. lia.
Qed.
Lemma default_spec : scan_spec_text [125] default_scan.
Proof. exists [], [], [], false, (-1), 0. split; [reflexivity|]. split; [reflexivity|]. split; [now left|]. split; [now left|reflexivity]. Qed.
Lemma small_default : small_numbers [125].
Proof. now apply short_small. Qed.
Lemma default_only s : scan_spec_text [125] s -> s = default_scan.
Proof. intros H. apply (scan_spec_unique [125]); [bytes|exact small_default|exact H|exact default_spec]. Qed.
Lemma literals_follow t : braceless t -> braces_follow (quoted_items t) = false.
Proof. intros H. rewrite braceless_items by exact H. induction t as [|c t IH]; [reflexivity|]. cbn. apply IH. destruct H as (H1 & H2). split; cbn in *; tauto. Qed.
Lemma no_field_follows t : field_follows (quoted_items t) = false.
Proof. induction t as [|c t IH]; [reflexivity|]. cbn [quoted_items map]. fold (quoted_items t). now destruct ((c =? 123) || (c =? 125)). Qed.

(** A field for a text in front of a text without braces: it reads exactly the
    input before the first occurrence of this text; if there is none, scanning
    fails. *)
Theorem C40_text : forall m input i t v p,
  Forall is_byte t -> braceless t -> Forall is_byte input -> Z.of_nat (length input) < 2 ^ 64 -> (i <= length input)%nat ->
  (scan_from m (mk_reader input i) (str "{}" ++ t) [SStr] [v] = (Ok tt, (mk_reader input (i + length p + length t), [NStr p])) <->
   (t = [] -> p = skipn i input) /\ (t <> [] -> before_first (skipn i input) t p)).
Proof.
  intros m input i t v p HT HN HI HL Hi. replace (str "{}" ++ t) with (one_text false [125] t); [|unfold one_text; rewrite quoted_self by apply HN; reflexivity].
  assert (HF : scan_field_spec SStr [125]) by (exists default_scan; split; [apply default_spec|cbn; auto]). split.
  - intros H. destruct (one_reads _ _ _ _ _ _ _ _ _ _ HF ltac:(auto) ltac:(bytes) HT ltac:(exact I) HI HL Hi H) as (piece & rest & x & s & HE & HS & HR & HJ & HX).
    apply default_only in HS. subst s. injection HX as <-. cbn [field_reads] in HR. destruct HR as (<- & HR). change (sc_width default_scan =? -1) with true in HR. cbv iota in HR. unfold takes in HR. destruct t as [|c t].
    + cbn in HR. rewrite HR, app_nil_r in HE. split; [auto|congruence].
    + split; [discriminate|]. intros _. rewrite HE. rewrite (braceless_items _ HN) in HR. cbn [map] in HR. rewrite <- (braceless_items t ltac:(destruct HN; split; cbn in *; tauto)) in HR. change (Literal c :: quoted_items t) with ([Literal c] ++ quoted_items t) in HR. destruct HR as (_ & _ & HR).
      cbn [app literal_text braces_follow] in HR. rewrite literal_quoted, literals_follow in HR by (destruct HN; split; cbn in *; tauto). exact HR.
  - intros (H1 & H2). destruct t as [|c t].
    + rewrite (H1 eq_refl). apply (one_first _ _ _ _ _ _ _ _ _ [] _ default_scan); auto using default_spec, small_default; try bytes; [cbn; auto|cbn; auto|now rewrite app_nil_r|]. split; [reflexivity|]. reflexivity.
    + specialize (H2 ltac:(discriminate)). pose proof H2 as ((b & HE) & HM). apply (one_first _ _ _ _ _ _ _ _ _ b _ default_scan); auto using default_spec, small_default; try bytes; [cbn; auto|cbn; auto|]. split; [reflexivity|]. change (sc_width default_scan =? -1) with true. cbv iota.
      assert (HNF := literals_follow (c :: t) HN). assert (HLt := literal_quoted (c :: t)). rewrite (braceless_items _ HN) in *. cbn [map takes] in *. rewrite HLt, HNF, <- HE. split; [|split; [eauto|exact H2]]. rewrite HE. destruct p; discriminate.
Qed.
Print Assumptions C40_text.
Lemma never_undef m input i fmt tys vars its ns : scan_call input fmt tys -> (i <= length input)%nat -> sacc tys fmt 0 None 0 its ns [] -> (forall k, (k < length tys)%nat -> In k ns) -> Forall (fun t => match t with SInt _ => False | _ => True end) tys ->
  exists st, scan_from m (mk_reader input i) fmt tys vars = (Ok tt, st) \/ exists e, scan_from m (mk_reader input i) fmt tys vars = (Err e, st).
Proof.
  intros (HF & HI & HL & HO & HN) Hi HA HC HT. pose proof (from_reads m tys fmt its ns [] input i vars HF HI HL HO HN Hi HA no_end HC) as P. destruct (scan_from m (mk_reader input i) fmt tys vars) as ([[]|e| |] & st); [eauto|eauto| |].
  - destruct st. destruct P as (_ & n & t & _ & HE & _). exfalso. apply nth_error_In in HE. rewrite Forall_forall in HT. exact (HT _ HE).
  - destruct st. contradiction.
Qed.
Theorem C40_absent_text_fails : forall m input i t v,
  Forall is_byte t -> braceless t -> Forall is_byte input -> Z.of_nat (length input) < 2 ^ 64 -> (i <= length input)%nat ->
  t <> [] -> (~ exists a b, skipn i input = a ++ t ++ b) ->
  exists e st, scan_from m (mk_reader input i) (str "{}" ++ t) [SStr] [v] = (Err e, st).
Proof.
  intros m input i t v HT HN HI HL Hi HE HO. replace (str "{}" ++ t) with (one_text false [125] t); [|unfold one_text; rewrite quoted_self by apply HN; reflexivity].
  assert (HF : scan_field_spec SStr [125]) by (exists default_scan; split; [apply default_spec|cbn; auto]).
  assert (HCall : scan_call input (one_text false [125] t) [SStr]) by (split; [apply one_bytes; [bytes|exact HT]|split; [exact HI|split; [exact HL|split; [now repeat constructor|cbn; lia]]]]).
  destruct (never_undef m input i _ [SStr] [v] _ _ HCall Hi (one_sacc SStr false [125] t HF ltac:(auto) small_default ltac:(bytes) HT) (one_cover SStr) ltac:(repeat constructor)) as (st & [H|(e & H)]); [|eauto]. exfalso. destruct st as (r' & vars').
  destruct (one_reads _ _ _ _ _ _ _ _ _ _ HF ltac:(auto) ltac:(bytes) HT ltac:(exact I) HI HL Hi H) as (piece & rest & x & s & HX & _). apply HO. eauto.
Qed.
Print Assumptions C40_absent_text_fails.
Lemma brace_items c t : is_brace c -> quoted_items (c :: t) = Brace c :: quoted_items t.
Proof. intros HB. cbn [quoted_items map]. unfold is_brace in HB. destruct ((c =? 123) || (c =? 125)) eqn:E; [reflexivity|]. exfalso. lia. Qed.
(** With doubled braces right behind the field, it reads exactly the input that a
    search for the text passes which does not go back after failed attempts. *)
Theorem C40_braces : forall m input i c t v p,
  Forall is_byte (c :: t) -> is_brace c -> Forall is_byte input -> Z.of_nat (length input) < 2 ^ 64 -> (i <= length input)%nat ->
  (scan_from m (mk_reader input i) (str "{}" ++ quoted (c :: t)) [SStr] [v] = (Ok tt, (mk_reader input (i + length p + length (c :: t)), [NStr p])) <->
   (exists b, skipn i input = p ++ (c :: t) ++ b) /\ attempts (c :: t) p).
Proof.
  intros m input i c t v p HT HB HI HL Hi. change (str "{}" ++ quoted (c :: t)) with (one_text false [125] (c :: t)).
  assert (HF : scan_field_spec SStr [125]) by (exists default_scan; split; [apply default_spec|cbn; auto]).
  assert (HQ := brace_items c t HB). assert (HLt := literal_quoted (c :: t)). assert (HFf := no_field_follows (c :: t)). split.
  - intros H. destruct (one_reads _ _ _ _ _ _ _ _ _ _ HF ltac:(auto) ltac:(bytes) HT ltac:(exact I) HI HL Hi H) as (piece & rest & x & s & HE & HS & HR & HJ & HX).
    apply default_only in HS. subst s. injection HX as <-. cbn [field_reads] in HR. destruct HR as (<- & HR). change (sc_width default_scan =? -1) with true in HR. cbv iota in HR.
    rewrite HQ in HR, HLt. unfold takes in HR. change (braces_follow (Brace c :: quoted_items t)) with true in HR. cbv iota in HR. rewrite HLt in HR. split; [eauto|tauto].
  - intros ((b & HE) & HA). apply (one_first _ _ _ _ _ _ _ _ _ b _ default_scan); auto using default_spec, small_default; try bytes; [cbn; auto|cbn; auto|]. split; [reflexivity|]. change (sc_width default_scan =? -1) with true. cbv iota.
    rewrite HQ in *. unfold takes. change (braces_follow (Brace c :: quoted_items t)) with true. cbv iota. rewrite HLt, HFf. split; [destruct p; discriminate|]. split; [eauto|]. split; [eauto|]. split; [exact HA|discriminate].
Qed.
Print Assumptions C40_braces.
(** So they are found if their first character does not occur before. *)
Theorem C40_first_brace : forall m input i c t v p b,
  Forall is_byte (c :: t) -> is_brace c -> Forall is_byte input -> Z.of_nat (length input) < 2 ^ 64 -> (i <= length input)%nat ->
  skipn i input = p ++ (c :: t) ++ b -> ~ In c p ->
  scan_from m (mk_reader input i) (str "{}" ++ quoted (c :: t)) [SStr] [v] = (Ok tt, (mk_reader input (i + length p + length (c :: t)), [NStr p])).
Proof.
  intros m input i c t v p b HT HB HI HL Hi HE HN. apply C40_braces; auto. split; [eauto|]. clear -HN. induction p as [|x p IH]; [constructor|]. apply (attempts_fail (c :: t) 0 x p); [cbn; lia| |].
  - cbn. intros [= ->]. apply HN. now left.
  - apply IH. intros H. apply HN. now right.
Qed.
Print Assumptions C40_first_brace.
(** With other characters between the field and the doubled braces scanning
    fails, whatever the input is. *)
Theorem C40_later_braces_fail : forall m input i t1 c t2 v,
  Forall is_byte (t1 ++ c :: t2) -> braceless t1 -> t1 <> [] -> is_brace c -> Forall is_byte input -> Z.of_nat (length input) < 2 ^ 64 -> (i <= length input)%nat ->
  exists e st, scan_from m (mk_reader input i) (str "{}" ++ quoted (t1 ++ c :: t2)) [SStr] [v] = (Err e, st).
Proof.
  intros m input i t1 c t2 v HT HN H0 HB HI HL Hi. change (str "{}" ++ quoted (t1 ++ c :: t2)) with (one_text false [125] (t1 ++ c :: t2)).
  assert (HF : scan_field_spec SStr [125]) by (exists default_scan; split; [apply default_spec|cbn; auto]).
  assert (HCall : scan_call input (one_text false [125] (t1 ++ c :: t2)) [SStr]) by (split; [apply one_bytes; [bytes|exact HT]|split; [exact HI|split; [exact HL|split; [now repeat constructor|cbn; lia]]]]).
  destruct (never_undef m input i _ [SStr] [v] _ _ HCall Hi (one_sacc SStr false [125] (t1 ++ c :: t2) HF ltac:(auto) small_default ltac:(bytes) HT) (one_cover SStr) ltac:(repeat constructor)) as (st & [H|(e & H)]); [|eauto]. exfalso. destruct st as (r' & vars').
  destruct (one_reads _ _ _ _ _ _ _ _ _ _ HF ltac:(auto) ltac:(bytes) HT ltac:(exact I) HI HL Hi H) as (piece & rest & x & s & HE & HS & HR & _).
  apply default_only in HS. subst s. destruct x as [|z|x]; try contradiction. destruct HR as (_ & HR). change (sc_width default_scan =? -1) with true in HR. cbv iota in HR.
  assert (HQ : quoted_items (t1 ++ c :: t2) = map Literal t1 ++ Brace c :: quoted_items t2) by (unfold quoted_items; rewrite map_app; f_equal; [now apply braceless_items|now apply (brace_items c t2)]).
  assert (HBr : braces_follow (map Literal t1 ++ Brace c :: quoted_items t2) = true) by (clear; induction t1; cbn; auto).
  rewrite HQ in HR. destruct t1 as [|x1 t1]; [congruence|]. cbn [map app] in HR, HBr. unfold takes in HR. rewrite HBr in HR. destruct HR as (_ & _ & (c' & l & E) & _). discriminate.
Qed.
Print Assumptions C40_later_braces_fail.
(** So doubled braces are not always found at their first occurrence:
    [scan("a{{x", "{}{{x")] fails, since there is a brace in front of the match,
    and [scan("a{{{x{{x", "{}{{{{x")] reads beyond the first occurrence.
    [scan("ax{x", "{}x{{x")] fails, although the text that follows occurs once;
    and so does [scan("a{", "{}{{{}")] with two texts, the second of which is
    empty. *)
Theorem C40_braces_refuted :
  (exists e vars, scan iso (str "a{{x") (str "{}{{x") [SStr] [NStr []] = (Err e, vars)) /\
  (exists p b, scan iso (str "a{{{x{{x") (str "{}{{{{x") [SStr] [NStr []] = (Ok tt, [NStr p]) /\ str "a{{{x{{x" = str "a{" ++ str "{{x" ++ b /\ (length (str "a{") < length p)%nat) /\
  (exists e vars, scan iso (str "ax{x") (str "{}x{{x") [SStr] [NStr []] = (Err e, vars)) /\
  (exists e vars, scan iso (str "a{") (str "{}{{{}") [SStr; SStr] [NStr []; NStr []] = (Err e, vars)).
Proof.
  split; [eexists; eexists; vm_compute; reflexivity|]. split; [|split; eexists; eexists; vm_compute; reflexivity].
  eexists; eexists. split; [vm_compute; reflexivity|]. split; [reflexivity|]. cbn. lia.
Qed.
Print Assumptions C40_braces_refuted.
(** Nothing can be read from an empty input in front of something else. *)
Theorem C40_empty_refuted : exists e vars,
  scan iso [] (str "{}{}") [SStr; SStr] [NStr []; NStr []] = (Err e, vars) /\ scan iso [] (str "{}") [SStr] [NStr []] = (Ok tt, [NStr []]).
Proof. eexists; eexists; split; vm_compute; reflexivity. Qed.
Print Assumptions C40_empty_refuted.
(** A failed attempt of two characters, and the field behind. *)
Example C40_braces_example :
  attempts (str "{x") (str "a{}b") /\
  scan_from iso (mk_reader (str "a{}b{xc") 0) (str "{}{{x") [SStr] [NStr []] = (Ok tt, (mk_reader (str "a{}b{xc") 6, [NStr (str "a{}b")])).
Proof.
  split; [|vm_compute; reflexivity]. apply (attempts_fail (str "{x") 0 97 (str "{}b")); [cbn; lia|cbn; congruence|]. apply (attempts_fail (str "{x") 1 125 (str "b")); [cbn; lia|cbn; congruence|].
  apply (attempts_fail (str "{x") 0 98 []); [cbn; lia|cbn; congruence|constructor].
Qed.
Example C40_example :
  let input := str "xaabaab" in
  before_first (skipn 1 input) (str "ab") (str "a") /\
  scan_from iso (mk_reader input 1) (str "{}ab") [SStr] [NStr []] = (Ok tt, (mk_reader input 4, [NStr (str "a")])) /\
  scan iso (str "k=v;") (str "{}={};") [SStr; SStr] [NStr []; NStr []] = (Ok tt, [NStr (str "k"); NStr (str "v")]) /\
  scan iso (str "a{b") (str "{}{{{}") [SStr; SStr] [NStr []; NStr []] = (Ok tt, [NStr (str "a"); NStr (str "b")]).
Proof.
  cbv zeta. split; [|repeat split; vm_compute; reflexivity]. split; [exists (str "aab"); reflexivity|]. intros [|x a'] b' E; [discriminate|cbn; lia].
Qed.

(** ** C41 A field with a width takes as many characters *)
Lemma width_read m t s foll piece rest v : scan_allowed t s -> field_reads (reads_int m) takes t s foll piece rest v -> sc_width s <> -1 -> width_ok s -> Z.of_nat (length piece) = sc_width s.
Proof.
  intros HA HR HW HO. assert (E : (sc_width s =? -1) = false) by lia. destruct t, v; try contradiction; cbn [field_reads] in HR.
  - subst piece. cbn in *. unfold width_ok in HO. lia.
  - destruct HR as (neg & base & ds & (sign & p & _ & _ & _ & _ & HR) & _). now rewrite E in HR.
  - destruct HR as (_ & HR). now rewrite E in HR.
Qed.
(** In a successful scan every field with a width has taken exactly as many
    characters. *)
Theorem C41_width : forall m input fmt tys vars vars' its1 index colon spec its2 ns1 n ns2 t s,
  scan_call input fmt tys -> fmt = text_of (its1 ++ Field index colon spec :: its2) -> scan_items tys (its1 ++ Field index colon spec :: its2) (ns1 ++ n :: ns2) -> length ns1 = length (indices its1) ->
  nth_error tys n = Some t -> small_numbers spec -> scan_spec_text spec s -> sc_width s <> -1 -> (n < length vars)%nat -> ~ In n ns2 ->
  scan m input fmt tys vars = (Ok tt, vars') ->
  exists before piece rest v, input = before ++ piece ++ rest /\ Z.of_nat (length piece) = sc_width s /\ nth_error vars' n = Some v /\
    match t, v with
    | SChar, NChar c => piece = [c]
    | SStr, NStr x => x = piece
    | SInt t, NInt z => reads_int m t s piece rest z
    | _, _ => False
    end.
Proof.
  intros m input fmt tys vars vars' its1 index colon spec its2 ns1 n ns2 t s HC HS HG HN HT HSm HSp HW HV HO H.
  destruct (field_of_scan _ _ _ _ _ _ _ _ _ _ _ _ _ _ HC HS HG HN H HV HO) as (before & piece & rest & v & t' & s' & HI & Hv & HT' & HSs & HR).
  rewrite HT in HT'. injection HT' as <-. assert (HB : Forall is_byte spec). { destruct HC as (HF & _). rewrite HS, text_of_app in HF. apply Forall_app in HF. destruct HF as (_ & HF). cbn [text_of flat_map item_text] in HF. rewrite !Forall_app in HF. tauto. }
  assert (s' = s) as -> by (eapply scan_spec_unique; eauto). exists before, piece, rest, v. split; [exact HI|].
  assert (HA : scan_allowed t s). { destruct HG as (_ & _ & HG). unfold field_specs in HG. rewrite flat_map_app in HG. apply Forall2_app_inv_l in HG. destruct HG as (l1 & l2 & HG1 & HG2 & E).
    assert (L : length l1 = length (flat_map (fun i => match i with Field _ _ spec => [spec] | _ => [] end) its1)). { rewrite <- (two_lists _ _ _ HG1), HN. clear. unfold indices. induction its1 as [|[] l IH]; cbn; auto. }
    symmetry in E. apply app_parts in E; [|exact L]. destruct E as (_ & ->). cbn [flat_map app] in HG2. inversion HG2 as [|? ? ? ? (t' & HT'' & s'' & HS'' & HA'')]; subst. rewrite HT in HT''. injection HT'' as <-. assert (s'' = s) as <- by (eapply scan_spec_unique; eauto). exact HA''. }
  split; [exact (width_read _ _ _ _ _ _ _ HA HR HW (spec_width _ _ HSp))|]. split; [exact Hv|]. destruct t, v; try contradiction; cbn [field_reads] in HR; [exact HR|exact HR|exact (proj1 HR)].
Qed.
Print Assumptions C41_width.
(** Without enough input scanning does not succeed. *)
Theorem C41_short_input_fails : forall m input i y spec s t v,
  scan_spec_text spec s -> scan_allowed y s -> small_numbers spec -> Forall is_byte spec -> Forall is_byte t -> sty_ok y -> Forall is_byte input -> Z.of_nat (length input) < 2 ^ 64 -> (i <= length input)%nat ->
  Z.of_nat (length (skipn i input)) < sc_width s -> forall st, scan_from m (mk_reader input i) (str "{:" ++ spec ++ quoted t) [y] [v] <> (Ok tt, st).
Proof.
  intros m input i y spec s t v HSp HA HSm HB HT HY HI HL Hi HW (r', vars') H. change (str "{:" ++ spec ++ quoted t) with (one_text true spec t) in H.
  destruct (one_reads m y true spec t input i v r' vars' ltac:(exists s; auto) ltac:(discriminate) HB HT HY HI HL Hi H) as (piece & rest & x & s' & HE & HS' & HR & _).
  pose proof (scan_spec_unique spec s' s HB HSm HS' HSp) as ->. pose proof (width_read _ _ _ _ _ _ _ HA HR ltac:(lia) (spec_width _ _ HSp)). rewrite HE, app_length in HW. lia.
Qed.
Print Assumptions C41_short_input_fails.
(** A text takes them whatever they are. *)
Theorem C41_text : forall m input i spec s v,
  scan_spec_text spec s -> scan_allowed SStr s -> small_numbers spec -> Forall is_byte spec -> Forall is_byte input -> Z.of_nat (length input) < 2 ^ 64 -> (i <= length input)%nat ->
  sc_width s <> -1 -> sc_width s <= Z.of_nat (length (skipn i input)) ->
  let w := Z.to_nat (sc_width s) in
  scan_from m (mk_reader input i) (str "{:" ++ spec) [SStr] [v] = (Ok tt, (mk_reader input (i + w), [NStr (firstn w (skipn i input))])).
Proof.
  intros m input i spec s v HSp HA HSm HB HI HL Hi HN HW w. replace (str "{:" ++ spec) with (one_text true spec []) by (unfold one_text; cbn; now rewrite app_nil_r).
  assert (HO := spec_width _ _ HSp). unfold width_ok in HO. assert (HLp : length (firstn w (skipn i input)) = w) by (rewrite firstn_length; unfold w; lia).
  rewrite (one_first m SStr true spec [] input i v (firstn w (skipn i input)) (skipn w (skipn i input)) (NStr (firstn w (skipn i input))) s); auto; [|discriminate|exact I|cbn [app]; now rewrite firstn_skipn|].
  - rewrite HLp. cbn [length]. now rewrite Nat.add_0_r.
  - split; [reflexivity|]. assert (E : (sc_width s =? -1) = false) by lia. rewrite E, HLp. unfold w. lia.
Qed.
Print Assumptions C41_text.
Lemma width3 : scan_spec_text (str "3}") (mk_scan false 0 3).
Proof. exists [], [51], [], false, 3, 0. split; [reflexivity|]. split; [reflexivity|]. split; [right; split; [|lia]; split; [digs|]; split; [lia|reflexivity]|]. split; [left; auto|reflexivity]. Qed.
Example C41_example :
  scan_spec_text (str "3}") (mk_scan false 0 3) /\ scan_allowed SStr (mk_scan false 0 3) /\ small_numbers (str "3}") /\
  scan_from iso (reader_of (str "a{ }")) (str "{:3}") [SStr] [NStr []] = (Ok tt, (mk_reader (str "a{ }") 3, [NStr (str "a{ ")])) /\
  scan iso (str "12345") (str "{:3}{}") [SInt u8; SInt u8] [NInt 0; NInt 0] = (Ok tt, [NInt 123; NInt 45]) /\
  fst (scan iso (str "12") (str "{:3}") [SInt u8] [NInt 0]) <> Ok tt.
Proof. split; [exact width3|]. split; [cbn; auto|]. split; [now apply short_small|]. split; [vm_compute; reflexivity|]. split; [vm_compute; reflexivity|]. vm_compute. discriminate. Qed.

(** ** C42 A failure leaves target and input alone *)

(** If reading a field fails, the target and the position of the reader have not
    changed, except: a target of 32 or 64 bits with a width is assigned before
    the width is checked, and a number that does not fit a target of 8 or 16 bits
    is consumed. *)
Theorem C42_field_partial : forall m t s fmt p input i following e r' v,
  scan_allowed t s -> sty_ok t -> width_ok s ->
  skipn p fmt = text_of following -> (p <= length fmt)%nat -> Forall open_item following -> (i <= length input)%nat -> Z.of_nat (length input) < 2 ^ 64 -> Forall is_byte (skipn i input) ->
  scan_value m t s (mk_reader fmt p) (mk_reader input i) = (Err e, (r', v)) ->
  (r' = mk_reader input i \/ exists k, t = SInt k /\ bits k <= 16 /\ e = out_of_range) /\
  (v = None \/ exists k, t = SInt k /\ 32 <= bits k /\ sc_width s <> -1).
Proof.
  intros m t s fmt p input i following e r' v HA HY HW HF Hp HO Hi HL HB H. pose proof (value_at m t s fmt p input i following HA HY HW HF Hp HO Hi HL HB) as P. rewrite H in P.
  destruct P as ([-> |((k & H1 & H2 & H3) & _)] & [-> |((k' & H4 & H5) & H6)]); split; eauto.
Qed.
Print Assumptions C42_field_partial.
(** If a scan fails, the items in front of some place were read as in a
    successful scan, with their targets assigned, and no other target has changed
    except perhaps that of the next field if it is such a field. *)
Theorem C42_scan_partial : forall m input fmt tys vars its ns e vars',
  scan_call input fmt tys -> scan_accepted fmt tys -> fmt = text_of its -> scan_items tys its ns ->
  scan m input fmt tys vars = (Err e, vars') ->
  stops m tys its ns [] input vars vars' \/ exists rest vs, scans (read_fields m tys []) its ns input rest vs /\ rest <> [] /\ e = invalid_format /\ vars' = assigned vars vs.
Proof.
  intros m input fmt tys vars its ns e vars' (HF & HI & HL & HO & HN) HA HS HG H. destruct (accepted_items _ _ _ _ HF HA HS HG) as (HAc & HC).
  pose proof (from_reads m tys fmt its ns [] input 0 vars HF HI HL HO HN ltac:(lia) HAc no_end HC) as P. rewrite scan_is in H. unfold reader_of in H. destruct (scan_from m (mk_reader input 0) fmt tys vars) as ([u|e'| |] & (r' & vs')); try discriminate.
  - destruct P as (rest & vs & j & HR & -> & Hj & HB & ->). destruct (at_eof (mk_reader input j)) eqn:EE; [discriminate|]. injection H as <- <-. right. exists rest, vs. split; [exact HR|]. split; [|auto]. intros HX.
    pose proof (eof_rest input j ltac:(lia)) as Q. rewrite Hj, EE in Q. destruct Q as (_ & Q). specialize (Q HX). discriminate.
  - injection H as <- <-. left. apply P.
Qed.
Print Assumptions C42_scan_partial.
Theorem C42_wide_target_refuted :
  scan iso (str "1x345") (str "{:2}{:3}") [SInt i32; SInt i32] [NInt 7; NInt 8] = (Err invalid_data, [NInt 1; NInt 8]) /\
  scan iso (str "1x345") (str "{:2}{:3}") [SInt i16; SInt i16] [NInt 7; NInt 8] = (Err invalid_data, [NInt 7; NInt 8]).
Proof. split; vm_compute; reflexivity. Qed.
Print Assumptions C42_wide_target_refuted.
Theorem C42_narrow_target_refuted : exists r,
  scan_from iso (reader_of (str "300;")) (str "{};") [SInt u8] [NInt 7] = (Err out_of_range, (r, [NInt 7])) /\ rpos r = 3%nat.
Proof. eexists. split; vm_compute; reflexivity. Qed.
Print Assumptions C42_narrow_target_refuted.
Example C42_example :
  scan_value iso (SInt i32) default_scan (mk_reader (str "{};") 2) (mk_reader (str "a-bc") 1) = (Err invalid_data, (mk_reader (str "a-bc") 1, None)) /\
  scan iso (str "1,x") (str "{},{}") [SInt i32; SInt i32] [NInt 7; NInt 8] = (Err invalid_data, [NInt 1; NInt 8]).
Proof. split; vm_compute; reflexivity. Qed.

(** ** C50 Scanning is defined *)

(** Scanning never has undefined behaviour and never aborts, whatever string and
    input, unless a signed overflow is undefined, a target is signed, and the
    input contains a number which does not fit the type it is read in. *)
Theorem C50_scan_from : forall m input i fmt tys vars,
  scan_call input fmt tys -> (i <= length input)%nat ->
  (exists st, scan_from m (mk_reader input i) fmt tys vars = (Ok tt, st)) \/ (exists e st, scan_from m (mk_reader input i) fmt tys vars = (Err e, st)) \/
  (m = iso /\ fst (scan_from m (mk_reader input i) fmt tys vars) = Undef /\ exists t, In (SInt t) tys /\ signed t = true /\ overlong (upcasted t) (skipn i input)).
Proof.
  intros m input i fmt tys vars (HF & HI & HL & HO & HN) Hi. destruct (scan_accepted_decided fmt tys HF HN) as (v & HV & [HS|HS]).
  - assert (HA : scan_accepted fmt tys) by (exists v; auto). destruct (scan_accepted_sound fmt tys HF HA) as (its & ns & e & HAc & _ & HC).
    assert (HE : e = [] \/ field_255 e) by (destruct (sacc_cut _ _ _ _ _ _ _ _ HAc) as [->|(? & _)]; auto). destruct (end_of e HE) as (ei & HEi & <-).
    pose proof (from_reads m tys fmt its ns ei input i vars HF HI HL HO HN Hi HAc HEi HC) as P. destruct (scan_from m (mk_reader input i) fmt tys vars) as ([[]|e'| |] & (r' & vs')); eauto 6; [|contradiction].
    destruct P as (-> & n & t & _ & HT & HSg). right. right. split; [reflexivity|]. split; [reflexivity|]. exists t. apply nth_error_In in HT. auto.
  - right. left. unfold scan_from, vscan_from. rewrite HV, HS. eauto.
Qed.
Print Assumptions C50_scan_from.
Theorem C50_scan : forall m input fmt tys vars,
  scan_call input fmt tys ->
  (exists vars', scan m input fmt tys vars = (Ok tt, vars')) \/ (exists e vars', scan m input fmt tys vars = (Err e, vars')) \/
  (m = iso /\ fst (scan m input fmt tys vars) = Undef /\ exists t, In (SInt t) tys /\ signed t = true /\ overlong (upcasted t) input).
Proof.
  intros m input fmt tys vars HC. rewrite scan_is. unfold reader_of. destruct (C50_scan_from m input 0 fmt tys vars HC ltac:(lia)) as [((r & vs) & ->)|[(e & (r & vs) & ->)|(H1 & H2 & H3)]]; [|eauto|].
  - destruct (at_eof r); eauto.
  - right. right. split; [exact H1|]. split; [|exact H3]. destruct (scan_from m (mk_reader input 0) fmt tys vars) as [o [r vs]]. cbn [fst] in *. now subst o.
Qed.
Print Assumptions C50_scan.
(** The exception: [scan("9999999999", "{}", int&)] with undefined overflow. *)
Theorem C50_overflow_refuted : exists vars, scan iso (str "9999999999") (str "{}") [SInt i32] [NInt 0] = (Undef, vars).
Proof. eexists. vm_compute. reflexivity. Qed.
Print Assumptions C50_overflow_refuted.
Example C50_example : scan_call (str "1 a") (str "{} {}") [SInt u32; SChar] /\ scan iso (str "1 a") (str "{} {}") [SInt u32; SChar] [NInt 0; NChar 0] = (Ok tt, [NInt 1; NChar 97]).
Proof. split; [call|vm_compute; reflexivity]. Qed.
