(** Proofs about Scan.v: the specifications of fields. *)
From Verif Require Import Base Conversion Reader Buffer Bitset Specs Format Scan.
From Verif Require Import Lib SpecNum SpecReader SpecSpecs SpecString SpecScan.
From Verif Require Import ConversionProofs ReaderProofs SpecsProofs StringProofs StringLoop.

Definition hash_stage (c : Z) (s : scan_specs) (r : reader) : outcome (Z * scan_specs) * reader :=
  if c =? ch_hash then sdo (c', r) <- read_char r ;; (Ok (c', mk_scan true (sc_type s) (sc_width s)), r)
  else (Ok (c, s), r).
Definition size_stage (c : Z) (s : scan_specs) (r : reader) : outcome (Z * scan_specs) * reader :=
  if isdigit c then
    let r := unpop r 1 in
    sdo (size, r) <- parse_int fwrapv u32 10 r ;;
    if (size =? 0) || (imax i32 <? size) then (Err invalid_format, r)
    else sdo (c', r) <- read_char r ;; (Ok (c', mk_scan (sc_alternate s) (sc_type s) size), r)
  else (Ok (c, s), r).
Definition letter_stage (c : Z) (s : scan_specs) (r : reader) : outcome (Z * scan_specs) * reader :=
  if isalpha c then sdo (c', r) <- read_char r ;; (Ok (c', mk_scan (sc_alternate s) c (sc_width s)), r)
  else (Ok (c, s), r).

Lemma scan_stages r s : validate_scan_specs r s =
  sdo (c, r) <- read_char r ;;
  if c =? ch_rbrace then (Ok s, r)
  else
    sdo (cs, r) <- hash_stage c s r ;;
    sdo (cs, r) <- size_stage (fst cs) (snd cs) r ;;
    sdo (cs, r) <- letter_stage (fst cs) (snd cs) r ;;
    if fst cs =? ch_rbrace then (Ok (snd cs), r) else (Err invalid_format, r).
Proof.
  assert (X : forall (A : Type) (m : outcome (Z * scan_specs) * reader) (f g : Z * scan_specs -> reader -> outcome A * reader),
     (forall c s r, f (c, s) r = g (c, s) r) -> sbind m f = sbind m g).
  { intros A [[[c s']|e| |] r'] f g E; cbn; auto. }
  unfold validate_scan_specs. destruct (read_char r) as [[c| | |] r1]; cbn [sbind]; try reflexivity.
  destruct (c =? ch_rbrace); [reflexivity|]. repeat (apply X; intros). reflexivity.
Qed.

Lemma hash_ok T n c l s c' s' r' : skipn n T = c :: l ->
  hash_stage c s (mk_reader T (S n)) = (Ok (c', s'), r') <->
  exists part l', c :: l = part ++ c' :: l' /\ r' = mk_reader T (S (n + length part)) /\
    ((part = [] /\ c' <> 35 /\ s' = s) \/ (part = [35] /\ s' = mk_scan true (sc_type s) (sc_width s))).
Proof.
  intros H. destruct (read_at _ _ _ _ H) as [_ HS]. unfold hash_stage. change ch_hash with 35. destruct (c =? 35) eqn:ET.
  - assert (c = 35) as -> by lia. split.
    + intros E. sinv E. injection E as -> <- <-. apply read_inv in E0. destruct E0 as (-> & l0 & E0). rewrite HS in E0. clear HS. subst l.
      exists [35], l0. cbn [app length]. rewrite Nat.add_1_r. auto 6.
    + intros (part & l' & E & -> & [(-> & X & _)|(-> & ->)]).
      * cbn in E. congruence.
      * cbn in E. injection E as ->. destruct (read_at _ _ _ _ HS) as [-> _]. cbn [sbind length]. now rewrite Nat.add_1_r.
  - split.
    + intros [= -> -> <-]. exists [], l. cbn [app length]. rewrite Nat.add_0_r. split; [reflexivity|]. split; [reflexivity|]. left. split; [reflexivity|]. split; [lia|reflexivity].
    + intros (part & l' & E & -> & [(-> & X & ->)|(-> & _)]).
      * cbn in E. injection E as -> ->. cbn. now rewrite Nat.add_0_r.
      * cbn in E. injection E as -> _. discriminate.
Qed.

Lemma isalpha_byte c : is_byte c -> isalpha c = true <-> is_letter c.
Proof. unfold is_byte, isalpha, schar, is_letter. intros H. cbv zeta. destruct (c <? 128) eqn:E; lia. Qed.

Lemma letter_ok T n c l s c' s' r' : is_byte c -> skipn n T = c :: l ->
  letter_stage c s (mk_reader T (S n)) = (Ok (c', s'), r') <->
  exists part l', c :: l = part ++ c' :: l' /\ r' = mk_reader T (S (n + length part)) /\
    ((part = [] /\ ~ is_letter c' /\ s' = s) \/ (part = [c] /\ is_letter c /\ s' = mk_scan (sc_alternate s) c (sc_width s))).
Proof.
  intros HB H. assert (IA := isalpha_byte c HB). destruct (read_at _ _ _ _ H) as [_ HS]. unfold letter_stage. destruct (isalpha c).
  - assert (IL : is_letter c) by now apply IA. split.
    + intros E. sinv E. injection E as -> <- <-. apply read_inv in E0. destruct E0 as (-> & l0 & E0). rewrite HS in E0. clear HS. subst l.
      exists [c], l0. cbn [app length]. rewrite Nat.add_1_r. auto 6.
    + intros (part & l' & E & -> & [(-> & X & _)|(-> & _ & ->)]).
      * cbn in E. congruence.
      * cbn in E. injection E as ->. destruct (read_at _ _ _ _ HS) as [-> _]. cbn [sbind length]. now rewrite Nat.add_1_r.
  - assert (IL : ~ is_letter c) by (intros X; apply IA in X; discriminate). split.
    + intros [= -> -> <-]. exists [], l. cbn [app length]. rewrite Nat.add_0_r. auto 6.
    + intros (part & l' & E & -> & [(-> & X & ->)|(-> & X & _)]).
      * cbn in E. injection E as -> ->. cbn. now rewrite Nat.add_0_r.
      * contradiction.
Qed.

Lemma size_sound T n c l s c' s' r' : Forall is_byte T -> skipn n T = c :: l ->
  size_stage c s (mk_reader T (S n)) = (Ok (c', s'), r') ->
  exists part l', c :: l = part ++ c' :: l' /\ r' = mk_reader T (S (n + length part)) /\
    ((part = [] /\ s' = s) \/ (exists w, number_read part w /\ 1 <= w /\ s' = mk_scan (sc_alternate s) (sc_type s) w)).
Proof.
  intros HB HS H. unfold size_stage in H. assert (BC := head_byte _ _ _ _ HB HS). rewrite isdigit_byte in H by exact BC.
  destruct ((48 <=? c) && (c <=? 57)) eqn:ED.
  - cbv zeta in H. change (unpop (mk_reader T (S n)) 1) with (mk_reader T (S n - 1)) in H. replace (S n - 1)%nat with n in H by lia. sinv H.
    destruct (split_digits c l ltac:(lia)) as (ds & rest & E1 & HD & HR).
    assert (HS' := HS). rewrite E1 in HS'.
    destruct (parse_number_inv T n ds rest x r HB HS' ltac:(apply skip_bound in HS; lia) HD HR E) as (-> & W0 & W1).
    destruct ((x =? 0) || (imax i32 <? x)) eqn:EM; [discriminate|]. sinv H. injection H as -> <- <-. apply read_inv in E0. destruct E0 as (-> & l0 & E0).
    rewrite (skip_part T n ds rest HS') in E0. subst rest. exists ds, l0. split; [exact E1|]. split; [reflexivity|]. right. exists x.
    change (imax i32) with (2 ^ 31 - 1) in EM. split; [split; [exact HD|]; split; [lia|exact W1]|]. split; [lia|reflexivity].
  - injection H as -> -> <-. exists [], l. cbn [app length]. rewrite Nat.add_0_r. auto 6.
Qed.

Lemma size_complete T n c l s part c' l' : Forall is_byte T -> skipn n T = c :: l -> c :: l = part ++ c' :: l' -> ~ (48 <= c' <= 57) ->
  (part = [] -> size_stage c s (mk_reader T (S n)) = (Ok (c', s), mk_reader T (S n))) /\
  (forall w, number_read part w -> 1 <= w -> denotes 10 part < 2 ^ 32 ->
     size_stage c s (mk_reader T (S n)) = (Ok (c', mk_scan (sc_alternate s) (sc_type s) w), mk_reader T (S (n + length part)))).
Proof.
  intros HB HS HE HC. unfold size_stage. assert (BC := head_byte _ _ _ _ HB HS). rewrite isdigit_byte by exact BC. split.
  - intros ->. cbn in HE. injection HE as -> ->. replace ((48 <=? c') && (c' <=? 57)) with false by lia. reflexivity.
  - intros w (HD & HW & HV) H1 HL. specialize (HV HL). assert (HD' := HD). destruct HD' as [NE HF]. destruct part as [|d part]; [congruence|].
    assert (d = c) by (cbn in HE; congruence). subst d. assert (Hc : 48 <= c <= 57) by now inversion HF.
    replace ((48 <=? c) && (c <=? 57)) with true by lia. cbv zeta. change (unpop (mk_reader T (S n)) 1) with (mk_reader T (S n - 1)). replace (S n - 1)%nat with n by lia.
    rewrite HE in HS. rewrite (parse_number T n (c :: part) (c' :: l') HB HS ltac:(apply skip_bound in HS; lia) HD ltac:(intros x t [= <- <-]; exact HC) HL).
    cbn [sbind]. replace ((denotes 10 (c :: part) =? 0) || (imax i32 <? denotes 10 (c :: part))) with false by (change (imax i32) with (2 ^ 31 - 1); lia).
    apply skip_part in HS. destruct (read_at _ _ _ _ HS) as [-> _]. cbn [sbind]. now subst w.
Qed.

(** ** What is accepted *)
Theorem scan_specs_sound T n s r' : Forall is_byte T -> validate_scan_specs (mk_reader T n) default_scan = (Ok s, r') ->
  exists t rest, skipn n T = t ++ rest /\ scan_spec_text t s /\ r' = mk_reader T (n + length t).
Proof.
  intros HB H. rewrite scan_stages in H. sinv H. apply read_inv in E. destruct E as (-> & l & HS).
  change ch_rbrace with 125 in H. destruct (x =? 125) eqn:EX.
  - injection H as <- <-. assert (x = 125) as -> by lia. exists [125], l. split; [exact HS|]. split; [|now rewrite Nat.add_1_r].
    exists [], [], [], false, (-1), 0. split; [reflexivity|]. split; [reflexivity|]. split; [left; auto|]. split; [left; auto|]. reflexivity.
  - sinv H. destruct x0 as [c1 s1]. apply (hash_ok _ _ _ _ _ _ _ _ HS) in E. destruct E as (p1 & l1 & E1 & -> & C1).
    assert (S1 : skipn (n + length p1) T = c1 :: l1) by (apply skip_part; now rewrite HS).
    sinv H. destruct x0 as [c2 s2]. cbn [fst snd] in E. apply (size_sound _ _ _ _ _ _ _ _ HB S1) in E. destruct E as (p2 & l2 & E2 & -> & C2).
    assert (S2 : skipn (n + length p1 + length p2) T = c2 :: l2) by (apply skip_part; now rewrite S1).
    sinv H. destruct x0 as [c3 s3]. cbn [fst snd] in E, H. apply (letter_ok _ _ _ _ _ _ _ _ (head_byte _ _ _ _ HB S2) S2) in E. destruct E as (p3 & l3 & E3 & -> & C3).
    destruct (c3 =? 125) eqn:E5; [|discriminate]. assert (c3 = 125) as -> by lia. injection H as <- <-.
    exists (p1 ++ p2 ++ p3 ++ [125]), l3. split; [|split].
    + rewrite HS, E1, E2, E3. now rewrite <- !app_assoc.
    + exists p1, p2, p3, (sc_alternate s1), (sc_width s2), (sc_type s3).
      split; [reflexivity|]. split; [destruct C1 as [(-> & _ & ->)|(-> & ->)]; reflexivity|].
      split; [destruct C2 as [(-> & ->)|(w & HW & H1 & ->)]|].
      * left. split; [reflexivity|]. destruct C1 as [(_ & _ & ->)|(_ & ->)]; reflexivity.
      * right. cbn. auto.
      * split.
        -- destruct C3 as [(-> & _ & ->)|(-> & HL & ->)]; [left|right; cbn; auto]. split; [reflexivity|].
           destruct C2 as [(_ & ->)|(w & _ & _ & ->)]; destruct C1 as [(_ & _ & ->)|(_ & ->)]; reflexivity.
        -- destruct C3 as [(_ & _ & ->)|(_ & _ & ->)]; destruct C2 as [(_ & ->)|(w & _ & _ & ->)]; cbn; try reflexivity; now destruct s1.
    + f_equal. rewrite !app_length. cbn [length]. lia.
Qed.

Theorem scan_specs_complete T n t rest s : Forall is_byte T -> skipn n T = t ++ rest -> scan_spec_text t s -> small_numbers t ->
  validate_scan_specs (mk_reader T n) default_scan = (Ok s, mk_reader T (n + length t)).
Proof.
  intros HB HS (al & wd & ty & alt & w & type & -> & HA & HW & HT & ->) HSm. rewrite scan_stages.
  assert (SW : wd <> [] -> denotes 10 wd < 2 ^ 32).
  { intros _. destruct HW as [[-> _]|[(HD & _) _]]; [cbn; lia|]. apply (HSm al wd (ty ++ [125])); [reflexivity|exact HD]. }
  assert (HLET : forall c, is_letter c -> c <> 35 /\ ~ (48 <= c <= 57) /\ c <> 125) by (unfold is_letter; intros; lia).
  (* the first character *)
  assert (EX : exists c l, al ++ wd ++ ty ++ [125] = c :: l) by (destruct al; [destruct wd; [destruct ty|]|]; cbn; eauto).
  destruct EX as (c & l & EX). assert (HS0 := HS). rewrite EX in HS0. cbn [app] in HS0. destruct (read_at _ _ _ _ HS0) as [RA _]. rewrite RA. cbn [sbind]. change ch_rbrace with 125.
  destruct (c =? 125) eqn:E125.
  - assert (c = 125) as -> by lia. unfold flag_part in HA. assert (alt = false) as -> by (destruct alt; [subst al; cbn in EX; discriminate|reflexivity]). subst al. cbn [app] in EX.
    destruct HW as [[-> ->]|[([NE HF] & _) _]]; [|destruct wd as [|d wd]; [congruence|]; cbn in EX; injection EX as -> _; inversion HF; lia]. cbn [app] in EX.
    destruct HT as [[-> ->]|[-> HL]]; [|cbn in EX; injection EX as -> _; apply HLET in HL; lia].
    cbn [app length]. now rewrite Nat.add_1_r.
  - (* the character after the hash *)
    assert (EW : exists c1 l1, wd ++ ty ++ [125] = c1 :: l1 /\ c1 <> 35).
    { destruct HW as [[-> _]|[([NE HF] & _) _]].
      - destruct HT as [[-> _]|[-> HL]]; cbn [app]; do 2 eexists; (split; [reflexivity|]); [lia|]. apply HLET in HL. lia.
      - destruct wd as [|d wd]; [congruence|]. cbn [app]. do 2 eexists. split; [reflexivity|]. inversion HF; lia. }
    destruct EW as (c1 & l1 & EW & N35).
    assert (H1 : hash_stage c default_scan (mk_reader T (S n)) = (Ok (c1, mk_scan alt 0 (-1)), mk_reader T (S (n + length al)))).
    { apply (hash_ok T n c (l ++ rest)); [exact HS0|]. exists al, (l1 ++ rest). split; [|split; [reflexivity|]].
      - rewrite app_comm_cons, <- EX, <- app_assoc, EW. reflexivity.
      - unfold flag_part in HA. destruct alt; [right|left]; auto. }
    rewrite H1. cbn [sbind fst snd].
    assert (S1 : skipn (n + length al) T = c1 :: l1 ++ rest).
    { apply skip_part. rewrite HS, <- app_assoc, EW. reflexivity. }
    assert (EY : exists c2 l2, ty ++ [125] = c2 :: l2 /\ ~ (48 <= c2 <= 57)).
    { destruct HT as [[-> _]|[-> HL]]; cbn [app]; do 2 eexists; (split; [reflexivity|]); [lia|]. apply HLET in HL. lia. }
    destruct EY as (c2 & l2 & EY & ND).
    assert (E2 : c1 :: l1 ++ rest = wd ++ c2 :: l2 ++ rest).
    { rewrite app_comm_cons, <- EW, EY, <- app_assoc. reflexivity. }
    destruct (size_complete T (n + length al) c1 (l1 ++ rest) (mk_scan alt 0 (-1)) wd c2 (l2 ++ rest) HB S1 E2 ND) as [Q1 Q2].
    assert (H2 : size_stage c1 (mk_scan alt 0 (-1)) (mk_reader T (S (n + length al))) = (Ok (c2, mk_scan alt 0 w), mk_reader T (S (n + length al + length wd)))).
    { destruct HW as [[-> ->]|[HN HW1]].
      - rewrite Q1 by reflexivity. cbn [length]. now rewrite Nat.add_0_r.
      - apply Q2; [exact HN|exact HW1|]. apply SW. destruct HN as [[NE _] _]. exact NE. }
    rewrite H2. cbn [sbind fst snd].
    assert (S2 : skipn (n + length al + length wd) T = c2 :: l2 ++ rest) by (apply skip_part; rewrite S1; exact E2).
    assert (H3 : letter_stage c2 (mk_scan alt 0 w) (mk_reader T (S (n + length al + length wd))) = (Ok (125, mk_scan alt type w), mk_reader T (S (n + length al + length wd + length ty)))).
    { apply (letter_ok T _ c2 (l2 ++ rest)); [eapply head_byte; eauto|exact S2|]. exists ty, rest. split; [|split; [reflexivity|]].
      - rewrite app_comm_cons, <- EY, <- app_assoc. reflexivity.
      - destruct HT as [[-> ->]|[-> HL]]; [left|right]; cbn [sc_alternate sc_type sc_width].
        + split; [reflexivity|]. split; [unfold is_letter; lia|reflexivity].
        + cbn in EY. injection EY as -> _. auto. }
    rewrite H3. cbn [sbind fst snd]. change (125 =? 125) with true. cbv iota. do 2 f_equal. rewrite !app_length. cbn [length]. lia.
Qed.

Theorem scan_parse_same r s0 s r' : validate_scan_specs r s0 = (Ok s, r') -> parse_scan_specs r s0 = (Ok s, r').
Proof.
  intros H. unfold validate_scan_specs in H. unfold parse_scan_specs.
  assert (RC : forall r c r1 (k : Z -> reader -> outcome (Z * scan_specs) * reader), read_char r = (Ok c, r1) -> sbind (assume (read_char r)) k = k c r1).
  { intros ? ? ? k RC. now rewrite RC. }
  sinv H. rewrite (assume_ok _ _ _ E). cbn [sbind]. destruct (x =? ch_rbrace); [exact H|]. clear E.
  sinv H. match goal with |- sbind ?m _ = _ => assert (X : m = (Ok x0, r1)) end.
  { destruct (x =? ch_hash); [|exact E]. sinv E. rewrite (RC _ _ _ _ E0). exact E. }
  rewrite X; clear X; cbn [sbind]. destruct x0 as [c1 s1]. clear E.
  sinv H. match goal with |- sbind ?m _ = _ => assert (X : m = (Ok x0, r2)) end.
  { destruct (isdigit c1); [|exact E]. sinv E. cbv zeta. rewrite (assume_ok _ _ _ E0). cbn [sbind]. destruct ((x1 =? 0) || (imax i32 <? x1)) eqn:EM; [discriminate|].
    sinv E. rewrite (RC _ _ _ _ E1). rewrite wrap_i32; [exact E|]. split; [eapply parse_int_nonneg; eauto|lia]. }
  rewrite X; clear X; cbn [sbind]. destruct x0 as [c2 s2]. clear E.
  sinv H. destruct x0 as [c7 s7]. destruct (c7 =? ch_rbrace) eqn:EB; [|discriminate]. injection H as -> ->.
  destruct (isalpha c2); [|injection E as _ -> ->; reflexivity]. sinv E. injection E as -> <- <-. f_equal.
  unfold read_char in E0. unfold pop. destruct (peek r2) as [c| | |] eqn:EP; try discriminate. injection E0 as _ <-.
  unfold peek, at_eof in EP. destruct (length (rtext r2) =? rpos r2)%nat eqn:EE; [discriminate|].
  destruct (nth_error (rtext r2) (rpos r2)) eqn:EN; [|discriminate]. assert (rpos r2 < length (rtext r2))%nat by (apply nth_error_Some; congruence).
  unfold cnt_remaining. replace (1 <=? length (rtext r2) - rpos r2)%nat with true by lia. reflexivity.
Qed.

Lemma scan_check_iff t s : match t with SChar => check_scan_char s | SInt _ => check_scan_integral s | SStr => check_scan_string s end = Ok tt <-> scan_allowed t s.
Proof.
  destruct t; cbn [scan_allowed]; unfold check_scan_char, check_scan_integral, check_scan_string.
  - destruct (_ || _ || _) eqn:E; split; intros H; try discriminate; try reflexivity.
    + destruct H as (H1 & H2 & H3). rewrite H2 in E. exfalso. lia.
    + destruct (sc_alternate s); [lia|]. split; [lia|]. split; [reflexivity|lia].
  - change (0 :: str "bdox") with [0; 98; 100; 111; 120]. assert (MI := mem_iff [0; 98; 100; 111; 120] (sc_type s)). destruct (mem _ _); split; intros H; try discriminate; try reflexivity.
    + now apply MI.
    + apply MI in H. discriminate.
  - destruct (_ || _) eqn:E; split; intros H; try discriminate; try reflexivity.
    + destruct H as (H1 & H2). rewrite H2 in E. exfalso. lia.
    + destruct (sc_alternate s); [lia|]. split; [lia|reflexivity].
Qed.

(** The specification of a field is read by parsing it. *)
Definition scan_parses (T : list Z) (p : nat) (sp : list Z) (s : scan_specs) : Prop :=
  parse_scan_specs (mk_reader T p) default_scan = (Ok s, mk_reader T (p + length sp)).

Theorem validate_sty_sound t T n r' : Forall is_byte T -> validate_sty t (mk_reader T n) = (Ok tt, r') ->
  exists sp rest s, skipn n T = sp ++ rest /\ scan_spec_text sp s /\ scan_allowed t s /\ r' = mk_reader T (n + length sp) /\ scan_parses T n sp s.
Proof.
  intros HB H. unfold validate_sty in H. sinv H. injection H as HC <-. destruct (scan_specs_sound _ _ _ _ HB E) as (sp & rest & HS & HT & ->).
  exists sp, rest, x. split; [exact HS|]. split; [exact HT|]. split; [now apply scan_check_iff|]. split; [reflexivity|]. now apply scan_parse_same.
Qed.
Theorem validate_sty_complete t T n sp rest s : Forall is_byte T -> skipn n T = sp ++ rest -> scan_spec_text sp s -> scan_allowed t s -> small_numbers sp ->
  validate_sty t (mk_reader T n) = (Ok tt, mk_reader T (n + length sp)) /\ scan_parses T n sp s.
Proof.
  intros HB HS HT HA HSm. assert (V := scan_specs_complete T n sp rest s HB HS HT HSm). split; [|now apply scan_parse_same].
  unfold validate_sty. rewrite V. cbn [sbind]. apply scan_check_iff in HA. now rewrite HA.
Qed.
Theorem validate_sty_total t r0 r : rwf r -> rtext r = rtext r0 -> settled r0 (validate_sty t r).
Proof.
  intros W HT. unfold validate_sty. apply settled_bind; [unfold validate_scan_specs; settle|]. intros s r' W' HT'.
  destruct t; unfold check_scan_char, check_scan_integral, check_scan_string; match goal with |- settled _ (if ?b then _ else _, _) => destruct b end; cbn; auto.
Qed.
Lemma scan_spec_end sp s : scan_spec_text sp s -> exists x, sp = x ++ [125] /\ ~ In 125 x.
Proof.
  intros (al & wd & ty & alt & w & type & -> & HA & HW & HT & _). exists (al ++ wd ++ ty). split; [now rewrite <- !app_assoc|].
  intros H. apply in_app_or in H. destruct H as [H|H]; [unfold flag_part in HA; destruct alt; subst al; [destruct H as [H|[]]; discriminate|contradiction]|].
  apply in_app_or in H. destruct H as [H|H].
  - destruct HW as [[-> _]|[([_ HF] & _) _]]; [contradiction|]. rewrite Forall_forall in HF. apply HF in H. lia.
  - destruct HT as [[-> _]|[-> HL]]; [contradiction|]. destruct H as [H|[]]. unfold is_letter in HL. lia.
Qed.
