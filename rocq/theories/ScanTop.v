(** Proofs about Scan.v: fields, and scanning as a whole. *)
From Verif Require Import Base Conversion Reader Buffer Bitset Specs Format Scan.
From Verif Require Import Lib SpecNum SpecReader SpecSpecs SpecString SpecScan.
From Verif Require Import ConversionProofs ReaderProofs SpecsProofs BitsetProofs StringProofs StringLoop StringTop ScanSpecs ScanLoop ScanNumber ScanInt ScanText.
Import SpecString.

Lemma spec_width sp s : scan_spec_text sp s -> width_ok s.
Proof.
  intros (al & wd & ty & alt & w & type & _ & _ & HW & _ & ->). unfold width_ok. cbn [sc_width]. destruct HW as [[_ ->]|[(_ & H & _) H1]]; [now left|right]. limits.
Qed.
Lemma allowed_good t s : scan_allowed (SInt t) s -> good_type s.
Proof. intros H. exact H. Qed.

(** ** One field *)
Theorem value_at m t s T p I i foll : scan_allowed t s -> sty_ok t -> width_ok s ->
  skipn p T = text_of foll -> (p <= length T)%nat -> Forall open_item foll -> (i <= length I)%nat -> Z.of_nat (length I) < 2 ^ 64 ->
  Forall is_byte (skipn i I) ->
  match scan_value m t s (mk_reader T p) (mk_reader I i) with
  | (Ok _, (r', v)) => exists x piece rest, v = Some x /\ skipn i I = piece ++ rest /\ r' = mk_reader I (i + length piece) /\
      field_reads (reads_int m) takes_then t s foll piece rest x
  | (Err e, (r', v)) => (r' = mk_reader I i \/ (exists k, t = SInt k /\ bits k <= 16 /\ e = out_of_range) /\ exists j, r' = mk_reader I j /\ (i <= j <= length I)%nat) /\
      (v = None \/ (exists k, t = SInt k /\ 32 <= bits k) /\ sc_width s <> -1)
  | (Undef, _) => m = iso /\ exists k, t = SInt k /\ signed k = true /\ overlong (upcasted k) (skipn i I)
  | (Abort, _) => False
  end.
Proof.
  intros HA HT HW HS HP HO HI HL HC. destruct t as [|t|]; cbn [scan_value].
  - destruct (scan_char_at I i HI) as [(E & ->)|(c & l & E & ->)]; cbn [into option_map fst snd].
    + split; now left.
    + exists (NChar c), [c], l. split; [reflexivity|]. split; [exact E|]. split; [f_equal; cbn; lia|]. reflexivity.
  - assert (X := scan_int_at m t s I i HT (allowed_good _ _ HA) HW HI HL HC).
    destruct (scan_int m t s (mk_reader I i)) as [[[]|e| |] [r' v]] eqn:ES; cbn [into option_map fst snd].
    + destruct X as (w & piece & rest & -> & E & -> & HR). exists (NInt w), piece, rest. cbn. auto.
    + destruct X as (X1 & X2 & _). split.
      * destruct X1 as [X1|(X1 & X3 & piece & rest & neg & base & ds & E & _ & ->)]; [now left|right]. split; [eauto|]. exists (i + length piece)%nat. split; [reflexivity|].
        apply (f_equal (@length Z)) in E. rewrite skipn_length, app_length in E. lia.
      * destruct X2 as [-> |(X2 & X3)]; [now left|right]. eauto.
    + destruct X as (X1 & X2 & X3). eauto.
    + exact X.
  - destruct HW as [HW|HW].
    + assert (X := read_text_at s T p I i foll HW HS HP HO HI). destruct (read_string s (mk_reader T p) (mk_reader I i)) as [[[]|e| |] [r' v]]; cbn [into option_map fst snd]; try contradiction.
      * destruct X as (piece & rest & -> & E & -> & HR). exists (NStr piece), piece, rest. cbn. rewrite HW. change (-1 =? -1) with true. cbv iota. auto.
      * destruct X as (-> & -> & _). split; now left.
    + rewrite read_text_width by lia. destruct (_ <=? _)%nat eqn:E; cbn [into option_map fst snd]; [|split; now left].
      set (w := Z.to_nat (sc_width s)) in *. exists (NStr (firstn w (skipn i I))), (firstn w (skipn i I)), (skipn w (skipn i I)). split; [reflexivity|]. split; [symmetry; apply firstn_skipn|].
      assert (L : length (firstn w (skipn i I)) = w) by (rewrite firstn_length, skipn_length; lia). rewrite L. split; [reflexivity|]. cbn. rewrite L. replace (sc_width s =? -1) with false by lia. split; [reflexivity|]. lia.
Qed.

Theorem value_first m t s T p I i foll piece rest x : scan_allowed t s -> sty_ok t -> width_ok s ->
  skipn p T = text_of foll -> (p <= length T)%nat -> Forall open_item foll -> (i <= length I)%nat -> Z.of_nat (length I) < 2 ^ 64 ->
  Forall is_byte (skipn i I) -> skipn i I = piece ++ rest -> field_reads reads_exactly takes t s foll piece rest x ->
  scan_value m t s (mk_reader T p) (mk_reader I i) = (Ok tt, (mk_reader I (i + length piece), Some x)).
Proof.
  intros HA HT HW HS HP HO HI HL HC E HR. destruct t as [|t|], x as [c|z|y]; try contradiction; cbn [field_reads scan_value] in *.
  - subst piece. destruct (scan_char_at I i HI) as [(E' & _)|(c' & l & E' & ->)]; rewrite E in E'; [discriminate|]. injection E' as <- <-. cbn. now rewrite Nat.add_1_r.
  - destruct HR as (neg & base & ds & HR & HN & HV & ->). rewrite (scan_int_reads m t s I i piece rest neg base ds HT (allowed_good _ _ HA) HW HI HL HC E HR HN HV). reflexivity.
  - destruct HR as [-> HR]. destruct HW as [HW|HW].
    + rewrite HW in HR. change (-1 =? -1) with true in HR. cbv iota in HR. rewrite (read_text_first s T p I i foll piece rest HW HS HP HO HI E HR). reflexivity.
    + replace (sc_width s =? -1) with false in HR by lia. rewrite read_text_width by lia. replace (Z.to_nat (sc_width s)) with (length piece) by lia. assert (L := f_equal (@length Z) E). rewrite skipn_length, app_length in L.
      replace (length piece <=? length I - i)%nat with true by lia. rewrite E, firstn_app_exact. reflexivity.
Qed.

(** ** The loop *)
Definition end_items (ei : list item) : Prop := ei = [] \/ exists index colon sp l, ei = [Field index colon sp] /\ open_item (Field index colon sp) /\ l = text_of ei.
Lemma end_of e : e = [] \/ field_255 e -> exists ei, end_items ei /\ text_of ei = e.
Proof.
  intros [-> |(index & c & r & -> & HD & H255 & HC)]; [exists []; split; [now left|reflexivity]|].
  exists [Field index (c =? 58) (if c =? 58 then r else 125 :: r)]. assert (E : text_of [Field index (c =? 58) (if c =? 58 then r else 125 :: r)] = 123 :: index ++ c :: r).
  { cbn. rewrite app_nil_r. destruct HC as [-> | ->]; reflexivity. }
  split; [|exact E]. right. do 4 eexists. split; [reflexivity|]. split; [|symmetry; exact E]. cbn [text_of flat_map] in E. rewrite app_nil_r in E. cbn [open_item]. rewrite E. destruct HD as [HD1 HD2]. destruct index as [|d index]; [congruence|].
  exists d, (index ++ c :: r). split; [reflexivity|]. inversion HD2. lia.
Qed.
Lemma end_open ei : end_items ei -> Forall open_item ei.
Proof. intros [-> |(index & colon & sp & l & -> & H & _)]; repeat constructor; exact H. Qed.
Lemma end_literal its ei : end_items ei -> literal_text (its ++ ei) = literal_text its.
Proof. intros [-> |(index & colon & sp & l & -> & H & _)]; [now rewrite app_nil_r|]. induction its as [|[] its IH]; cbn; auto; now rewrite IH. Qed.

Lemma ok_open its : Forall item_ok its -> Forall open_item its.
Proof.
  intros H. eapply Forall_impl; [|exact H]. intros [c|c|index colon sp] Hi; [exact Hi|exact Hi|]. destruct Hi as [HI HC].
  destruct (not_open index colon sp [] HI HC) as (c & l & E & NC). rewrite app_nil_r in E. exists c, l. split; [|exact NC]. cbn. f_equal. exact E.
Qed.

Lemma scans_plain reads lits its ns input rest vs : Forall plain_item lits -> scans reads its ns input rest vs -> scans reads (lits ++ its) ns (literal_text lits ++ input) rest vs.
Proof. induction 1 as [|[] lits H HF IH]; intros HS; cbn; [exact HS|now constructor; apply IH|now constructor; apply IH|contradiction]. Qed.
Lemma scans_follows reads its ns input rest vs : scans reads its ns input rest vs -> exists b, input = literal_text its ++ b.
Proof. induction 1 as [rest|c its ns input rest vs H (b & ->)|c its ns input rest vs H (b & ->)|i colon spec its n ns piece input rest v vs HR H _]; cbn; eauto. Qed.
Lemma scans_plain_inv reads lits its ns input rest vs : Forall plain_item lits -> scans reads (lits ++ its) ns input rest vs -> exists input', input = literal_text lits ++ input' /\ scans reads its ns input' rest vs.
Proof.
  intros HF. revert input. induction HF as [|[c|c|] lits H HF IH]; intros input HS; cbn in *; [eauto| | |contradiction]; inversion HS as [|? ? ? ? ? ? HS'|? ? ? ? ? ? HS'|]; subst; destruct (IH _ HS') as (input' & -> & X); eauto.
Qed.
Lemma plain_specs_app lits r : Forall plain_item lits -> field_specs (lits ++ r) = field_specs r.
Proof. intros HF. unfold field_specs. rewrite flat_map_app. replace (flat_map _ lits) with (@nil (list Z)); [reflexivity|]. induction HF as [|[]]; [reflexivity|assumption|assumption|contradiction]. Qed.

Theorem loop_reads m tys T I : Forall is_byte T -> Forall is_byte I -> Z.of_nat (length I) < 2 ^ 64 -> Forall sty_ok tys -> (length tys <= 128)%nat ->
  forall q use inc its ns e, sacc tys T q use inc its ns e -> forall ei, end_items ei -> text_of ei = e ->
  forall fuel i vars, (length T - q < fuel)%nat -> (q <= length T)%nat -> (i <= length I)%nat -> (inc <= 128)%nat ->
  match scan_loop fuel m tys (Z.of_nat inc) (mk_reader T q, (mk_reader I i, vars)) with
  | (Ok _, (_, (r', vars'))) => exists rest vs j, scans (target_reads (field_reads (reads_int m) takes) tys ei) its ns (skipn i I) rest vs /\
      r' = mk_reader I j /\ skipn j I = rest /\ (i <= j <= length I)%nat /\ vars' = assigned vars vs
  | (Err _, (_, (r', vars'))) => stops m tys its ns ei (skipn i I) vars vars' /\ exists j, r' = mk_reader I j /\ (i <= j <= length I)%nat
  | (Undef, _) => m = iso /\ exists n t, In n ns /\ nth_error tys n = Some (SInt t) /\ signed t = true /\ overlong (upcasted t) (skipn i I)
  | (Abort, _) => False
  end.
Proof.
  intros HBT HBI HLI HTY HL q use inc its ns e HA. induction HA as [q use inc its e HF HS HE|q use inc lits index colon sp rest its k ns e use' inc' t s p HF HS HC HP HK HN HFS HAl Hp HSP HPar HV HA IH];
    intros ei HEI EE fuel i vars HFu HQ HI Hinc; (destruct fuel as [|fuel]; [lia|]); cbn [scan_loop rtext rpos fst].
  - assert (LL : (length its < S (length T))%nat).
    { assert (X : (length its <= length (text_of its))%nat) by (clear; induction its as [|i its IH]; cbn; [lia|]; rewrite app_length; assert (1 <= length (item_text i))%nat by (destruct i; cbn; lia); unfold text_of in IH; lia).
      apply (f_equal (@length Z)) in HS. rewrite skipn_length, app_length in HS. lia. }
    assert (FS : field_start e) by (destruct HEI as [-> |(? & ? & ? & ? & -> & HO & _)]; subst e; [now left|right]; destruct HO as (c & l & HO & NC); exists c, l; cbn; rewrite app_nil_r; auto).
    destruct (scan_text_at T I its (S (length T)) q i vars q [] e HF HS FS LL eq_refl ltac:(lia) HI) as [(b & EB & ->)|(NB & er & fr & r & -> & HR1 & HR2)]; cbn [sbind app] in *.
    + assert (R : scans (target_reads (field_reads (reads_int m) takes) tys ei) its [] (skipn i I) b []) by (rewrite EB, <- (app_nil_r its) at 1; apply scans_plain; [exact HF|constructor]).
      assert (HJ : (i + length (literal_text its) <= length I)%nat) by (apply (f_equal (@length Z)) in EB; rewrite skipn_length, app_length in EB; lia).
      assert (RES : exists rest vs j, scans (target_reads (field_reads (reads_int m) takes) tys ei) its [] (skipn i I) rest vs /\ mk_reader I (i + length (literal_text its)) = mk_reader I j /\ skipn j I = rest /\ (i <= j <= length I)%nat /\ vars = assigned vars vs).
      { exists b, [], (i + length (literal_text its))%nat. split; [exact R|]. split; [reflexivity|]. split; [apply (skip_part _ _ _ _ EB)|]. split; [lia|reflexivity]. }
      destruct e as [|e0 e']; cbn [starts negb]; [exact RES|].
      destruct HE as [HE|(HU & index & c & r & HE & HD & H255 & HC)]; [discriminate|]. rewrite HE in *. rewrite Nat.add_1_r. set (p0 := (q + length (text_of its))%nat).
      assert (HP0 : skipn (S p0) T = index ++ colon_text (c =? 58) ++ (if c =? 58 then r else 125 :: r)).
      { rewrite (skip_succ p0 T 123 (index ++ c :: r)) by apply (skip_part _ _ _ _ HS). f_equal. destruct HC as [-> | ->]; reflexivity. }
      rewrite (parse_field_fwd T (S p0) use inc 255 (Some true) inc index (c =? 58) r HBT ltac:(lia) HP0); [|right; auto|lia]. cbn [sbind].
      change (255 =? no_more_args) with true. cbv iota. exact RES.
    + split; [|exists (rpos r); destruct r; cbn in *; subst; split; [reflexivity|lia]]. exists [], its, [], [], (skipn i I), []. split; [reflexivity|]. split; [reflexivity|]. split; [constructor|]. now left.
  - assert (HIX : index = [] \/ digits_text index) by (destruct HP; tauto).
    assert (HIt := sacc_items _ _ _ _ _ _ _ _ HA). destruct HIt as [HIt _].
    assert (HTx := sacc_text _ _ _ _ _ _ _ _ HA).
    assert (LT := f_equal (@length Z) HS). rewrite field_text, skipn_length, app_length in LT. cbn [length app] in LT. rewrite !app_length in LT.
    assert (LL : (length lits <= length (text_of lits))%nat) by (clear; induction lits as [|i its IH]; cbn; [lia|]; rewrite app_length; assert (1 <= length (item_text i))%nat by (destruct i; cbn; lia); unfold text_of in IH; lia).
    destruct (not_open index colon sp rest HIX HC) as (c & l & EO & NO).
    assert (FS : field_start (text_of [Field index colon sp] ++ rest)) by (right; exists c, l; split; [rewrite field_text; cbn [app]; f_equal; rewrite <- !app_assoc; exact EO|exact NO]).
    destruct (scan_text_at T I lits (S (length T)) q i vars q [] _ HF HS FS ltac:(lia) eq_refl ltac:(lia) HI) as [(b & EB & ->)|(NB & er & fr & r & -> & HR1 & HR2)]; cbn [sbind app] in *.
    + cbn [text_of flat_map item_text app starts negb]. rewrite Nat.add_1_r. set (p0 := (q + length (text_of lits))%nat) in *. set (i1 := (i + length (literal_text lits))%nat).
      assert (HI1 : (i1 <= length I)%nat) by (apply (f_equal (@length Z)) in EB; rewrite skipn_length, app_length in EB; unfold i1; lia).
      assert (EB1 : skipn i1 I = b) by apply (skip_part _ _ _ _ EB).
      assert (HP0 : skipn (S p0) T = index ++ colon_text colon ++ (if colon then (if colon then sp ++ rest else rest) else 125 :: (if colon then sp ++ rest else rest))).
      { rewrite field_text in HS. cbn [app] in HS. rewrite <- !app_assoc in HS. rewrite (skip_succ p0 T 123 (index ++ colon_text colon ++ sp ++ rest)) by apply (skip_part _ _ _ _ HS). f_equal. f_equal. destruct colon; [reflexivity|]. now rewrite HC by reflexivity. }
      assert (KB : (k < length tys)%nat) by (apply nth_error_Some; congruence).
      assert (HI2 : (inc <= 254)%nat) by lia. assert (HK2 : Z.of_nat k <= 255) by lia.
      rewrite (parse_field_fwd T (S p0) use inc (Z.of_nat k) use' inc' index colon _ HBT HI2 HP0 HP HK2). cbn [sbind].
      replace (S p0 + length index + length (colon_text colon))%nat with p by (unfold p0 in *; lia). change no_more_args with 255.
      replace (Z.of_nat k =? 255) with false by lia. rewrite Nat2Z.id, HN. unfold scan_field. rewrite HPar.
      assert (HSf : skipn (p + length sp) T = text_of (its ++ ei)) by (rewrite text_of_app, EE; exact HTx).
      assert (HPf : (p + length sp <= length T)%nat) by lia.
      assert (HOf : Forall open_item (its ++ ei)) by (apply Forall_app; split; [now apply ok_open|now apply end_open]).
      assert (HTk : sty_ok t) by (rewrite Forall_forall in HTY; apply HTY; eapply nth_error_In; eauto).
      assert (HCl : Forall is_byte (skipn i1 I)) by now apply forall_skipn.
      assert (X := value_at m t s T (p + length sp) I i1 (its ++ ei) HAl HTk (spec_width _ _ HFS) HSf HPf HOf HI1 HLI HCl).
      destruct (scan_value m t s (mk_reader T (p + length sp)) (mk_reader I i1)) as [[[]|er| |] [r' v]]; cbn [sbind].
      * destruct X as (x & piece & rest' & -> & EP & -> & HR). cbn [assign].
        assert (HJ : (i1 + length piece <= length I)%nat) by (apply (f_equal (@length Z)) in EP; rewrite skipn_length, app_length in EP; lia).
        assert (Hinc' : (inc' <= 128)%nat) by (destruct HP as [(_ & _ & Y & _ & ->)|(_ & _ & _ & _ & ->)]; lia).
        assert (IHx := IH ei HEI EE fuel (i1 + length piece)%nat (update vars k x) ltac:(lia) HPf HJ Hinc').
        assert (ER : skipn (i1 + length piece) I = rest') by apply (skip_part _ _ _ _ EP). rewrite ER in IHx.
        destruct (scan_loop fuel m tys (Z.of_nat inc') (mk_reader T (p + length sp), (mk_reader I (i1 + length piece), update vars k x))) as [[[]|er| |] [fr [r' vars']]].
        -- destruct IHx as (rest2 & vs & j & H1 & H2 & H3 & H4 & H5). exists rest2, ((k, x) :: vs), j. split; [|split; [exact H2|]; split; [exact H3|]; split; [unfold i1 in *; lia|exact H5]].
           rewrite EB, <- EB1, EP. apply scans_plain; [exact HF|]. constructor; [|exact H1]. exists t, s. split; [exact HN|]. split; [exact HFS|].
           destruct (scans_follows _ _ _ _ _ _ H1) as (b2 & EB2). unfold field_reads in *. destruct t, x; auto. destruct HR as [HR1 HR2]. split; [exact HR1|]. destruct (sc_width s =? -1); [|exact HR2]. apply HR2. exists b2. now rewrite end_literal.
        -- destruct IHx as [(its1 & its2 & ns1 & ns2 & mid & vs & -> & -> & H1 & H2) (j & H3 & H4)]. split; [|exists j; split; [exact H3|unfold i1 in *; lia]].
           exists (lits ++ Field index colon sp :: its1), its2, (k :: ns1), ns2, mid, ((k, x) :: vs). split; [now rewrite <- app_assoc|]. split; [reflexivity|]. split; [|exact H2].
           rewrite EB, <- EB1, EP. apply scans_plain; [exact HF|]. constructor; [|exact H1]. exists t, s. split; [exact HN|]. split; [exact HFS|]. now rewrite app_assoc.
        -- destruct IHx as (H1 & n0 & t0 & H2 & H3 & H4 & H5). split; [exact H1|]. exists n0, t0. split; [now right|]. split; [exact H3|]. split; [exact H4|]. rewrite EB, <- EB1, EP. now apply overlong_front, overlong_front.
        -- exact IHx.
      * destruct X as [X1 X2]. split.
        -- exists lits, (Field index colon sp :: its), [], (k :: ns), b, []. split; [reflexivity|]. split; [reflexivity|]. split; [rewrite EB, <- (app_nil_r lits) at 1; apply scans_plain; [exact HF|constructor]|].
           destruct v as [v|]; [right|now left]. destruct X2 as [X2|((k' & -> & X2) & X3)]; [discriminate|]. exists index, colon, sp, its, k, ns, v. split; [reflexivity|]. split; [reflexivity|]. split; [|reflexivity]. exists k', s. auto.
        -- destruct X1 as [-> |(_ & j & -> & X1)]; [exists i1|exists j]; (split; [reflexivity|]); unfold i1 in *; lia.
      * destruct X as (X1 & k' & -> & X2 & X3). split; [exact X1|]. exists k, k'. split; [now left|]. split; [exact HN|]. split; [exact X2|]. rewrite EB, <- EB1. now apply overlong_front.
      * exact X.
    + split; [|exists (rpos r); destruct r; cbn in *; subst; split; [reflexivity|lia]]. exists [], (lits ++ Field index colon sp :: its), [], (k :: ns), (skipn i I), []. split; [reflexivity|]. split; [reflexivity|]. split; [constructor|]. now left.
Qed.

Lemma scan_spec_unique t s1 s2 : Forall is_byte t -> small_numbers t -> scan_spec_text t s1 -> scan_spec_text t s2 -> s1 = s2.
Proof.
  intros HB HS H1 H2. assert (E1 := scan_specs_complete t 0 t [] s1 HB (eq_sym (app_nil_r t)) H1 HS). assert (E2 := scan_specs_complete t 0 t [] s2 HB (eq_sym (app_nil_r t)) H2 HS).
  rewrite E1 in E2. now injection E2.
Qed.

Theorem loop_first m tys T I : Forall is_byte T -> Forall is_byte I -> Z.of_nat (length I) < 2 ^ 64 -> Forall sty_ok tys -> (length tys <= 128)%nat ->
  forall q use inc its ns e, sacc tys T q use inc its ns e -> forall ei, end_items ei -> text_of ei = e -> Forall small_numbers (field_specs its) ->
  forall fuel i vars rest vs, (length T - q < fuel)%nat -> (q <= length T)%nat -> (i <= length I)%nat -> (inc <= 128)%nat ->
  scans (target_reads (field_reads reads_exactly takes) tys ei) its ns (skipn i I) rest vs ->
  exists fr j, scan_loop fuel m tys (Z.of_nat inc) (mk_reader T q, (mk_reader I i, vars)) = (Ok tt, (fr, (mk_reader I j, assigned vars vs))) /\ skipn j I = rest /\ (i <= j <= length I)%nat.
Proof.
  intros HBT HBI HLI HTY HL q use inc its ns e HA. induction HA as [q use inc its e HF HS HE|q use inc lits index colon sp rest its k ns e use' inc' t s p HF HS HC HP HK HN HFS HAl Hp HSP HPar HV HA IH];
    intros ei HEI EE HSm fuel i vars rest' vs HFu HQ HI Hinc HSc; (destruct fuel as [|fuel]; [lia|]); cbn [scan_loop rtext rpos fst].
  - assert (LL : (length its < S (length T))%nat).
    { assert (X : (length its <= length (text_of its))%nat) by (clear; induction its as [|i its IH]; cbn; [lia|]; rewrite app_length; assert (1 <= length (item_text i))%nat by (destruct i; cbn; lia); unfold text_of in IH; lia).
      apply (f_equal (@length Z)) in HS. rewrite skipn_length, app_length in HS. lia. }
    assert (FS : field_start e) by (destruct HEI as [-> |(? & ? & ? & ? & -> & HO & _)]; subst e; [now left|right]; destruct HO as (c & l & HO & NC); exists c, l; cbn; rewrite app_nil_r; auto).
    rewrite <- (app_nil_r its) in HSc. destruct (scans_plain_inv _ _ _ _ _ _ _ HF HSc) as (input' & EI & HN). assert (X := HN); inversion X; subst input' vs; subst rest'; clear X. rename rest into rest'.
    destruct (scan_text_at T I its (S (length T)) q i vars q [] e HF HS FS LL eq_refl ltac:(lia) HI) as [(b & EB & ->)|(NB & _)]; cbn [sbind app] in *; [|exfalso; now apply (NB rest')].
    assert (b = rest') as -> by (rewrite EI in EB; now apply app_inv_head in EB).
    assert (HJ : (i + length (literal_text its) <= length I)%nat) by (apply (f_equal (@length Z)) in EB; rewrite skipn_length, app_length in EB; lia).
    destruct e as [|e0 e']; cbn [starts negb].
    { eexists _, _. split; [reflexivity|]. split; [apply (skip_part _ _ _ _ EB)|lia]. }
    destruct HE as [HE|(HU & index & c & r & HE & HD & H255 & HC)]; [discriminate|]. rewrite HE in *. rewrite Nat.add_1_r. set (p0 := (q + length (text_of its))%nat).
    assert (HP0 : skipn (S p0) T = index ++ colon_text (c =? 58) ++ (if c =? 58 then r else 125 :: r)).
    { rewrite (skip_succ p0 T 123 (index ++ c :: r)) by apply (skip_part _ _ _ _ HS). f_equal. destruct HC as [-> | ->]; reflexivity. }
    rewrite (parse_field_fwd T (S p0) use inc 255 (Some true) inc index (c =? 58) r HBT ltac:(lia) HP0); [|right; auto|lia]. cbn [sbind].
    change (255 =? no_more_args) with true. cbv iota. eexists _, _. split; [reflexivity|]. split; [apply (skip_part _ _ _ _ EB)|lia].
  - assert (HIX : index = [] \/ digits_text index) by (destruct HP; tauto).
    assert (HIt := sacc_items _ _ _ _ _ _ _ _ HA). destruct HIt as [HIt _].
    assert (HTx := sacc_text _ _ _ _ _ _ _ _ HA).
    assert (LT := f_equal (@length Z) HS). rewrite field_text, skipn_length, app_length in LT. cbn [length app] in LT. rewrite !app_length in LT.
    assert (LL : (length lits <= length (text_of lits))%nat) by (clear; induction lits as [|i its IH]; cbn; [lia|]; rewrite app_length; assert (1 <= length (item_text i))%nat by (destruct i; cbn; lia); unfold text_of in IH; lia).
    destruct (not_open index colon sp rest HIX HC) as (c & l & EO & NO).
    assert (FS : field_start (text_of [Field index colon sp] ++ rest)) by (right; exists c, l; split; [rewrite field_text; cbn [app]; f_equal; rewrite <- !app_assoc; exact EO|exact NO]).
    rewrite plain_specs_app in HSm by exact HF. cbn [field_specs flat_map app] in HSm. fold (field_specs its) in HSm. inversion_clear HSm as [|? ? HSm1 HSm2].
    destruct (scans_plain_inv _ _ _ _ _ _ _ HF HSc) as (input' & EI & HSf). inversion HSf as [| | |? ? ? ? ? ? piece input2 ? v vs' (t2 & s2 & HN2 & HFS2 & HR) HSf']; subst.
    assert (t2 = t) as -> by congruence.
    assert (HBs : Forall is_byte sp) by (apply (Forall_app is_byte sp rest); rewrite <- HSP; now apply forall_skipn).
    assert (s2 = s) as -> by (eapply scan_spec_unique; eauto).
    set (p := (q + length (text_of lits) + 1 + length index + length (colon_text colon))%nat) in *.
    destruct (scan_text_at T I lits (S (length T)) q i vars q [] _ HF HS FS ltac:(lia) eq_refl ltac:(lia) HI) as [(b & EB & ->)|(NB & _)]; cbn [sbind app] in *; [|exfalso; now apply (NB (piece ++ input2))].
    assert (b = piece ++ input2) as -> by (rewrite EI in EB; now apply app_inv_head in EB).
    cbn [text_of flat_map item_text app starts negb]. rewrite Nat.add_1_r. set (p0 := (q + length (text_of lits))%nat) in *. set (i1 := (i + length (literal_text lits))%nat).
    assert (HI1 : (i1 <= length I)%nat) by (apply (f_equal (@length Z)) in EB; rewrite skipn_length, app_length in EB; unfold i1; lia).
    assert (EB1 : skipn i1 I = piece ++ input2) by apply (skip_part _ _ _ _ EB).
    assert (HP0 : skipn (S p0) T = index ++ colon_text colon ++ (if colon then (if colon then sp ++ rest else rest) else 125 :: (if colon then sp ++ rest else rest))).
    { rewrite field_text in HS. cbn [app] in HS. rewrite <- !app_assoc in HS. rewrite (skip_succ p0 T 123 (index ++ colon_text colon ++ sp ++ rest)) by apply (skip_part _ _ _ _ HS). f_equal. f_equal. destruct colon; [reflexivity|]. now rewrite HC by reflexivity. }
    assert (KB : (k < length tys)%nat) by (apply nth_error_Some; congruence).
    assert (HI2 : (inc <= 254)%nat) by lia. assert (HK2 : Z.of_nat k <= 255) by lia.
    rewrite (parse_field_fwd T (S p0) use inc (Z.of_nat k) use' inc' index colon _ HBT HI2 HP0 HP HK2). cbn [sbind].
    replace (S p0 + length index + length (colon_text colon))%nat with p by (unfold p0, p in *; lia). change no_more_args with 255.
    replace (Z.of_nat k =? 255) with false by lia. rewrite Nat2Z.id, HN. unfold scan_field. rewrite HPar.
    assert (HSf2 : skipn (p + length sp) T = text_of (its ++ ei)) by (rewrite text_of_app; exact HTx).
    assert (HPf : (p + length sp <= length T)%nat) by (unfold p, p0 in *; lia).
    assert (HOf : Forall open_item (its ++ ei)) by (apply Forall_app; split; [now apply ok_open|now apply end_open]).
    assert (HTk : sty_ok t) by (rewrite Forall_forall in HTY; apply HTY; eapply nth_error_In; eauto).
    assert (HCl : Forall is_byte (skipn i1 I)) by now apply forall_skipn.
    rewrite (value_first m t s T (p + length sp) I i1 (its ++ ei) piece input2 v HAl HTk (spec_width _ _ HFS) HSf2 HPf HOf HI1 HLI HCl EB1 HR). cbn [sbind assign].
    assert (HJ : (i1 + length piece <= length I)%nat) by (apply (f_equal (@length Z)) in EB1; rewrite skipn_length, app_length in EB1; lia).
    assert (Hinc' : (inc' <= 128)%nat) by (destruct HP as [(_ & _ & Y & _ & ->)|(_ & _ & _ & _ & ->)]; lia).
    assert (ER : skipn (i1 + length piece) I = input2) by apply (skip_part _ _ _ _ EB1). rewrite <- ER in HSf'.
    destruct (IH ei HEI eq_refl HSm2 fuel (i1 + length piece)%nat (update vars k v) rest' vs' ltac:(unfold p, p0 in *; lia) HPf HJ Hinc' HSf') as (fr & j & -> & H2 & H3).
    exists fr, j. split; [reflexivity|]. split; [exact H2|]. unfold i1 in *. lia.
Qed.

(** ** Accepted strings *)
Theorem scan_validate_sound s tys : Forall is_byte s -> scan_validate s tys = Ok true ->
  exists its ns e, sacc tys s 0 None 0 its ns e /\ (length tys <= 128)%nat /\ forall k, (k < length tys)%nat -> In k ns.
Proof.
  intros HB H. destruct (new_ok 128) as [N1 N2].
  destruct (scan_loop_sound tys s HB _ 0%nat None 0%nat _ N1 new_bits (Nat.le_0_l _) H) as (its & ns & e & HA & HL & HC).
  exists its, ns, e. split; [exact HA|]. split; [exact HL|]. intros k HK. destruct (HC k HK) as [X|X]; [rewrite N2 in X; discriminate|exact X].
Qed.
Theorem scan_validate_complete s tys its ns e : Forall is_byte s -> (length tys <= 128)%nat -> sacc tys s 0 None 0 its ns e ->
  (forall k, (k < length tys)%nat -> In k ns) -> scan_validate s tys = Ok true.
Proof.
  intros HB HL HA HC. destruct (new_ok 128) as [N1 N2]. unfold scan_validate, reader_of. change 0 with (Z.of_nat 0) at 1.
  apply (scan_loop_complete tys s HB HL 0%nat None 0%nat its ns e HA); [exact N1|reflexivity|lia|lia|]. intros k HK. right. auto.
Qed.
Theorem scan_validate_total s tys : Forall is_byte s -> (length tys <= 128)%nat -> exists v, scan_validate s tys = Ok v.
Proof.
  intros HB HL. destruct (new_ok 128) as [N1 N2]. unfold scan_validate, reader_of. change 0 with (Z.of_nat 0) at 1.
  apply scan_loop_total; auto; lia.
Qed.

Lemma plain_sacc s its : s = text_of its -> Forall plain_item its -> sacc [] s 0 None 0 its [] [].
Proof. intros H HF. constructor; [exact HF|cbn [skipn]; now rewrite app_nil_r|now left]. Qed.
Theorem scan_accepted_sound s tys : Forall is_byte s -> scan_accepted s tys ->
  exists its ns e, sacc tys s 0 None 0 its ns e /\ (length tys <= 128)%nat /\ forall k, (k < length tys)%nat -> In k ns.
Proof.
  intros HB (v & HV & HS). unfold scan_string in HV. destruct ((length tys =? 0)%nat && check_if_plain_string s) eqn:EP.
  - destruct tys; [|discriminate]. cbn in EP. destruct (plain_string s EP) as (its & E & HF). exists its, [], []. split; [now apply plain_sacc|]. cbn. split; [lia|intros; lia].
  - destruct (scan_validate s tys) as [[]| | |] eqn:E; try discriminate; injection HV as <-; [|discriminate]. now apply scan_validate_sound.
Qed.
Theorem scan_accepted_complete s tys its ns e : Forall is_byte s -> (length tys <= 128)%nat -> sacc tys s 0 None 0 its ns e ->
  (forall k, (k < length tys)%nat -> In k ns) -> scan_accepted s tys.
Proof.
  intros HB HL HA HC. unfold scan_accepted, scan_string. destruct ((length tys =? 0)%nat && check_if_plain_string s); [eexists; split; reflexivity|].
  rewrite (scan_validate_complete s tys its ns e HB HL HA HC). cbn [bind]. eexists; split; reflexivity.
Qed.
Theorem scan_accepted_decided s tys : Forall is_byte s -> (length tys <= 128)%nat ->
  exists v, scan_string s tys = Ok v /\ (vs_str v = Ok s \/ vs_str v = Err invalid_format).
Proof.
  intros HB HL. unfold scan_string. destruct ((length tys =? 0)%nat && check_if_plain_string s); [eexists; split; [reflexivity|now left]|].
  destruct (scan_validate_total s tys HB HL) as ([] & ->); cbn [bind]; eexists; (split; [reflexivity|]); auto.
Qed.
Lemma scan_good_string tys s its ns e : Forall is_byte s -> (length tys <= 128)%nat -> s = text_of its ++ e -> scan_items tys its ns ->
  Forall small_numbers (field_specs its) -> (e = [] \/ (field_255 e /\ Forall digits_text (indices its))) ->
  sacc tys s 0 None 0 its ns e.
Proof.
  intros HB HL HS (H1 & H2 & H3) HSm HE.
  apply good_sacc; auto; try tauto; [|destruct HE as [HE|(HE & HD)]; [now left|right; split; [exact HE|split; [discriminate|exact HD]]]].
  destruct H2 as [H2|H2]; [left|right]; (split; [discriminate|exact H2]).
Qed.

(** ** One reading *)
Lemma scan_closed tys its ns : scan_items tys its ns -> Forall closed_item its.
Proof.
  intros (H1 & _ & H3). revert ns H3. induction H1 as [|i its Hi HF IH]; intros ns H3; [constructor|]. destruct i as [c|c|index colon sp].
  - constructor; [split; auto|]. apply (IH ns H3).
  - constructor; [split; auto|]. apply (IH ns H3).
  - cbn [field_specs flat_map app] in H3. fold (field_specs its) in H3. inversion H3 as [|n sp' ns' l (t & _ & s & HS & _) HR]; subst. constructor; [|eapply IH; eauto].
    split; [exact Hi|]. eapply scan_spec_end; eauto.
Qed.
Lemma sacc_reading tys s its ns its' ns' e : (length tys <= 128)%nat -> sacc tys s 0 None 0 its' ns' e -> s = text_of its -> scan_items tys its ns -> its' = its /\ ns' = ns /\ e = [].
Proof.
  intros HL HA HS HG. destruct (sacc_good _ _ _ _ _ HA) as (HT & HG'). assert (E : text_of its = text_of its' ++ e) by congruence.
  destruct (items_prefix its' (scan_closed _ _ _ HG') its e (scan_closed _ _ _ HG) E) as (its2 & -> & H2).
  assert (e = []) as ->.
  { destruct (sacc_cut _ _ _ _ _ _ _ _ HA) as [HE|((index & c & rest & HE & HD & HV & HC) & _ & _)]; [exact HE|exfalso].
    destruct HG as (HO & HN & HF). assert (HO2 : Forall item_ok its2) by (apply Forall_app in HO; tauto).
    rewrite HE in H2. destruct its2 as [|i its2]; [discriminate|]. assert (Hi := Forall_inv HO2).
    destruct i as [c0|c0|index' colon sp]; cbn [text_of flat_map item_text app] in H2; cbn [item_ok] in Hi.
    - injection H2 as -> _. apply Hi. now left.
    - injection H2 as -> H2. destruct HD as [HD1 HD2]. destruct index as [|d index]; [congruence|]. injection H2 as <- _. inversion HD2. lia.
    - injection H2 as H2. rewrite <- !app_assoc in H2. destruct Hi as [HI HCo].
      assert (NS : exists y, sp = y ++ [125] /\ ~ In 125 y).
      { assert (C := scan_closed tys (its' ++ Field index' colon sp :: its2) ns (conj HO (conj HN HF))). apply Forall_app in C. destruct C as [_ C]. apply Forall_inv in C. apply C. }
      destruct NS as (y & -> & _).
      assert (ND1 : forall d k, (if colon then [58] else []) ++ (y ++ [125]) ++ text_of its2 = d :: k -> ~ digit_char d).
      { intros d k EQ. unfold digit_char. destruct colon; [injection EQ as <- _; lia|]. rewrite (HCo eq_refl) in EQ. injection EQ as <- _. lia. }
      assert (ND2 : forall d k, c :: rest = d :: k -> ~ digit_char d) by (intros d k [= <- _]; unfold digit_char; lia).
      destruct (digits_same _ _ _ _ (index_digits _ HI) (proj2 HD) ND1 ND2 H2) as [-> _].
      destruct HN as [(HN & _)|HN].
      + rewrite Forall_forall in HN. destruct HD as [HD _]. apply HD, HN. unfold indices. rewrite flat_map_app. apply in_or_app. right. now left.
      + assert (HX : exists n, In n ns /\ Z.of_nat n = 255).
        { unfold indices in HN. rewrite flat_map_app in HN. cbn [flat_map app] in HN. apply Forall2_app_inv_l in HN. destruct HN as (n1 & n2 & _ & HN & ->). inversion HN as [|? n ? ? (_ & HV')]; subst.
          exists n. split; [apply in_or_app; right; now left|lia]. }
        destruct HX as (n & HIn & HNn). assert (HY : exists t, nth_error tys n = Some t).
        { clear -HF HIn. induction HF as [|n' sp ns l (t & HT & _) HF IH]; [contradiction|]. destruct HIn as [-> |HIn]; [eauto|auto]. }
        destruct HY as (t & HY). assert (X : (n < length tys)%nat) by (apply nth_error_Some; congruence). lia. }
  assert (its2 = []) as ->. { destruct its2 as [|[] its2]; [reflexivity|discriminate..]. }
  rewrite app_nil_r in *. split; [reflexivity|]. split; [|reflexivity]. destruct HG as (_ & HN & _), HG' as (_ & HN' & _). eapply numbering_unique; eauto.
Qed.

(** ** Scanning as a whole *)
Lemma plain_literal its : Forall plain_item its -> check_if_plain_string (text_of its) = true -> literal_text its = text_of its.
Proof.
  unfold check_if_plain_string. intros HF H. apply negb_true_iff in H. induction HF as [|[c|c|] its Hi HF IH]; [reflexivity| | |contradiction]; cbn in *.
  - apply orb_false_iff in H. f_equal. now apply IH.
  - apply orb_false_iff in H. destruct H as [H _]. apply orb_false_iff in H. destruct Hi; lia.
Qed.
Lemma plain_only tys s its ns e : sacc tys s 0 None 0 its ns e -> tys = [] -> check_if_plain_string s = true -> Forall plain_item its /\ ns = [] /\ e = [] /\ literal_text its = s.
Proof.
  intros HA -> HP. assert (HT := sacc_text _ _ _ _ _ _ _ _ HA). cbn [skipn] in HT. inversion HA as [? ? ? ? ? HF HS HE|? ? ? ? ? ? ? ? ? k ? ? ? ? t ? ? HF HS HC HPi HK HN]; subst.
  - assert (e = []) as ->.
    { destruct HE as [HE|(_ & index & c & r & HE & _)]; [exact HE|exfalso]. rewrite HE in HP. unfold check_if_plain_string in HP. apply negb_true_iff in HP. rewrite existsb_app in HP. apply orb_false_iff in HP. destruct HP as [_ HP]. discriminate. }
    rewrite app_nil_r in *. split; [exact HF|]. split; [reflexivity|]. split; [reflexivity|]. now apply plain_literal.
  - destruct k; discriminate.
Qed.

Lemma scans_mono (R R' : nat -> list Z -> list item -> list Z -> list Z -> sval -> Prop) its ns input rest vs : (forall n spec f piece rest v, R n spec f piece rest v -> R' n spec f piece rest v) -> scans R its ns input rest vs -> scans R' its ns input rest vs.
Proof. intros H. induction 1; constructor; auto. Qed.
Lemma takes_weak m tys ei n spec f piece rest v : target_reads (field_reads (reads_int m) takes) tys ei n spec f piece rest v -> target_reads (field_reads (reads_int m) takes_then) tys ei n spec f piece rest v.
Proof.
  intros (t & s & H1 & H2 & H3). exists t, s. split; [exact H1|]. split; [exact H2|]. unfold field_reads in *. destruct t, v; auto. destruct H3 as [H3 H4]. split; [exact H3|]. destruct (sc_width s =? -1); [|exact H4]. intros _. exact H4.
Qed.

Theorem from_reads m tys T its ns ei I i vars : Forall is_byte T -> Forall is_byte I -> Z.of_nat (length I) < 2 ^ 64 -> Forall sty_ok tys -> (length tys <= 128)%nat -> (i <= length I)%nat ->
  sacc tys T 0 None 0 its ns (text_of ei) -> end_items ei -> (forall k, (k < length tys)%nat -> In k ns) ->
  match scan_from m (mk_reader I i) T tys vars with
  | (Ok _, (r', vars')) => exists rest vs j, scans (target_reads (field_reads (reads_int m) takes) tys ei) its ns (skipn i I) rest vs /\
      r' = mk_reader I j /\ skipn j I = rest /\ (i <= j <= length I)%nat /\ vars' = assigned vars vs
  | (Err _, (r', vars')) => stops m tys its ns ei (skipn i I) vars vars' /\ exists j, r' = mk_reader I j /\ (i <= j <= length I)%nat
  | (Undef, _) => m = iso /\ exists n t, In n ns /\ nth_error tys n = Some (SInt t) /\ signed t = true /\ overlong (upcasted t) (skipn i I)
  | (Abort, _) => False
  end.
Proof.
  intros HBT HBI HLI HTY HL HI HA HEI HCov. unfold scan_from, scan_string. destruct ((length tys =? 0)%nat && check_if_plain_string T) eqn:EP.
  - assert (tys = []) as -> by (destruct tys; [reflexivity|discriminate]). cbn in EP. destruct (plain_only _ _ _ _ _ HA eq_refl EP) as (HF & -> & HE & HLT). cbn [vscan_from vs_str vs_plain].
    unfold vscan_from. cbn [vs_str vs_plain]. destruct (match_str I i T HI) as [(b & ES & ->)|(NS & e & -> & _)]; cbn [bind].
    + exists b, [], (i + length T)%nat. split; [rewrite ES, <- HLT; replace its with (its ++ []) at 1 by apply app_nil_r; apply scans_plain; [exact HF|constructor]|]. split; [reflexivity|]. split; [apply (skip_part _ _ _ _ ES)|].
      split; [|reflexivity]. apply (f_equal (@length Z)) in ES. rewrite skipn_length, app_length in ES. lia.
    + split; [|exists i; auto]. exists [], its, [], [], (skipn i I), []. split; [reflexivity|]. split; [reflexivity|]. split; [constructor|now left].
  - rewrite (scan_validate_complete T tys its ns _ HBT HL HA HCov). cbn [bind]. unfold vscan_from. cbn [vs_str vs_plain].
    assert (X := loop_reads m tys T I HBT HBI HLI HTY HL _ _ _ _ _ _ HA ei HEI eq_refl (S (length T)) i vars ltac:(lia) ltac:(lia) HI ltac:(lia)).
    change (reader_of T) with (mk_reader T 0). change (Z.of_nat 0) with 0 in X. destruct (scan_loop (S (length T)) m tys 0 (mk_reader T 0, (mk_reader I i, vars))) as [[[]|e| |] [fr [r' vars']]]; cbn [snd]; exact X.
Qed.

Theorem from_first m tys T its ns ei I i vars rest vs : Forall is_byte T -> Forall is_byte I -> Z.of_nat (length I) < 2 ^ 64 -> Forall sty_ok tys -> (length tys <= 128)%nat -> (i <= length I)%nat ->
  sacc tys T 0 None 0 its ns (text_of ei) -> end_items ei -> (forall k, (k < length tys)%nat -> In k ns) -> Forall small_numbers (field_specs its) ->
  scans (target_reads (field_reads reads_exactly takes) tys ei) its ns (skipn i I) rest vs ->
  exists j, scan_from m (mk_reader I i) T tys vars = (Ok tt, (mk_reader I j, assigned vars vs)) /\ skipn j I = rest /\ (i <= j <= length I)%nat.
Proof.
  intros HBT HBI HLI HTY HL HI HA HEI HCov HSm HSc. unfold scan_from, scan_string. destruct ((length tys =? 0)%nat && check_if_plain_string T) eqn:EP.
  - assert (tys = []) as -> by (destruct tys; [reflexivity|discriminate]). cbn in EP. destruct (plain_only _ _ _ _ _ HA eq_refl EP) as (HF & -> & HE & HLT).
    rewrite <- (app_nil_r its) in HSc. destruct (scans_plain_inv _ _ _ _ _ _ _ HF HSc) as (input' & EI & HN). inversion HN; subst.
    unfold vscan_from. cbn [vs_str vs_plain]. destruct (match_str I i (literal_text its) HI) as [(b & ES & ->)|(NS & e & -> & _)]; cbn [bind]; [|exfalso; now apply (NS rest)].
    exists (i + length (literal_text its))%nat. split; [reflexivity|]. split; [apply (skip_part _ _ _ _ EI)|]. apply (f_equal (@length Z)) in ES. rewrite skipn_length, app_length in ES. lia.
  - rewrite (scan_validate_complete T tys its ns _ HBT HL HA HCov). cbn [bind]. unfold vscan_from. cbn [vs_str vs_plain].
    destruct (loop_first m tys T I HBT HBI HLI HTY HL _ _ _ _ _ _ HA ei HEI eq_refl HSm (S (length T)) i vars rest vs ltac:(lia) ltac:(lia) HI ltac:(lia) HSc) as (fr & j & E & H2 & H3).
    change (reader_of T) with (mk_reader T 0). change (Z.of_nat 0) with 0 in E. rewrite E. cbn [snd]. eauto.
Qed.

(** emio::scan demands the whole input *)
Lemma scan_is m input fmt tys vars : scan m input fmt tys vars =
  match scan_from m (reader_of input) fmt tys vars with
  | (Ok _, (r, vars)) => (if at_eof r then Ok tt else Err invalid_format, vars)
  | (o, (_, vars)) => (o, vars)
  end.
Proof. unfold scan, scan_from, vscan. destruct (scan_string fmt tys); try reflexivity. Qed.

Lemma eof_rest I j : (j <= length I)%nat -> at_eof (mk_reader I j) = true <-> skipn j I = [].
Proof.
  intros H. unfold at_eof. cbn. split; intros E.
  - apply skipn_all2. lia.
  - apply (f_equal (@length Z)) in E. rewrite skipn_length in E. cbn in E. lia.
Qed.
