(** Proofs about Tuples.v. *)
From Verif Require Import Base Conversion Reader Buffer Writer Bitset Specs FormatArg FloatArg Format Custom Elements Tuples.
From Verif Require Import Lib SpecNum SpecReader SpecEscape SpecFloat SpecFormat SpecDecimal SpecField SpecSpecs SpecString SpecCustom SpecElements SpecTuples.
From Verif Require Import ConversionProofs ReaderProofs SpecsProofs BitsetProofs BufferProofs Emits WriterProofs StringProofs StringLoop StringEmits StringTop StringTuples CustomProofs ElementsProofs.
From Verif Require Import SpecString SpecCustom SpecElements SpecTuples.

Section Tuple.
  Context {P : Type}.
  Implicit Types (Fs : list (formatter P)) (cs : list (promise P)).

  Lemma tuple_head leave Fs r : validate_tuple_of leave Fs r = range_head r (fun r => (Ok tt, r)) (fun r =>
    match Fs with
    | [] => (Err invalid_format, r)
    | _ => match validate_each Fs r 0 with
           | Ok reader_pos => if (reader_pos =? 0)%nat then (Ok tt, r) else (Ok tt, leave r reader_pos)
           | Err e => (Err e, r)
           | Undef => (Undef, r)
           | Abort => (Abort, r)
           end
    end).
  Proof. reflexivity. Qed.
  Lemma tuple_peek leave Fs rs ms r : parse_tuple_of leave Fs (rs, ms) r = range_peek rs r (fun rs c r =>
    let set := c =? ch_rbrace in
    let r := if set then r else pop r 1 in
    match Fs with
    | [] => if set then (Ok (rs, ms), pop r 1) else (Err invalid_format, r)
    | _ => match parse_each Fs ms r set 0 with
           | Ok (ms, reader_pos) => (Ok (rs, ms), leave r reader_pos)
           | Err e => (Err e, r)
           | Undef => (Undef, r)
           | Abort => (Abort, r)
           end
    end).
  Proof. reflexivity. Qed.

  (** *** Validation *)
  Lemma each_settled Fs cs T n : Forall2 element_ok Fs cs -> Forall is_byte T -> (n <= length T)%nat -> forall q,
    match validate_each Fs (mk_reader T n) q with Ok _ | Err _ => True | _ => False end.
  Proof.
    intros H HB HN. induction H as [|F c Fs cs (HK & HV & _) HF IH]; intros q; cbn [validate_each]; [exact Logic.I|].
    assert (X := kp_sound F c HK T n HB HN). unfold validate_trait_of in X. destruct (f_validate F) as [v|]; [|contradiction].
    destruct (v (mk_reader T n)) as [[[]|?| |] r']; try contradiction; cbn [bind]; [|exact Logic.I].
    destruct (q =? 0)%nat; [apply IH|]. destruct (q =? pos r')%nat; [apply IH|exact Logic.I].
  Qed.

  (** All elements have read the specification that ends at [q]. *)
  Lemma each_ok Fs cs T n : Forall2 element_ok Fs cs -> Forall is_byte T -> (n <= length T)%nat -> forall q0 q, validate_each Fs (mk_reader T n) q0 = Ok q ->
    (q0 = q \/ q0 = 0%nat) /\ (Fs = [] \/ (n < q)%nat) /\ (Fs = [] -> q0 = q) /\
    Forall2 (fun F c => exists sp rest, skipn n T = sp ++ rest /\ p_reads c sp /\ q = (n + length sp)%nat /\ validate_trait_of F (mk_reader T n) = (Ok tt, mk_reader T q)) Fs cs.
  Proof.
    intros H HB HN. induction H as [|F c Fs cs (HK & HV & _) HF IH]; intros q0 q; cbn [validate_each].
    - intros E. injection E as ->. split; [now left|]. split; [now left|]. split; [auto|constructor].
    - assert (X := kp_sound F c HK T n HB HN). unfold validate_trait_of in X. destruct (f_validate F) as [v|] eqn:EV; [|contradiction].
      destruct (v (mk_reader T n)) as [[[]|?| |] r'] eqn:EVR; try contradiction; cbn [bind]; [|discriminate].
      destruct X as (sp & rest & H1 & H2 & ->). change (pos (mk_reader T (n + length sp))) with (n + length sp)%nat.
      assert (L : (0 < length sp)%nat). { destruct (kp_closed F c HK sp H2) as (x & -> & _). rewrite app_length. cbn. lia. }
      assert (VT : validate_trait_of F (mk_reader T n) = (Ok tt, mk_reader T (n + length sp))) by (unfold validate_trait_of; now rewrite EV).
      destruct (q0 =? 0)%nat eqn:E0.
      + intros E. destruct (IH _ _ E) as (IH1 & IH2 & IH3 & IH4). assert (EQ : (n + length sp = q)%nat) by (destruct IH1; [assumption|lia]).
        split; [right; lia|]. split; [right; lia|]. split; [discriminate|]. constructor; [|exact IH4]. exists sp, rest. rewrite <- EQ. auto.
      + destruct (q0 =? n + length sp)%nat eqn:E1; [|discriminate]. intros E. destruct (IH _ _ E) as (IH1 & IH2 & IH3 & IH4).
        assert (EQ : (n + length sp = q)%nat) by (destruct IH1; lia). split; [left; lia|]. split; [right; lia|]. split; [discriminate|]. constructor; [|exact IH4]. exists sp, rest. rewrite <- EQ. auto.
  Qed.
  Lemma each_same Fs cs T n q : Fs <> [] ->
    Forall2 (fun F c => exists sp rest, skipn n T = sp ++ rest /\ p_reads c sp /\ q = (n + length sp)%nat /\ validate_trait_of F (mk_reader T n) = (Ok tt, mk_reader T q)) Fs cs ->
    exists sp rest, skipn n T = sp ++ rest /\ q = (n + length sp)%nat /\ cs <> [] /\ Forall (fun c => p_reads c sp) cs.
  Proof.
    intros NE H. inversion H as [|F c Fs' cs' (sp & rest & H1 & H2 & H3 & _) H4]; subst; [contradiction|].
    exists sp, rest. split; [exact H1|]. split; [reflexivity|]. split; [discriminate|]. constructor; [exact H2|]. clear -H1 H4.
    induction H4 as [|F' c' Fs' cs' (sp' & rest' & E1 & E2 & E3 & _) H4 IH]; constructor; [|exact IH]. rewrite (same_spec T n sp sp' rest rest' H1 E1) by lia. exact E2.
  Qed.
  Lemma each_complete Fs cs T n sp rest : Forall2 element_ok Fs cs -> Forall is_byte T -> skipn n T = sp ++ rest -> Forall (fun c => p_reads c sp) cs -> small_numbers sp ->
    forall q, q = 0%nat \/ q = (n + length sp)%nat -> validate_each Fs (mk_reader T n) q = Ok (match Fs with [] => q | _ => (n + length sp)%nat end).
  Proof.
    intros H HB HS HR HSm. induction H as [|F c Fs cs (HK & HV & _) HF IH]; intros q Hq; cbn [validate_each]; [reflexivity|].
    inversion HR as [|? ? HRc HRs]; subst. assert (X := kp_complete F c HK T n sp rest HB HS HRc HSm). unfold validate_trait_of in X. destruct (f_validate F) as [v|]; [|contradiction].
    rewrite X. cbn [bind]. change (pos (mk_reader T (n + length sp))) with (n + length sp)%nat.
    destruct Hq as [-> | ->].
    - cbn [Nat.eqb]. rewrite (IH HRs) by now right. now destruct Fs.
    - destruct (n + length sp =? 0)%nat; [rewrite (IH HRs) by (now right); now destruct Fs|]. rewrite Nat.eqb_refl, (IH HRs) by now right. now destruct Fs.
  Qed.

  (** *** Parsing and formatting *)
  Fixpoint ready Fs cs (debug : bool) (sp : list Z) : objects Fs -> Prop :=
    match Fs, cs return objects Fs -> Prop with
    | F :: Fs, c :: cs => fun ms => (forall a, p_value c a -> exists out o, p_does c debug sp a out o /\ (o = Ok tt \/ exists e, o = Err e) /\ acts (fun K vt b => f_format F K vt (fst ms) a b) out o) /\ ready Fs cs debug sp (snd ms)
    | _, _ => fun _ => True
    end.

  Lemma each_parsed Fs cs T n sp rest (debug : bool) : Forall2 element_ok Fs cs -> Forall is_byte T -> skipn n T = sp ++ rest ->
    Forall2 (fun F c => p_reads c sp /\ validate_trait_of F (mk_reader T n) = (Ok tt, mk_reader T (n + length sp))) Fs cs -> (debug = true -> sp = [125]) ->
    forall q, exists ms, parse_each Fs (new_objects Fs) (mk_reader T n) debug q = Ok (ms, match Fs with [] => q | _ => (n + length sp)%nat end) /\ ready Fs cs debug sp ms.
  Proof.
    intros H HB HS HR HD. induction H as [|F c Fs cs (HK & HV & HE & HF0) HF IH]; intros q; cbn [parse_each new_objects]; [exists tt; split; reflexivity|].
    inversion HR as [|? ? ? ? (HRc & HVc) HRs]; subst. destruct (kp_format F c HK debug T n sp rest HB HS HRc HVc HD) as (m & HP & HFm).
    assert (E : set_debug F (f_new F) debug = (if debug then set_debug F (f_new F) true else f_new F)) by (destruct debug; [reflexivity|exact HF0]).
    cbn [fst snd]. rewrite E, HP. cbn [bind]. change (pos (mk_reader T (n + length sp))) with (n + length sp)%nat. destruct (IH HRs (n + length sp)%nat) as (ms & HP2 & HR2). rewrite HP2. cbn [bind fst snd].
    exists (m, ms). split; [now destruct Fs|]. cbn [ready fst snd]. auto.
  Qed.

  Lemma each_acts Fs cs debug sp sep v : length Fs = length cs -> Forall (fun c => p_value c v) cs -> forall ms, ready Fs cs debug sp ms -> forall first,
    (exists outs, Forall2 (fun c out => p_does c debug sp v out (Ok tt)) cs outs /\ acts (fun K vt b => format_each vt first sep Fs ms v b) (behind first sep outs) (Ok tt)) \/
    (exists err cs1 c cs2 outs out1, cs = cs1 ++ c :: cs2 /\ Forall2 (fun c out => p_does c debug sp v out (Ok tt)) cs1 outs /\ p_does c debug sp v out1 (Err err) /\
       acts (fun K vt b => format_each vt first sep Fs ms v b) (behind first sep (outs ++ [out1])) (Err err)).
  Proof.
    intros HL HV. revert Fs HL. induction HV as [|c cs Hv HV IH]; intros [|F Fs] HL ms HR first; try discriminate.
    - left. exists []. split; [constructor|]. apply acts_nothing.
    - cbn [ready] in HR. destruct HR as [H1 HR]. destruct (H1 v Hv) as (out & o & HD & HO & HA). injection HL as HL.
      assert (Q : acts (fun K vt b => if first then (Ok tt, b) else write_str vt b sep) (if first then [] else sep) (Ok tt)) by (destruct first; [apply acts_nothing|apply acts_str]).
      destruct HO as [-> |(e & ->)].
      + destruct (IH Fs HL (snd ms) HR false) as [(outs & E1 & E2)|(err & cs1 & c' & cs2 & outs & out1 & -> & E1 & E2 & E3)].
        * left. exists (out :: outs). split; [now constructor|]. cbn [behind]. rewrite join_cons. cbn [format_each].
          apply (acts_bind _ (fun K vt b => sdo (_, b) <- f_format F K vt (fst ms) v b ;; format_each vt false sep Fs (snd ms) v b)); [exact Q|].
          now apply (acts_bind (fun K vt b => f_format F K vt (fst ms) v b) (fun K vt b => format_each vt false sep Fs (snd ms) v b)).
        * right. exists err, (c :: cs1), c', cs2, (out :: outs), out1. split; [reflexivity|]. split; [now constructor|]. split; [exact E2|].
          cbn [app behind]. rewrite join_cons. cbn [format_each].
          apply (acts_bind _ (fun K vt b => sdo (_, b) <- f_format F K vt (fst ms) v b ;; format_each vt false sep Fs (snd ms) v b)); [exact Q|].
          now apply (acts_bind (fun K vt b => f_format F K vt (fst ms) v b) (fun K vt b => format_each vt false sep Fs (snd ms) v b)).
      + right. exists e, [], c, cs, [], out. split; [reflexivity|]. split; [constructor|]. split; [exact HD|]. cbn [app behind join format_each].
        apply (acts_bind _ (fun K vt b => sdo (_, b) <- f_format F K vt (fst ms) v b ;; format_each vt false sep Fs (snd ms) v b)); [exact Q|].
        now apply (acts_err (fun K vt b => f_format F K vt (fst ms) v b) (fun K vt b => format_each vt false sep Fs (snd ms) v b)).
  Qed.

  (** The text of a tuple, from its parsed elements on *)
  Lemma tuple_acts leave Fs cs bs (debug : bool) sp b e ms v : length Fs = length cs -> range_spec sp b e -> ready Fs cs (no_spec e) (element_spec e) ms -> Forall (fun c => p_value c v) cs ->
    exists out o, p_does (tuple_promise bs cs) debug sp v out o /\ (o = Ok tt \/ exists e, o = Err e) /\
      acts (fun K vt b0 => f_format (tuple_with leave Fs (as_specs false bs)) K vt (as_specs b bs, ms) v b0) out o.
  Proof.
    intros HLen ER HRd HVs. cbn [tuple_with f_format fst snd tuple_promise p_does].
    destruct (each_acts Fs cs (no_spec e) (element_spec e) (rs_sep (as_specs b bs)) v HLen HVs ms HRd true) as [(outs & H1 & H2)|(err & cs1 & c & cs2 & outs & out1 & H0 & H1 & H2 & H3)]; rewrite behind_true in *.
    + exists (enclose b bs outs), (Ok tt). split; [exists b, e; split; [exact ER|]; left; eauto|]. split; [now left|].
      rewrite enclose_specs. apply (acts_bind (fun K vt b => write_str vt b _) (fun K vt b => sdo (_, b) <- _ ;; write_str vt b _)); [apply acts_str|].
      apply (acts_bind _ (fun K vt b => write_str vt b _)); [exact H2|apply acts_str].
    + exists (opening b bs ++ join (separator bs) (outs ++ [out1])), (Err err). split; [exists b, e; split; [exact ER|]; right; exists err, cs1, c, cs2, outs, out1; auto|]. split; [eauto|].
      replace (opening b bs ++ join (separator bs) (outs ++ [out1])) with (rs_open (as_specs b bs) ++ join (rs_sep (as_specs b bs)) (outs ++ [out1])) by (destruct bs as [[? ?] ?]; now destruct b).
      apply (acts_bind (fun K vt b => write_str vt b _) (fun K vt b => sdo (_, b) <- _ ;; write_str vt b _)); [apply acts_str|].
      apply (acts_err _ (fun K vt b => write_str vt b _)). exact H3.
  Qed.

  Lemma element_brace Fs cs T n rest : Forall2 element_ok Fs cs -> Forall is_byte T -> skipn n T = [125] ++ rest ->
    Forall2 (fun F c => p_reads c [125] /\ validate_trait_of F (mk_reader T n) = (Ok tt, mk_reader T (n + length [125]))) Fs cs.
  Proof.
    intros H HB HS. induction H as [|F c Fs cs (HK & HV & HE & _) HF IH]; constructor; [|exact IH]. split; [exact HE|]. exact (kp_complete F c HK T n [125] rest HB HS HE brace_small).
  Qed.

  Theorem repaired_keeps Fs cs bs : Forall2 element_ok Fs cs -> keeps_promise (tuple_repaired Fs (as_specs false bs)) (tuple_promise bs cs).
  Proof.
    intros HK. set (F0 := tuple_repaired Fs (as_specs false bs)).
    assert (HLen : length Fs = length cs) by exact (Forall2_len _ _ _ HK).
    assert (VT : forall r, validate_trait_of F0 r = validate_tuple_of set_pos Fs r) by reflexivity.
    split; cbn [tuple_promise p_reads p_value p_does].
    - intros sp (n & e & -> & HE). destruct e as [e|].
      + destruct HE as [NE HE]. inversion HK as [|F c ? ? (HKc & _) _]; subst; [contradiction|]. inversion HE as [|? ? HEc _]; subst.
        destruct (kp_closed F c HKc e HEc) as (x & -> & HX). exists ((if n then [110] else []) ++ 58 :: x). split; [now rewrite <- app_assoc|].
        intros HI. apply in_app_or in HI. destruct HI as [HI|[HI|HI]]; [destruct n; cbn in HI; lia|lia|contradiction].
      + exists (if n then [110] else []). split; [reflexivity|]. intros HI. destruct n; cbn in HI; lia.
    - intros T n HB HN. rewrite VT, tuple_head. destruct (range_head (mk_reader T n) _ _) as [o r] eqn:E.
      assert (NX : match o with Ok _ | Err _ => True | _ => False end).
      { revert E. unfold range_head. assert (S1 := settled_read (mk_reader T n) (mk_reader T n) HN eq_refl). destruct (read_char (mk_reader T n)) as [[c1|?| |] r1]; try contradiction; cbn [sbind]; [|intros E; injection E as <- _; exact Logic.I].
        destruct S1 as [W1 HT1].
        assert (S2 : settled (mk_reader T n) (if c1 =? 110 then read_char r1 else (Ok c1, r1))) by (destruct (c1 =? 110); [now apply settled_read|now apply settled_ok]).
        destruct (if c1 =? 110 then read_char r1 else (Ok c1, r1)) as [[c2|?| |] r2]; try contradiction; cbn [sbind]; [|intros E; injection E as <- _; exact Logic.I].
        destruct S2 as [W2 HT2]. destruct (c2 =? ch_rbrace); [intros E; injection E as <- _; exact Logic.I|]. destruct (c2 =? ch_colon); [|intros E; injection E as <- _; exact Logic.I].
        destruct r2 as [T2 n2]. cbn in HT2. subst T2. assert (X := each_settled Fs cs T n2 HK HB W2 0%nat). destruct Fs as [|F Fs']; [intros E; injection E as <- _; exact Logic.I|].
        destruct (validate_each (F :: Fs') (mk_reader T n2) 0) as [q|?| |]; try contradiction; [destruct (q =? 0)%nat|]; intros E; injection E as <- _; exact Logic.I. }
      destruct o as [[]|?| |]; try exact NX. apply range_head_ok in E. destruct E as (b & e & l & HS & E). destruct e.
      + injection E as <-. exists ((if b then [110] else []) ++ [125]), l. split; [rewrite <- app_assoc; exact HS|]. split; [exists b, None; split; [reflexivity|exact Logic.I]|]. f_equal. rewrite app_length. destruct b; reflexivity.
      + assert (HS2 : skipn (n + if b then 2 else 1) T = l). { rewrite <- skipn_skipn_nat, HS. now destruct b. }
        assert (LB : ((n + if b then 2 else 1) <= length T)%nat). { assert (L := f_equal (@length Z) HS). rewrite skipn_length, app_length in L. cbn [length] in L. destruct b; cbn [length] in L; lia. }
        destruct Fs as [|F Fs'] eqn:EFs; [discriminate|]. rewrite <- EFs in *. set (p := (n + if b then 2 else 1)%nat) in *.
        destruct (validate_each Fs (mk_reader T p) 0) as [q|?| |] eqn:EV; try discriminate.
        destruct (each_ok Fs cs T p HK HB LB _ _ EV) as (_ & HQ & _ & HA). assert (NE : Fs <> []) by (rewrite EFs; discriminate). destruct HQ as [HQ|HQ]; [contradiction|].
        destruct (q =? 0)%nat eqn:E0; [lia|]. injection E as <-. destruct (each_same Fs cs T p q NE HA) as (sp & rest & H1 & -> & H3 & H4). rewrite H1 in HS2. subst l.
        exists ((if b then [110] else []) ++ 58 :: sp), rest. split; [rewrite <- app_assoc; exact HS|]. split; [exists b, (Some sp); split; [reflexivity|split; assumption]|].
        unfold set_pos. cbn [rtext]. f_equal. rewrite app_length. unfold p. destruct b; cbn [length]; lia.
    - intros T n sp rest HB HS (b & e & -> & HE) HSm. rewrite VT, tuple_head. destruct e as [e|].
      + rewrite (range_head_intro T n _ _ b false (e ++ rest)) by (rewrite HS, <- app_assoc; reflexivity). cbv iota.
        assert (HS2 : skipn (n + if b then 2 else 1) T = e ++ rest). { rewrite <- skipn_skipn_nat, HS. now destruct b. }
        assert (SE : small_numbers e). { apply (small_sub ((if b then [110] else []) ++ [58]) e []). now rewrite app_nil_r, <- app_assoc. }
        destruct HE as [NE HE]. destruct Fs as [|F Fs'] eqn:EFs; [destruct cs; [contradiction|discriminate]|]. rewrite <- EFs in *.
        rewrite (each_complete Fs cs T _ e rest HK HB HS2 HE SE 0%nat (or_introl eq_refl)). rewrite EFs. set (p := (n + if b then 2 else 1)%nat) in *.
        assert (PP : (0 < p)%nat) by (unfold p; destruct b; lia).
        destruct (p + length e =? 0)%nat eqn:E0; [lia|]. unfold set_pos. cbn [rtext]. f_equal. f_equal. rewrite app_length. unfold p. destruct b; cbn [length]; lia.
      + rewrite (range_head_intro T n _ _ b true rest) by (rewrite HS, <- app_assoc; reflexivity). f_equal. f_equal. rewrite app_length. destruct b; reflexivity.
    - intros debug T n sp rest HB HS (b & e & ER & HE) HVal _.
      assert (EQ : (if debug then set_debug F0 (f_new F0) true else f_new F0) = (as_specs false bs, new_objects Fs)) by (now destruct debug).
      rewrite EQ. change (f_parse F0) with (parse_tuple_of set_pos Fs).
      assert (Q : exists ms, parse_tuple_of set_pos Fs (as_specs false bs, new_objects Fs) (mk_reader T n) = (Ok (as_specs b bs, ms), mk_reader T (n + length sp)) /\ ready Fs cs (no_spec e) (element_spec e) ms).
      { rewrite tuple_peek. rewrite VT, tuple_head in HVal. assert (ER' := ER). rewrite ER in HS. destruct e as [e|].
        - rewrite (range_head_intro T n _ _ b false (e ++ rest)) in HVal by (rewrite HS, <- app_assoc; reflexivity). cbv iota in HVal.
          rewrite (range_peek_ok bs T n _ b false (e ++ rest)) by (rewrite HS, <- app_assoc; reflexivity). change (58 =? ch_rbrace) with false. cbv iota zeta.
          assert (HS1 : skipn (n + if b then 1 else 0) T = 58 :: e ++ rest). { rewrite <- skipn_skipn_nat, HS. now destruct b. }
          rewrite (pop_at _ _ _ _ HS1). replace (S (n + if b then 1 else 0)) with (n + if b then 2 else 1)%nat by (destruct b; lia).
          assert (HS2 : skipn (n + if b then 2 else 1) T = e ++ rest). { rewrite <- skipn_skipn_nat, HS. now destruct b. }
          set (p := (n + if b then 2 else 1)%nat) in *. assert (LE : (n + length sp = p + length e)%nat). { rewrite ER, app_length. unfold p. destruct b; cbn [length]; lia. }
          destruct HE as [NE HE]. destruct Fs as [|F Fs'] eqn:EFs; [discriminate|]. rewrite <- EFs in *.
          destruct (validate_each Fs (mk_reader T p) 0) as [q|?| |] eqn:EV; try discriminate.
          assert (LB : (p <= length T)%nat). { assert (L := f_equal (@length Z) HS). rewrite skipn_length, app_length, app_length in L. unfold p. destruct b; cbn [length] in L; lia. }
          destruct (each_ok Fs cs T p HK HB LB _ _ EV) as (_ & HQ & _ & HA). assert (NF : Fs <> []) by (rewrite EFs; discriminate). destruct HQ as [HQ|HQ]; [contradiction|].
          destruct (q =? 0)%nat eqn:E0; [lia|]. unfold set_pos in HVal. cbn [rtext] in HVal. injection HVal as HVal. rewrite LE in HVal. subst q.
          assert (HR : Forall2 (fun F c => p_reads c e /\ validate_trait_of F (mk_reader T p) = (Ok tt, mk_reader T (p + length e))) Fs cs).
          { clear -HA HE. revert HE. induction HA as [|F c Fs cs (? & ? & _ & _ & _ & HV) HA IH]; intros HE; constructor; inversion HE; subst; [split; assumption|auto]. }
          destruct (each_parsed Fs cs T p e rest false HK HB HS2 HR ltac:(discriminate) 0%nat) as (ms & HP & HRd). rewrite HP. exists ms. split; [|exact HRd].
          replace (match Fs with [] => 0%nat | _ => (p + length e)%nat end) with (p + length e)%nat by (rewrite EFs; reflexivity). unfold set_pos. cbn [rtext]. now rewrite LE.
        - rewrite (range_peek_ok bs T n _ b true rest) by (rewrite HS, <- app_assoc; reflexivity). change (125 =? ch_rbrace) with true. cbv iota zeta.
          assert (HS1 : skipn (n + if b then 1 else 0) T = [125] ++ rest). { rewrite <- skipn_skipn_nat, HS. now destruct b. }
          set (p := (n + if b then 1 else 0)%nat) in *. assert (LE : (n + length sp = p + 1)%nat). { rewrite ER, app_length. unfold p. destruct b; cbn [length]; lia. }
          destruct (each_parsed Fs cs T p [125] rest true HK HB HS1 (element_brace Fs cs T p rest HK HB HS1) ltac:(reflexivity) 0%nat) as (ms & HP & HRd).
          destruct Fs as [|F Fs'] eqn:EFs.
          + exists tt. cbn [new_objects]. rewrite (pop_at _ _ _ _ HS1). split; [f_equal; f_equal; lia|]. inversion HK; subst. exact Logic.I.
          + rewrite HP. exists ms. split; [|exact HRd]. unfold set_pos. cbn [rtext length]. now rewrite LE. }
      destruct Q as (ms & HP & HRd). rewrite HP. exists (as_specs b bs, ms). split; [reflexivity|]. intros v HVs. exact (tuple_acts set_pos Fs cs bs debug sp b e ms v HLen ER HRd HVs).
  Qed.

  (** *** Nothing behind the specification *)
  Lemma pop_end (T : list Z) p : (p <= length T)%nat -> pop (mk_reader T p) (length T) = mk_reader T (length T).
  Proof.
    intros H. unfold pop, cnt_remaining, set_pos. cbn [rtext rpos]. destruct (length T <=? length T - p)%nat eqn:E; [|reflexivity]. apply Nat.leb_le in E. f_equal. lia.
  Qed.
  Lemma range_peek_inv {A} (rs : ranges_specs) T n (k : ranges_specs -> Z -> reader -> outcome A * reader) a r' : range_peek rs (mk_reader T n) k = (Ok a, r') ->
    exists rs' c p, (p < length T)%nat /\ range_peek rs (mk_reader T n) k = k rs' c (mk_reader T p) /\ forall k' : ranges_specs -> Z -> reader -> outcome A * reader, range_peek rs (mk_reader T n) k' = k' rs' c (mk_reader T p).
  Proof.
    unfold range_peek, peek_s. intros H. destruct (peek (mk_reader T n)) as [c|?| |] eqn:E; try discriminate. cbn [assume sbind] in *. cbv zeta in *.
    destruct (peek_inv T n c E) as (l & HS). assert (L := skip_bound _ _ _ _ HS). destruct (c =? 110).
    - rewrite (pop_at _ _ _ _ HS) in *. destruct (peek (mk_reader T (S n))) as [c2|?| |] eqn:E2; try discriminate. cbn [assume sbind] in *.
      destruct (peek_inv T (S n) c2 E2) as (l2 & HS2). assert (L2 := skip_bound _ _ _ _ HS2). do 3 eexists. split; [|split; [reflexivity|intros; reflexivity]]. exact L2.
    - cbn [sbind] in *. do 3 eexists. split; [|split; [reflexivity|intros; reflexivity]]. exact L.
  Qed.
End Tuple.

(** ** Strings that end with a tuple *)
Section Last.
  Context (us us' : list user) (cs : list contract) (k0 : nat) (u0 u0' : user).
  Context (HU : nth_error us k0 = Some u0) (HU' : nth_error us' k0 = Some u0') (HO : forall j, j <> k0 -> nth_error us j = nth_error us' j).
  (** The argument does what it should where nothing follows. *)
  Definition good_at_end (T : list Z) : Prop := forall c n sp, nth_error cs k0 = Some c -> skipn n T = sp -> c_reads c sp ->
    validate_trait u0 (mk_reader T n) = (Ok tt, mk_reader T (length T)) /\ formats_at u0 c T n sp.

  Lemma swap_last T n use inc its ns e : good_at_end T -> uacc us' cs T n use inc its ns e -> e = [] ->
    forall its1 f ns1, its = its1 ++ [f] -> ~ plain_item f -> ns = ns1 ++ [k0] -> ~ In k0 ns1 -> uacc us cs T n use inc its ns e.
  Proof.
    intros HE HA. induction HA as [n use inc its e HF HS HEd|n use inc lits index colon sp rest its k ns e use' inc' u ct p HF HS HC HP HK' HN HNc HKu HFS Hp HSP HV HA IH]; intros He its1 f ns1 E1 NP E2 NI.
    - destruct ns1; discriminate.
    - destruct ns1 as [|k1 ns1].
      + injection E2 as -> ->. rewrite HU' in HN. injection HN as <-.
        assert (X : Forall plain_item its /\ skipn (p + length sp) T = text_of its ++ e) by (inversion HA; subst; auto). destruct X as [X1 X2].
        assert (its = []) as ->.
        { destruct (exists_last (l := Field index colon sp :: its) ltac:(discriminate)) as (l & a & EL). rewrite EL, app_assoc in E1. apply app_inj_tail in E1. destruct E1 as [_ ->].
          destruct its as [|i its]; [reflexivity|exfalso]. apply NP. assert (In f (i :: its)).
          { change (Field index colon sp :: i :: its) with ([Field index colon sp] ++ i :: its) in EL. destruct (exists_last (l := i :: its) ltac:(discriminate)) as (l2 & a2 & EL2). rewrite EL2, app_assoc in EL. apply app_inj_tail in EL. destruct EL as [_ <-]. rewrite EL2. apply in_or_app. right. now left. }
          rewrite Forall_forall in X1. auto. }
        subst e. cbn [text_of flat_map app] in X2. assert (rest = []) as -> by (rewrite (skip_part _ _ _ _ HSP) in X2; exact X2). rewrite app_nil_r in HSP.
        assert (NE : sp <> []) by (destruct HKu as ((d & l & ->) & _); discriminate).
        assert (LT : (p + length sp = length T)%nat /\ (p <= length T)%nat). { assert (Y := f_equal (@length Z) HSP). rewrite skipn_length in Y. destruct sp; [congruence|]. cbn [length] in *. lia. }
        destruct LT as [LT LP]. rewrite LT in HV. destruct (HE ct p sp HNc HSP HFS) as [HV2 HK2].
        apply (uacc_field us cs T n use inc lits index colon sp [] [] k0 [] [] use' inc' u0 ct p); auto.
        * now rewrite app_nil_r.
        * now rewrite LT.
        * rewrite LT. constructor; [constructor| |now left]. rewrite skipn_all. reflexivity.
      + injection E2 as <- ->. assert (N0 : k <> k0) by (intros ->; apply NI; now left).
        assert (L : exists its2, its = its2 ++ [f]).
        { destruct its as [|i its].
          - exfalso. inversion HA as [? ? ? ? ? HF2 HS2 HE2|? ? ? lits2]; subst; [destruct ns1; discriminate|]. destruct lits2; discriminate.
          - destruct (exists_last (l := i :: its) ltac:(discriminate)) as (l2 & a2 & EL2). exists l2. rewrite EL2 in *.
            change (lits ++ Field index colon sp :: l2 ++ [a2]) with (lits ++ ((Field index colon sp :: l2) ++ [a2])) in E1. rewrite app_assoc in E1. apply app_inj_tail in E1. destruct E1 as [_ ->]. reflexivity. }
        destruct L as (its2 & ->).
        apply (uacc_field us cs T n use inc lits index colon sp rest (its2 ++ [f]) k (ns1 ++ [k0]) e use' inc' u ct p); auto; [rewrite HO by exact N0; exact HN|].
        apply (IH He its2 f ns1 eq_refl NP eq_refl). intros X. apply NI. now right.
  Qed.
End Last.

(** ** What is based on tuples *)

(** A formatter that does what it should where nothing follows. *)
Record ends {A} (F : formatter A) (c : promise A) : Prop := {
  en_closed : forall sp, p_reads c sp -> exists x, sp = x ++ [125] /\ ~ In 125 x;
  en_element : f_validate F <> None /\ p_reads c [125] /\ set_debug F (f_new F) false = f_new F;
  en_validate : forall T n sp, Forall is_byte T -> skipn n T = sp -> p_reads c sp -> small_numbers sp ->
    validate_trait_of F (mk_reader T n) = (Ok tt, mk_reader T (length T));
  en_format : forall (debug : bool) T n sp, Forall is_byte T -> skipn n T = sp -> p_reads c sp -> small_numbers sp -> (debug = true -> sp = [125]) ->
    exists m, f_parse F (if debug then set_debug F (f_new F) true else f_new F) (mk_reader T n) = (Ok m, mk_reader T (length T)) /\
      forall a, p_value c a -> exists out o, p_does c debug sp a out o /\ (o = Ok tt \/ exists e, o = Err e) /\ acts (fun K vt b => f_format F K vt m a b) out o
}.

Lemma spec_len (x : list Z) T n : skipn n T = x ++ [125] -> (n + length (x ++ [125%Z]) = length T)%nat.
Proof. intros H. assert (L := f_equal (@length Z) H). rewrite skipn_length in L. rewrite app_length in *. cbn [length] in *. lia. Qed.

Lemma ok_ends {A} (F : formatter A) c : element_ok F c -> ends F c.
Proof.
  intros (HK & HV & HR & HD). split; [exact (kp_closed F c HK)|auto| |].
  - intros T n sp HB HS HRs HSm. destruct (kp_closed F c HK sp HRs) as (x & -> & _). assert (L := spec_len _ _ _ HS). rewrite <- L.
    apply (kp_complete F c HK T n _ []); auto. now rewrite app_nil_r.
  - intros debug T n sp HB HS HRs HSm HDb. destruct (kp_closed F c HK sp HRs) as (x & E & _). assert (L : (n + length sp = length T)%nat) by (rewrite E in HS |- *; exact (spec_len _ _ _ HS)). rewrite <- L.
    assert (HS2 : skipn n T = sp ++ []) by now rewrite app_nil_r.
    exact (kp_format F c HK debug T n sp [] HB HS2 HRs (kp_complete F c HK T n sp [] HB HS2 HRs HSm) HDb).
Qed.

(** *** Tuples *)
Section Ends.
  Context {P : Type}.
  Implicit Types (Fs : list (formatter P)) (cs : list (promise P)).

  Lemma each_end Fs cs T n sp : Forall2 ends Fs cs -> Forall is_byte T -> skipn n T = sp -> Forall (fun c => p_reads c sp) cs -> small_numbers sp ->
    forall q, q = 0%nat \/ q = length T -> validate_each Fs (mk_reader T n) q = Ok (match Fs with [] => q | _ => length T end).
  Proof.
    intros H HB HS HR HSm. induction H as [|F c Fs cs HE HF IH]; intros q Hq; cbn [validate_each]; [reflexivity|].
    inversion HR as [|? ? HRc HRs]; subst. assert (X := en_validate F c HE T n _ HB eq_refl HRc HSm). destruct (en_element F c HE) as (HV & _). unfold validate_trait_of in X. destruct (f_validate F) as [v|]; [|contradiction].
    rewrite X. cbn [bind]. change (pos (mk_reader T (length T))) with (length T).
    destruct Hq as [-> | ->].
    - cbn [Nat.eqb]. rewrite (IH HRs) by now right. now destruct Fs.
    - destruct (length T =? 0)%nat; [rewrite (IH HRs) by (now right); now destruct Fs|]. rewrite Nat.eqb_refl, (IH HRs) by now right. now destruct Fs.
  Qed.
  Lemma each_end_parsed Fs cs T n sp (debug : bool) : Forall2 ends Fs cs -> Forall is_byte T -> skipn n T = sp -> Forall (fun c => p_reads c sp) cs -> small_numbers sp -> (debug = true -> sp = [125]) ->
    forall q, exists ms, parse_each Fs (new_objects Fs) (mk_reader T n) debug q = Ok (ms, match Fs with [] => q | _ => length T end) /\ ready Fs cs debug sp ms.
  Proof.
    intros H HB HS HR HSm HD. induction H as [|F c Fs cs HE HF IH]; intros q; cbn [parse_each new_objects]; [exists tt; split; reflexivity|].
    inversion HR as [|? ? HRc HRs]; subst. destruct (en_format F c HE debug T n _ HB eq_refl HRc HSm HD) as (m & HP & HFm). destruct (en_element F c HE) as (_ & _ & HF0).
    assert (E : set_debug F (f_new F) debug = (if debug then set_debug F (f_new F) true else f_new F)) by (destruct debug; [reflexivity|exact HF0]).
    cbn [fst snd]. rewrite E, HP. cbn [bind]. change (pos (mk_reader T (length T))) with (length T). destruct (IH HRs (length T)) as (ms & HP2 & HR2). rewrite HP2. cbn [bind fst snd].
    exists (m, ms). split; [now destruct Fs|]. cbn [ready fst snd]. auto.
  Qed.

  Theorem tuple_ends Fs cs bs : Forall2 ends Fs cs -> ends (tuple_of Fs (as_specs false bs)) (tuple_promise bs cs).
  Proof.
    intros HK. assert (HLen : length Fs = length cs) by exact (Forall2_len _ _ _ HK).
    assert (CL : forall sp, p_reads (tuple_promise bs cs) sp -> exists x, sp = x ++ [125] /\ ~ In 125 x).
    { intros sp (n & e & -> & HE). destruct e as [e|].
      + destruct HE as [NE HE]. inversion HK as [|F c ? ? HKc _]; subst; [contradiction|]. inversion HE as [|? ? HEc _]; subst.
        destruct (en_closed F c HKc e HEc) as (x & -> & HX). exists ((if n then [110] else []) ++ 58 :: x). split; [now rewrite <- app_assoc|].
        intros HI. apply in_app_or in HI. destruct HI as [HI|[HI|HI]]; [destruct n; cbn in HI; lia|lia|contradiction].
      + exists (if n then [110] else []). split; [reflexivity|]. intros HI. destruct n; cbn in HI; lia. }
    assert (BR : Forall (fun c => p_reads c [125]) cs). { clear -HK. induction HK as [|F c Fs cs H _ IH]; constructor; [apply (en_element F c H)|exact IH]. }
    split; [exact CL| | |].
    - split; [discriminate|]. split; [|reflexivity]. exists false, None. split; [reflexivity|exact Logic.I].
    - intros T n sp HB HS HR HSm. destruct (CL sp HR) as (x0 & E0 & _). assert (L : (n + length sp = length T)%nat) by (rewrite E0 in HS |- *; exact (spec_len _ _ _ HS)). clear x0 E0.
      destruct HR as (b & e & -> & HE). change (validate_tuple_of pop Fs (mk_reader T n) = (Ok tt, mk_reader T (length T))). rewrite tuple_head. destruct e as [e|].
      + rewrite (range_head_intro T n _ _ b false e) by (rewrite HS; reflexivity). cbv iota.
        assert (HS2 : skipn (n + if b then 2 else 1) T = e). { rewrite <- skipn_skipn_nat, HS. now destruct b. }
        assert (SE : small_numbers e). { apply (small_sub ((if b then [110] else []) ++ [58]) e []). now rewrite app_nil_r, <- app_assoc. }
        destruct HE as [NE HE]. destruct Fs as [|F Fs'] eqn:EFs; [destruct cs; [contradiction|discriminate]|]. rewrite <- EFs in *.
        rewrite (each_end Fs cs T _ e HK HB HS2 HE SE 0%nat (or_introl eq_refl)). rewrite EFs. rewrite app_length in L. cbn [length] in L.
        destruct (length T =? 0)%nat eqn:E0; [lia|]. rewrite pop_end; [reflexivity|]. destruct b; cbn [length] in L; lia.
      + rewrite (range_head_intro T n _ _ b true []) by (rewrite HS; reflexivity). f_equal. f_equal. rewrite <- L, app_length. destruct b; reflexivity.
    - intros debug T n sp HB HS HR HSm _. destruct (CL sp HR) as (x0 & E0 & _). assert (L : (n + length sp = length T)%nat) by (rewrite E0 in HS |- *; exact (spec_len _ _ _ HS)). clear x0 E0.
      destruct HR as (b & e & ER & HE). set (F0 := tuple_of Fs (as_specs false bs)).
      assert (EQ : (if debug then set_debug F0 (f_new F0) true else f_new F0) = (as_specs false bs, new_objects Fs)) by (now destruct debug).
      rewrite EQ. change (f_parse F0) with (parse_tuple_of pop Fs).
      assert (Q : exists ms, parse_tuple_of pop Fs (as_specs false bs, new_objects Fs) (mk_reader T n) = (Ok (as_specs b bs, ms), mk_reader T (length T)) /\ ready Fs cs (no_spec e) (element_spec e) ms).
      { rewrite tuple_peek. assert (ER' := ER). rewrite ER in HS, HSm, L. rewrite app_length in L. destruct e as [e|].
        - rewrite (range_peek_ok bs T n _ b false e) by (rewrite HS; reflexivity). change (58 =? ch_rbrace) with false. cbv iota zeta.
          assert (HS1 : skipn (n + if b then 1 else 0) T = 58 :: e). { rewrite <- skipn_skipn_nat, HS. now destruct b. }
          rewrite (pop_at _ _ _ _ HS1). replace (S (n + if b then 1 else 0)) with (n + if b then 2 else 1)%nat by (destruct b; lia).
          assert (HS2 : skipn (n + if b then 2 else 1) T = e). { rewrite <- skipn_skipn_nat, HS. now destruct b. }
          assert (SE : small_numbers e). { apply (small_sub ((if b then [110] else []) ++ [58]) e []). now rewrite app_nil_r, <- app_assoc. }
          destruct HE as [NE HE]. destruct (each_end_parsed Fs cs T _ e false HK HB HS2 HE SE ltac:(discriminate) 0%nat) as (ms & HP & HRd).
          destruct Fs as [|F Fs'] eqn:EFs; [destruct cs; [contradiction|discriminate]|]. rewrite HP. exists ms. split; [|exact HRd].
          rewrite pop_end; [reflexivity|]. cbn [length] in L. destruct b; cbn [length] in L; lia.
        - rewrite (range_peek_ok bs T n _ b true []) by (rewrite HS; reflexivity). change (125 =? ch_rbrace) with true. cbv iota zeta.
          assert (HS1 : skipn (n + if b then 1 else 0) T = [125]). { rewrite <- skipn_skipn_nat, HS. now destruct b. }
          destruct (each_end_parsed Fs cs T _ [125] true HK HB HS1 BR brace_small ltac:(reflexivity) 0%nat) as (ms & HP & HRd).
          destruct Fs as [|F Fs'] eqn:EFs.
          + exists tt. cbn [new_objects]. rewrite (pop_at _ _ _ _ HS1). split; [f_equal; f_equal; cbn [length] in L; destruct b; cbn [length] in L; lia|]. exact Logic.I.
          + rewrite HP. exists ms. split; [|exact HRd]. rewrite pop_end; [reflexivity|]. cbn [length] in L. destruct b; cbn [length] in L; lia. }
      destruct Q as (ms & HP & HRd). rewrite HP. exists (as_specs b bs, ms). split; [reflexivity|]. intros v HVs. exact (tuple_acts pop Fs cs bs debug sp b e ms v HLen ER HRd HVs).
  Qed.
End Ends.

(** *** Ranges, optionals and what derives from them *)
Theorem range_ends {A} (F : formatter A) c bs : ends F c -> ends (range_of F (as_specs false bs)) (range_promise bs c).
Proof.
  intros HK. destruct (en_element F c HK) as (HV & BR & HD).
  assert (VT : forall r, validate_trait_of (range_of F (as_specs false bs)) r = range_head r (fun r => (Ok tt, r)) (validate_trait_of F)) by (intros r; now apply range_of_head_trait).
  assert (CL : forall sp, p_reads (range_promise bs c) sp -> exists x, sp = x ++ [125] /\ ~ In 125 x).
  { intros sp (n & e & -> & HE). destruct e as [e|].
    + destruct (en_closed F c HK e HE) as (x & -> & HX). exists ((if n then [110] else []) ++ 58 :: x). split; [now rewrite <- app_assoc|].
      intros HI. apply in_app_or in HI. destruct HI as [HI|[HI|HI]]; [destruct n; cbn in HI; lia|lia|contradiction].
    + exists (if n then [110] else []). split; [reflexivity|]. intros HI. destruct n; cbn in HI; lia. }
  split; [exact CL| | |].
  - split; [discriminate|]. split; [|reflexivity]. exists false, None. split; [reflexivity|exact Logic.I].
  - intros T n sp HB HS HR HSm. destruct (CL sp HR) as (x0 & E0 & _). assert (L : (n + length sp = length T)%nat) by (rewrite E0 in HS |- *; exact (spec_len _ _ _ HS)). clear x0 E0.
    destruct HR as (b & e & -> & HE). rewrite VT. destruct e as [e|].
    + rewrite (range_head_intro T n _ _ b false e) by (rewrite HS; reflexivity).
      assert (HS2 : skipn (n + if b then 2 else 1) T = e). { rewrite <- skipn_skipn_nat, HS. now destruct b. }
      apply (en_validate F c HK T _ e HB HS2 HE). apply (small_sub ((if b then [110] else []) ++ [58]) e []). now rewrite app_nil_r, <- app_assoc.
    + rewrite (range_head_intro T n _ _ b true []) by (rewrite HS; reflexivity). f_equal. f_equal. rewrite <- L, app_length. destruct b; reflexivity.
  - intros debug T n sp HB HS HR HSm _. destruct HR as (b & e & ER & HE). set (F0 := range_of F (as_specs false bs)).
    assert (EQ : (if debug then set_debug F0 (f_new F0) true else f_new F0) = (as_specs false bs, f_new F)) by (now destruct debug).
    rewrite EQ. change (f_parse F0) with (parse_range_of F).
    assert (Q : exists m, parse_range_of F (as_specs false bs, f_new F) (mk_reader T n) = (Ok (as_specs b bs, m), mk_reader T (length T)) /\
      forall a, p_value c a -> exists out o, p_does c (no_spec e) (element_spec e) a out o /\ (o = Ok tt \/ exists e, o = Err e) /\ acts (fun K vt b => f_format F K vt m a b) out o).
    { rewrite range_of_peek. rewrite ER in HS, HSm. destruct e as [e|].
      - rewrite (range_peek_ok bs T n _ b false e) by (rewrite HS; reflexivity). change (58 =? 125) with false. cbv iota.
        assert (HS1 : skipn (n + if b then 1 else 0) T = 58 :: e). { rewrite <- skipn_skipn_nat, HS. now destruct b. }
        rewrite (pop_at _ _ _ _ HS1). replace (S (n + if b then 1 else 0)) with (n + if b then 2 else 1)%nat by (destruct b; lia).
        assert (HS2 : skipn (n + if b then 2 else 1) T = e). { rewrite <- skipn_skipn_nat, HS. now destruct b. }
        assert (SE : small_numbers e). { apply (small_sub ((if b then [110] else []) ++ [58]) e []). now rewrite app_nil_r, <- app_assoc. }
        destruct (en_format F c HK false T _ e HB HS2 HE SE ltac:(discriminate)) as (m & HP & HF). rewrite HP. cbn [sbind]. exists m. auto.
      - rewrite (range_peek_ok bs T n _ b true []) by (rewrite HS; reflexivity). change (125 =? 125) with true. cbv iota.
        assert (HS1 : skipn (n + if b then 1 else 0) T = [125]). { rewrite <- skipn_skipn_nat, HS. now destruct b. }
        destruct (en_format F c HK true T _ [125] HB HS1 BR brace_small ltac:(reflexivity)) as (m & HP & HF). rewrite HP. cbn [sbind]. exists m. auto. }
    destruct Q as (m & HP & HF). rewrite HP. exists (as_specs b bs, m). split; [reflexivity|]. intros vs HVs. exact (range_acts F c bs debug sp b e m vs ER HF HVs).
Qed.
Theorem optional_ends {A} (F : formatter A) c : ends F c -> ends (optional_of F) (optional_promise c).
Proof.
  intros HK. destruct (en_element F c HK) as (HV & BR & HD). split; cbn [optional_promise p_reads p_value p_does].
  - exact (en_closed F c HK).
  - split; [discriminate|]. split; [exact BR|reflexivity].
  - exact (en_validate F c HK).
  - intros debug T n sp HB HS HR HSm _. destruct (en_format F c HK false T n sp HB HS HR HSm ltac:(discriminate)) as (m & HP & HF). exists m.
    split; [destruct debug; exact HP|]. intros [a|] HA; cbn [optional_of f_format].
    + destruct (HF a HA) as (out & o & HDo & HO & HAc). exists (str "optional(" ++ out ++ match o with Ok _ => str ")" | _ => [] end), o.
      split; [eauto|]. split; [exact HO|].
      apply (acts_bind (fun K vt b => write_str vt b _) (fun K vt b => sdo (_, b) <- _ ;; write_char vt b _)); [apply acts_str|].
      destruct HO as [-> |(e & ->)].
      * apply (acts_bind _ (fun K vt b => write_char vt b _)); [exact HAc|apply acts_char].
      * rewrite app_nil_r. apply (acts_err _ (fun K vt b => write_char vt b _)). exact HAc.
    + exists (str "none"), (Ok tt). split; [auto|]. split; [now left|]. apply acts_str.
Qed.
Theorem derived_ends {A B} (F : formatter A) c (f : B -> A) : ends F c -> ends (derived_of F f) (derived_promise f c).
Proof.
  intros HK. split; cbn [derived_promise p_reads p_value p_does]; [exact (en_closed F c HK)|exact (en_element F c HK)|exact (en_validate F c HK)|].
  intros debug T n sp HB HS HR HSm HD. destruct (en_format F c HK debug T n sp HB HS HR HSm HD) as (m & HP & HF). exists m. split; [exact HP|]. intros a HA. exact (HF (f a) HA).
Qed.
Lemma user_ends {A} (F : formatter A) c a T n sp : ends F c -> p_value c a -> Forall is_byte T -> skipn n T = sp -> p_reads c sp -> small_numbers sp ->
  validate_trait (as_user F a) (mk_reader T n) = (Ok tt, mk_reader T (length T)) /\ formats_at (as_user F a) (promise_for c a) T n sp.
Proof.
  intros HK HA HB HS HR HSm. split; [exact (en_validate F c HK T n sp HB HS HR HSm)|]. destruct (en_closed F c HK sp HR) as (x & E & _).
  assert (L : (n + length sp = length T)%nat) by (rewrite E in HS |- *; exact (spec_len _ _ _ HS)).
  split; [rewrite E; destruct x; cbn; eauto|]. rewrite L. destruct (en_format F c HK false T n sp HB HS HR HSm ltac:(discriminate)) as (m & HP & HF).
  destruct (HF a HA) as (out & o & HD & HO & HAc). exists m, out, o. auto.
Qed.

(** *** All of them *)
Scheme tuple_based_mut := Minimality for tuple_based Sort Prop with tuple_elements_mut := Minimality for tuple_elements Sort Prop.
Combined Scheme tuple_based_both from tuple_based_mut, tuple_elements_mut.
Theorem tuple_based_ends : (forall A F c, tuple_based A F c -> ends F c /\ exists F', element_ok F' c) /\
  (forall A Fs cs, tuple_elements A Fs cs -> Forall2 ends Fs cs /\ exists Fs', Forall2 element_ok Fs' cs).
Proof.
  apply tuple_based_both.
  - intros A Fs ps o cl sep _ (H1 & Fs' & H2). split; [exact (tuple_ends Fs ps (o, cl, sep) H1)|]. exists (tuple_repaired Fs' (mk_rs o cl sep)).
    split; [exact (repaired_keeps Fs' ps (o, cl, sep) H2)|]. split; [discriminate|]. split; [|reflexivity]. exists false, None. split; [reflexivity|exact Logic.I].
  - intros A F c o cl sep _ (H1 & F' & H2 & H3 & H4 & H5). split; [exact (range_ends F c (o, cl, sep) H1)|]. exists (range_of F' (mk_rs o cl sep)).
    split; [exact (range_keeps F' c H2 (o, cl, sep) H3 H4)|]. split; [discriminate|]. split; [|reflexivity]. exists false, None. split; [reflexivity|exact Logic.I].
  - intros A F c _ (H1 & F' & H2 & H3 & H4 & H5). split; [now apply optional_ends|]. exists (optional_of F').
    split; [now apply optional_keeps|]. split; [discriminate|]. split; [exact H4|reflexivity].
  - intros A B F c convert _ (H1 & F' & H2 & H3 & H4 & H5). split; [now apply derived_ends|]. exists (derived_of F' convert).
    split; [now apply derived_keeps|]. split; [exact H3|]. split; [exact H4|exact H5].
  - intros A. split; [constructor|]. exists []. constructor.
  - intros A F c Fs cs H _ (H1 & Fs' & H2). split; [constructor; [now apply ok_ends|exact H1]|]. exists (F :: Fs'). now constructor.
  - intros A F c Fs cs _ (HE & F' & HF') _ (H1 & Fs' & H2). split; [now constructor|]. exists (F' :: Fs'). now constructor.
Qed.
