(** Proofs about Elements.v. *)
From Verif Require Import Base Conversion Reader Buffer Writer Bitset Specs FormatArg FloatArg Format Custom Elements.
From Verif Require Import Lib SpecNum SpecReader SpecEscape SpecFloat SpecFormat SpecDecimal SpecField SpecSpecs SpecString SpecCustom SpecElements.
From Verif Require Import ConversionProofs ReaderProofs SpecsProofs BufferProofs Emits WriterProofs StringProofs StringLoop StringEmits StringTop StringTuples CustomProofs SpecString SpecCustom SpecElements.

(** ** Sequences of calls *)
Definition call := forall K, vtable K -> bst K -> outcome unit * bst K.
Lemma acts_ext (m m' : call) out o : (forall K vt b, m K vt b = m' K vt b) -> acts m' out o -> acts m out o.
Proof. intros E (ops & H1 & H2). exists ops. split; [exact H1|]. intros. eapply emits_ext; [apply E|]. now apply H2. Qed.
Lemma acts_bind (m f : call) out1 out2 o : acts m out1 (Ok tt) -> acts f out2 o -> acts (fun K vt b => sbind (m K vt b) (fun _ b => f K vt b)) (out1 ++ out2) o.
Proof.
  intros (ops1 & <- & H1) (ops2 & <- & H2). exists (ops1 ++ ops2). split; [apply ops_data_app|]. intros K vt R cap amax room HL.
  eapply (emits_bind _ _ _ _ _ (fun _ b => f K vt b)); [now apply H1|now apply H2].
Qed.
Lemma acts_err (m f : call) out e : acts m out (Err e) -> acts (fun K vt b => sbind (m K vt b) (fun _ b => f K vt b)) out (Err e).
Proof. intros (ops & <- & H). exists ops. split; [reflexivity|]. intros K vt R cap amax room HL. apply emits_bind_err. now apply H. Qed.
Lemma acts_str s : acts (fun K vt b => write_str vt b s) s (Ok tt).
Proof. exists [Chunk s]. split; [apply app_nil_r|]. intros K vt R cap amax room HL. apply (write_str_emits vt R cap amax room (lawful_chunky _ _ _ _ _ HL)). Qed.
Lemma acts_char c : acts (fun K vt b => write_char vt b c) [c] (Ok tt).
Proof. exists [Atom [c]]. split; [reflexivity|]. intros K vt R cap amax room HL. apply (write_char_emits vt R cap amax room HL). Qed.
Lemma acts_char_escaped c : is_byte c -> acts (fun K vt b => write_char_escaped vt b c) ([39] ++ escape c ++ [39]) (Ok tt).
Proof.
  intros HC. exists [Chunk ([39] ++ escape c ++ [39])]. split; [apply app_nil_r|]. intros K vt R cap amax room HL.
  exact (write_char_escaped_emits vt R cap amax room (lawful_chunky _ _ _ _ _ HL) c HC).
Qed.
Lemma acts_str_escaped s : Forall is_byte s -> acts (fun K vt b => write_str_escaped vt b s) ([34] ++ escape_text s ++ [34]) (Ok tt).
Proof.
  intros HC. exists [Chunk ([34] ++ escape_text s ++ [34])]. split; [apply app_nil_r|]. intros K vt R cap amax room HL.
  exact (write_str_escaped_emits vt R cap amax room (lawful_chunky _ _ _ _ _ HL) s HC).
Qed.
Lemma acts_nothing : acts (fun K vt b => (Ok tt, b)) [] (Ok tt).
Proof. exists []. split; [reflexivity|]. intros. apply emits_ret. Qed.

Lemma same_spec T n (sp sp' rest rest' : list Z) : skipn n T = sp ++ rest -> skipn n T = sp' ++ rest' -> length sp = length sp' -> sp = sp'.
Proof.
  intros H1 H2 L. rewrite H1 in H2. assert (X := f_equal (firstn (length sp)) H2). rewrite firstn_app_exact in X by reflexivity. rewrite L, firstn_app_exact in X by reflexivity. exact X.
Qed.

(** ** Elements *)
Section Range.
  Context {A : Type} (F : formatter A) (c : promise A) (HK : keeps_promise F c).

  Lemma range_of_head r : validate_range_of F r =
    range_head r (fun r => (Ok tt, r)) (fun r => match f_validate F with Some validate => validate r | None => (Undef, r) end).
  Proof. reflexivity. Qed.
  Lemma range_of_head_trait r : f_validate F <> None -> validate_range_of F r = range_head r (fun r => (Ok tt, r)) (validate_trait_of F).
  Proof.
    intros HV. rewrite range_of_head. unfold validate_trait_of. destruct (f_validate F) as [v|]; [reflexivity|contradiction].
  Qed.
  Lemma range_of_peek rs m r : parse_range_of F (rs, m) r =
    range_peek rs r (fun rs c r => sdo (m, r) <- (if c =? 125 then f_parse F (set_debug F m true) r else f_parse F m (pop r 1)) ;; (Ok (rs, m), r)).
  Proof. reflexivity. Qed.

  (** What the elements write, behind a first element or not *)
  Definition behind (first : bool) (sep : list Z) (texts : list (list Z)) : list Z :=
    match texts with [] => [] | _ => (if first then [] else sep) ++ join sep texts end.
  Lemma join_cons sep t ts : join sep (t :: ts) = t ++ behind false sep ts.
  Proof. destruct ts; cbn; [now rewrite app_nil_r|reflexivity]. Qed.

  Lemma elements_act debug sp m sep vs : 
    (forall a, p_value c a -> exists out o, p_does c debug sp a out o /\ (o = Ok tt \/ exists e, o = Err e) /\ acts (fun K vt b => f_format F K vt m a b) out o) ->
    Forall (p_value c) vs -> forall first,
    (exists outs, Forall2 (fun v out => p_does c debug sp v out (Ok tt)) vs outs /\ acts (fun K vt b => format_range_elements F vt first sep m vs b) (behind first sep outs) (Ok tt)) \/
    (exists err vs1 v vs2 outs out1, vs = vs1 ++ v :: vs2 /\ Forall2 (fun v out => p_does c debug sp v out (Ok tt)) vs1 outs /\ p_does c debug sp v out1 (Err err) /\
       acts (fun K vt b => format_range_elements F vt first sep m vs b) (behind first sep (outs ++ [out1])) (Err err)).
  Proof.
    intros H HV. induction HV as [|v vs Hv HV IH]; intros first.
    - left. exists []. split; [constructor|]. apply acts_nothing.
    - destruct (H v Hv) as (out & o & HD & HO & HA).
      assert (P : acts (fun K vt b => if first then (Ok tt, b) else write_str vt b sep) (if first then [] else sep) (Ok tt)) by (destruct first; [apply acts_nothing|apply acts_str]).
      destruct HO as [-> |(e & ->)].
      + destruct (IH false) as [(outs & H1 & H2)|(err & vs1 & v' & vs2 & outs & out1 & -> & H1 & H2 & H3)].
        * left. exists (out :: outs). split; [now constructor|]. cbn [behind]. rewrite join_cons. cbn [format_range_elements].
          apply (acts_bind _ (fun K vt b => sdo (_, b) <- f_format F K vt m v b ;; format_range_elements F vt false sep m vs b)); [exact P|].
          now apply (acts_bind (fun K vt b => f_format F K vt m v b) (fun K vt b => format_range_elements F vt false sep m vs b)).
        * right. exists err, (v :: vs1), v', vs2, (out :: outs), out1. split; [reflexivity|]. split; [now constructor|]. split; [exact H2|].
          cbn [app behind]. rewrite join_cons. cbn [format_range_elements].
          apply (acts_bind _ (fun K vt b => sdo (_, b) <- f_format F K vt m v b ;; format_range_elements F vt false sep m (vs1 ++ v' :: vs2) b)); [exact P|].
          now apply (acts_bind (fun K vt b => f_format F K vt m v b) (fun K vt b => format_range_elements F vt false sep m (vs1 ++ v' :: vs2) b)).
      + right. exists e, [], v, vs, [], out. split; [reflexivity|]. split; [constructor|]. split; [exact HD|]. cbn [app behind join format_range_elements].
        apply (acts_bind _ (fun K vt b => sdo (_, b) <- f_format F K vt m v b ;; format_range_elements F vt false sep m vs b)); [exact P|].
        now apply (acts_err (fun K vt b => f_format F K vt m v b) (fun K vt b => format_range_elements F vt false sep m vs b)).
  Qed.

  Lemma behind_true sep outs : behind true sep outs = join sep outs.
  Proof. now destruct outs. Qed.

  (** The text of a range, from its parsed elements on *)
  Lemma range_acts bs (debug : bool) sp b e m vs : range_spec sp b e ->
    (forall a, p_value c a -> exists out o, p_does c (no_spec e) (element_spec e) a out o /\ (o = Ok tt \/ exists e, o = Err e) /\ acts (fun K vt b => f_format F K vt m a b) out o) ->
    Forall (p_value c) vs -> exists out o, p_does (range_promise bs c) debug sp vs out o /\ (o = Ok tt \/ exists e, o = Err e) /\
      acts (fun K vt b0 => f_format (range_of F (as_specs false bs)) K vt (as_specs b bs, m) vs b0) out o.
  Proof.
    intros ER HF HVs. cbn [range_of f_format fst snd range_promise p_does].
    destruct (elements_act (no_spec e) (element_spec e) m (rs_sep (as_specs b bs)) vs HF HVs true) as [(outs & H1 & H2)|(err & vs1 & v & vs2 & outs & out1 & H0 & H1 & H2 & H3)]; rewrite behind_true in *.
    + exists (enclose b bs outs), (Ok tt). split; [exists b, e; split; [exact ER|]; left; eauto|]. split; [now left|].
      rewrite enclose_specs. apply (acts_bind (fun K vt b => write_str vt b _) (fun K vt b => sdo (_, b) <- _ ;; write_str vt b _)); [apply acts_str|].
      apply (acts_bind _ (fun K vt b => write_str vt b _)); [exact H2|apply acts_str].
    + exists (opening b bs ++ join (separator bs) (outs ++ [out1])), (Err err). split; [exists b, e; split; [exact ER|]; right; exists err, vs1, v, vs2, outs, out1; auto|]. split; [eauto|].
      replace (opening b bs ++ join (separator bs) (outs ++ [out1])) with (rs_open (as_specs b bs) ++ join (rs_sep (as_specs b bs)) (outs ++ [out1])) by (destruct bs as [[? ?] ?]; now destruct b).
      apply (acts_bind (fun K vt b => write_str vt b _) (fun K vt b => sdo (_, b) <- _ ;; write_str vt b _)); [apply acts_str|].
      apply (acts_err _ (fun K vt b => write_str vt b _)). exact H3.
  Qed.

  Theorem range_keeps bs : f_validate F <> None -> p_reads c [125] -> keeps_promise (range_of F (as_specs false bs)) (range_promise bs c).
  Proof.
    intros HV HR.
    assert (VT : forall r, validate_trait_of (range_of F (as_specs false bs)) r = range_head r (fun r => (Ok tt, r)) (validate_trait_of F)) by (intros r; now apply range_of_head_trait).
    split; cbn [range_promise p_reads p_value p_does].
    - intros sp (n & e & -> & HE). destruct e as [e|].
      + destruct (kp_closed F c HK e HE) as (x & -> & HX). exists ((if n then [110] else []) ++ 58 :: x). split; [now rewrite <- app_assoc|].
        intros HI. apply in_app_or in HI. destruct HI as [HI|[HI|HI]]; [destruct n; cbn in HI; lia|lia|contradiction].
      + exists (if n then [110] else []). split; [reflexivity|]. intros HI. destruct n; cbn in HI; lia.
    - intros T n HB HN. rewrite VT. destruct (range_head (mk_reader T n) _ _) as [o r] eqn:E.
      assert (NX : match o with Ok _ | Err _ => True | _ => False end).
      { revert E. unfold range_head. assert (S1 := settled_read (mk_reader T n) (mk_reader T n) HN eq_refl). destruct (read_char (mk_reader T n)) as [[c1|?| |] r1]; try contradiction; cbn [sbind]; [|intros E; injection E as <- _; exact Logic.I].
        destruct S1 as [W1 HT1].
        assert (S2 : settled (mk_reader T n) (if c1 =? 110 then read_char r1 else (Ok c1, r1))) by (destruct (c1 =? 110); [now apply settled_read|now apply settled_ok]).
        destruct (if c1 =? 110 then read_char r1 else (Ok c1, r1)) as [[c2|?| |] r2]; try contradiction; cbn [sbind]; [|intros E; injection E as <- _; exact Logic.I].
        destruct S2 as [W2 HT2]. destruct (c2 =? ch_rbrace); [intros E; injection E as <- _; exact Logic.I|]. destruct (c2 =? ch_colon); [|intros E; injection E as <- _; exact Logic.I].
        destruct r2 as [T2 n2]. cbn in HT2. subst T2. intros E. assert (X := kp_sound F c HK T n2 HB W2). rewrite E in X. destruct o; exact Logic.I || exact X. }
      destruct o as [[]|?| |]; try exact NX. apply range_head_ok in E. destruct E as (b & e & l & HS & E). destruct e.
      + injection E as <-. exists ((if b then [110] else []) ++ [125]), l. split; [rewrite <- app_assoc; exact HS|]. split; [exists b, None; split; [reflexivity|exact Logic.I]|]. f_equal. rewrite app_length. destruct b; reflexivity.
      + assert (HS2 : skipn (n + if b then 2 else 1) T = l). { rewrite <- skipn_skipn_nat, HS. now destruct b. }
        assert (LB : ((n + if b then 2 else 1) <= length T)%nat). { assert (L := f_equal (@length Z) HS). rewrite skipn_length, app_length in L. cbn [length] in L. destruct b; cbn [length] in L; lia. }
        assert (X := kp_sound F c HK T _ HB LB). rewrite E in X. destruct X as (sp & rest & H1 & H2 & ->). rewrite H1 in HS2. subst l.
        exists ((if b then [110] else []) ++ 58 :: sp), rest. split; [rewrite <- app_assoc; exact HS|]. split; [exists b, (Some sp); split; [reflexivity|exact H2]|]. f_equal. rewrite app_length. destruct b; cbn [length]; lia.
    - intros T n sp rest HB HS (b & e & -> & HE) HSm. rewrite VT. destruct e as [e|].
      + rewrite (range_head_intro T n _ _ b false (e ++ rest)) by (rewrite HS, <- app_assoc; reflexivity).
        assert (HS2 : skipn (n + if b then 2 else 1) T = e ++ rest). { rewrite <- skipn_skipn_nat, HS. now destruct b. }
        rewrite (kp_complete F c HK T _ e rest HB HS2 HE); [f_equal; f_equal; rewrite app_length; destruct b; cbn [length]; lia|].
        apply (small_sub ((if b then [110] else []) ++ [58]) e []). now rewrite app_nil_r, <- app_assoc.
      + rewrite (range_head_intro T n _ _ b true rest) by (rewrite HS, <- app_assoc; reflexivity). f_equal. f_equal. rewrite app_length. destruct b; reflexivity.
    - intros debug T n sp rest HB HS (b & e & ER & HE) HVal _.
      assert (EQ : (if debug then set_debug (range_of F (as_specs false bs)) (f_new (range_of F (as_specs false bs))) true else f_new (range_of F (as_specs false bs))) = (as_specs false bs, f_new F)) by (now destruct debug).
      rewrite EQ. cbn [range_of f_parse]. rewrite range_of_peek.
      assert (P : exists m, parse_range_of F (as_specs false bs, f_new F) (mk_reader T n) = (Ok (as_specs b bs, m), mk_reader T (n + length sp)) /\
        forall a, p_value c a -> exists out o, p_does c (no_spec e) (element_spec e) a out o /\ (o = Ok tt \/ exists e, o = Err e) /\ acts (fun K vt b => f_format F K vt m a b) out o).
      { rewrite range_of_peek. rewrite VT in HVal. assert (ER' := ER). rewrite ER in HS. destruct e as [e|].
        - rewrite (range_head_intro T n _ _ b false (e ++ rest)) in HVal by (rewrite HS, <- app_assoc; reflexivity).
          rewrite (range_peek_ok bs T n _ b false (e ++ rest)) by (rewrite HS, <- app_assoc; reflexivity). change (58 =? 125) with false. cbv iota.
          assert (HS1 : skipn (n + if b then 1 else 0) T = 58 :: e ++ rest). { rewrite <- skipn_skipn_nat, HS. now destruct b. }
          rewrite (pop_at _ _ _ _ HS1). replace (S (n + if b then 1 else 0)) with (n + if b then 2 else 1)%nat by (destruct b; lia).
          assert (HS2 : skipn (n + if b then 2 else 1) T = e ++ rest). { rewrite <- skipn_skipn_nat, HS. now destruct b. }
          assert (LE : (n + length sp = (n + if b then 2 else 1) + length e)%nat). { rewrite ER, app_length. destruct b; cbn [length]; lia. }
          rewrite LE in HVal. destruct (kp_format F c HK false T _ e rest HB HS2 HE HVal) as (m & HP & HF); [discriminate|]. rewrite HP. cbn [sbind]. exists m. rewrite LE. auto.
        - rewrite (range_peek_ok bs T n _ b true rest) by (rewrite HS, <- app_assoc; reflexivity). change (125 =? 125) with true. cbv iota.
          assert (HS1 : skipn (n + if b then 1 else 0) T = [125] ++ rest). { rewrite <- skipn_skipn_nat, HS. now destruct b. }
          assert (X := kp_complete F c HK T _ [125] rest HB HS1 HR brace_small).
          destruct (kp_format F c HK true T _ [125] rest HB HS1 HR X) as (m & HP & HF); [reflexivity|]. rewrite HP. cbn [sbind]. exists m. split; [|exact HF].
          rewrite ER, app_length. f_equal. f_equal. destruct b; cbn [length]; lia. }
      destruct P as (m & HP & HF). rewrite range_of_peek in HP. rewrite HP. exists (as_specs b bs, m). split; [reflexivity|]. intros vs HVs. exact (range_acts bs debug sp b e m vs ER HF HVs).
  Qed.

  Theorem optional_keeps : keeps_promise (optional_of F) (optional_promise c).
  Proof.
    split; cbn [optional_promise p_reads p_value p_does].
    - apply (kp_closed F c HK).
    - exact (kp_sound F c HK).
    - exact (kp_complete F c HK).
    - intros debug T n sp rest HB HS HR HVal _. change (validate_trait_of (optional_of F)) with (validate_trait_of F) in HVal.
      destruct (kp_format F c HK false T n sp rest HB HS HR HVal) as (m & HP & HF); [discriminate|]. exists m.
      split; [destruct debug; exact HP|]. intros [a|] HA; cbn [optional_of f_format].
      + destruct (HF a HA) as (out & o & HD & HO & HAc). exists (str "optional(" ++ out ++ match o with Ok _ => str ")" | _ => [] end), o.
        split; [eauto|]. split; [exact HO|].
        apply (acts_bind (fun K vt b => write_str vt b _) (fun K vt b => sdo (_, b) <- _ ;; write_char vt b _)); [apply acts_str|].
        destruct HO as [-> |(e & ->)].
        * apply (acts_bind _ (fun K vt b => write_char vt b _)); [exact HAc|apply acts_char].
        * rewrite app_nil_r. apply (acts_err _ (fun K vt b => write_char vt b _)). exact HAc.
      + exists (str "none"), (Ok tt). split; [auto|]. split; [now left|]. apply acts_str.
  Qed.

  Theorem derived_keeps {B} (f : B -> A) : keeps_promise (derived_of F f) (derived_promise f c).
  Proof.
    split; cbn [derived_promise p_reads p_value p_does].
    - apply (kp_closed F c HK).
    - exact (kp_sound F c HK).
    - exact (kp_complete F c HK).
    - intros debug T n sp rest HB HS HR HVal HD. destruct (kp_format F c HK debug T n sp rest HB HS HR HVal HD) as (m & HP & HF). exists m.
      split; [exact HP|]. intros a HA. exact (HF (f a) HA).
  Qed.

  Theorem argument_keeps a : p_value c a -> keeps (as_user F a) (promise_for c a).
  Proof.
    intros HA. split; cbn [promise_for c_reads c_does].
    - apply (kp_closed F c HK).
    - exact (kp_sound F c HK).
    - exact (kp_complete F c HK).
    - intros T n sp rest HB HS HR HVal. destruct (kp_format F c HK false T n sp rest HB HS HR HVal) as (m & HP & HF); [discriminate|].
      destruct (HF a HA) as (out & o & H). exists m, out, o. split; [exact HP|exact H].
  Qed.
End Range.

Lemma brace_reader T n sp rest : skipn n T = sp ++ rest -> [125] = sp -> match_rbrace (mk_reader T n) = (Ok tt, mk_reader T (n + length sp)).
Proof. intros HS <-. apply match_rbrace_ok. split; [eauto|reflexivity]. Qed.

Lemma brace_formats u c : keeps u c -> c_reads c [125] -> formats_at u c [125] 0 [125].
Proof.
  intros HK HRc. assert (HB1 : Forall is_byte [125]) by (constructor; [cbv; split; congruence|constructor]).
  assert (X := k_complete u c HK [125] 0 [125] [] HB1 eq_refl HRc brace_small). exact (keeps_formats u c [125] 0 [125] [] HK HB1 eq_refl HRc X).
Qed.

Theorem variant_keeps_at (alt : user -> contract -> Prop) : (forall u c, alt u c -> formats_at u c [125] 0 [125]) -> keeps_promise variant_of (variant_promise alt).
Proof.
  intros HA. split; cbn [variant_promise p_reads p_value p_does].
  - intros sp <-. exists []. auto.
  - intros T n _ HN. change (validate_trait_of variant_of) with match_rbrace.
    assert (S := settled_brace (mk_reader T n) (mk_reader T n) HN eq_refl). destruct (match_rbrace (mk_reader T n)) as [[[]|?| |] r] eqn:E; try exact S; [|exact Logic.I].
    apply match_rbrace_ok in E. destruct E as ((l & E) & ->). exists [125], l. auto.
  - intros T n sp rest _ HS HR _. exact (brace_reader T n sp rest HS HR).
  - intros debug T n sp rest HB HS HR _ _. exists tt. split; [destruct debug; exact (brace_reader T n sp rest HS HR)|].
    assert (W : forall (m : call) text, acts m text (Ok tt) -> acts (fun K vt b => sdo (_, b) <- write_str vt b (str "variant(") ;; sdo (_, b) <- m K vt b ;; write_char vt b 41) (str "variant(" ++ text ++ str ")") (Ok tt)).
    { intros m text H. apply (acts_bind (fun K vt b => write_str vt b _) (fun K vt b => sdo (_, b) <- m K vt b ;; write_char vt b _)); [apply acts_str|].
      apply (acts_bind m (fun K vt b => write_char vt b _)); [exact H|apply acts_char]. }
    intros [|c|s|u] HV; cbn [variant_of f_format].
    + exists (str "variant(" ++ str "valueless by exception" ++ str ")"), (Ok tt). split; [auto|]. split; [now left|]. apply (W (fun K vt b => write_str vt b _)). apply acts_str.
    + exists (str "variant(" ++ ([39] ++ escape c ++ [39]) ++ str ")"), (Ok tt). split; [auto|]. split; [now left|]. apply (W (fun K vt b => write_char_escaped vt b _)). now apply acts_char_escaped.
    + exists (str "variant(" ++ ([34] ++ escape_text s ++ [34]) ++ str ")"), (Ok tt). split; [auto|]. split; [now left|]. apply (W (fun K vt b => write_str_escaped vt b _)). now apply acts_str_escaped.
    + destruct HV as (c & HC). destruct (HA u c HC) as (_ & m & out & o & HP & HD & HO & HAc).
      exists (str "variant(" ++ out ++ match o with Ok _ => str ")" | _ => [] end), o. split; [eauto|]. split; [exact HO|].
      change (reader_of (str "}")) with (mk_reader [125] 0). rewrite HP. destruct HO as [-> |(e & ->)].
      * now apply (W (fun K vt b => u_format u K vt m b)).
      * rewrite app_nil_r. apply (acts_bind (fun K vt b => write_str vt b _) (fun K vt b => sdo (_, b) <- u_format u K vt m b ;; write_char vt b _)); [apply acts_str|].
        now apply (acts_err (fun K vt b => u_format u K vt m b) (fun K vt b => write_char vt b _)).
Qed.

Theorem variant_keeps (alt : user -> contract -> Prop) : (forall u c, alt u c -> keeps u c /\ c_reads c [125]) -> keeps_promise variant_of (variant_promise alt).
Proof. intros HA. apply variant_keeps_at. intros u c H. destruct (HA u c H). now apply brace_formats. Qed.

(** ** The formatters of the library *)
Lemma lib_start t (debug : bool) r : f_parse (lib t) (if debug then set_debug (lib t) (new_formatter t) true else new_formatter t) r =
  parse_with (if debug then Some true else None) (new_formatter t) r.
Proof. destruct debug; [|reflexivity]. cbn [lib lib_from f_parse set_debug f_debug]. unfold set_debug. cbn [f_debug]. destruct (new_formatter t); reflexivity. Qed.

Theorem lib_keeps t : tuple_free t -> keeps_promise (lib t) (lib_promise t).
Proof.
  intros HT. split; cbn [lib_promise p_reads p_value p_does].
  - intros sp. apply field_spec_end.
  - intros T n HB HN. change (validate_trait_of (lib t) (mk_reader T n)) with (validate_fty t (mk_reader T n)).
    assert (S := validate_fty_total t (mk_reader T n) (mk_reader T n) HN eq_refl). destruct (validate_fty t (mk_reader T n)) as [[[]|?| |] r] eqn:E; try exact S; [|exact Logic.I].
    destruct (validate_fty_sound t T n r HB (or_introl HT) E) as (sp & rest & H1 & H2 & H3 & _). eauto.
  - intros T n sp rest HB HS HF HSm. exact (validate_fty_complete t T n sp rest HB (or_introl HT) HS HF HSm).
  - intros debug T n sp rest HB HS HF HV HD. change (validate_trait_of (lib t) (mk_reader T n)) with (validate_fty t (mk_reader T n)) in HV.
    destruct (validate_fty_sound t T n _ HB (or_introl HT) HV) as (sp' & rest' & H3 & H4 & H5 & H6). injection H5 as H5. assert (LE : length sp = length sp') by lia.
    assert (sp' = sp) as -> by (symmetry; eapply same_spec; eauto).
    destruct (H6 (if debug then Some true else None) (default_brackets t)) as (m & HPW & HFm); [destruct debug; [auto|discriminate]|].
    exists m. split; [rewrite fresh_default in HPW; etransitivity; [exact (lib_start t debug _)|exact HPW]|]. intros x HX. cbn [lib lib_from f_format].
    assert (HFm' : fmtr_for debug (default_brackets t) t sp m) by (destruct debug; exact HFm).
    set (st := mk_style debug spec_not_defined spec_not_defined (default_brackets t)).
    assert (HW : attempt False (fun K vt b => format_fval vt m x b) (shows st t sp x) (octal_spec sp \/ octal_in x)).
    { assert (X := all_values_write False x st t sp m (fun f : False => match f with end) HX (dyn_ok_none _ _ _) HFm'). eapply attempt_ext; [|exact X]. intros K vt b. cbn [st st_width st_precision]. now rewrite overwrite_nothing. }
    destruct HW as [(ops & HW & HQ & _)|(HO & ops & HW & _)].
    + exists (ops_data ops), (Ok tt). split; [left; auto|]. split; [now left|]. exists ops. split; [reflexivity|exact HW].
    + exists (ops_data ops), (Err invalid_format). split; [right; auto|]. split; [eauto|]. exists ops. split; [reflexivity|exact HW].
Qed.

(** Ranges and optionals of such elements are the formatters of Format.v. *)
Lemma format_lib_elements K (vt : vtable K) t m0 first sep m vs b :
  format_range_elements (lib_from t m0) vt first sep m vs b = format_elements vt (format_fval vt) first sep m vs b.
Proof.
  revert first b. induction vs as [|v vs IH]; intros first b; [reflexivity|]. cbn [format_range_elements format_elements].
  destruct (if first then (Ok tt, b) else write_str vt b sep) as [[[]|?| |] b1]; try reflexivity. cbn [sbind lib_from f_format].
  destruct (format_fval vt m v b1) as [[[]|?| |] b2]; try reflexivity. cbn [sbind]. apply IH.
Qed.
Lemma parse_debug t m0 m r : f_parse (lib_from t m0) (set_debug (lib_from t m0) m true) r = parse_with (Some true) m r.
Proof. destruct m; reflexivity. Qed.
