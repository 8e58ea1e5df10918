(** Proofs about FloatArg.v: the digits that are written and the writes of a
    floating-point argument. *)
From Verif Require Import Base Conversion Buffer Writer Specs FormatArg Dragon FloatArg Lib SpecNum SpecFloat SpecFormat.
From Verif Require Import ConversionProofs BufferProofs Emits WriterProofs CallProofs FormatArgProofs FloatArgProofs DragonProofs ExactProofs ReadBack.

(** ** Trailing zeros *)
Lemma leading_zeros_split d :
  exists rest, d = repeat 48 (leading_zeros d) ++ rest /\ (rest = [] \/ hd 48 rest <> 48).
Proof.
  induction d as [|c d [rest [IH H]]]; [now exists []; cbn; auto|].
  change (leading_zeros (c :: d)) with (if c =? 48 then S (leading_zeros d) else O). destruct (c =? 48) eqn:E.
  - exists rest. cbn [repeat app]. split; [|exact H]. rewrite <- IH. f_equal. lia.
  - exists (c :: d). split; [reflexivity|]. right. cbn [hd]. lia.
Qed.

Definition first_ok (ds : list Z) : Prop := ds = [48] \/ (ds <> [] /\ hd 48 ds <> 48).

Lemma significant_spec general ds : first_ok ds ->
  let sig := significant general ds in
  first_ok sig /\ ds = sig ++ repeat 48 (length ds - length sig) /\ (sig = [48] <-> ds = [48]) /\
  (general = true -> sig = [48] \/ last sig 48 <> 48) /\ (general = false -> sig = ds).
Proof.
  intros HF sig. unfold sig, significant. clear sig.
  destruct general; cbn [andb]; [|rewrite Nat.sub_diag, app_nil_r; repeat (split; [try tauto|]); try tauto; discriminate].
  destruct (1 <? length ds)%nat eqn:L.
  2:{ rewrite Nat.sub_diag, app_nil_r. repeat (split; [try tauto|]); [|discriminate]. intros _.
      destruct HF as [->|[N H]]; [now left|]. destruct ds as [|c [|]]; [easy| |cbn in L; lia]. right. exact H. }
  destruct HF as [->|[N H]]; [cbn in L; discriminate|].
  destruct (leading_zeros_split (rev ds)) as [rest [E R]]. assert (E' := f_equal (@rev Z) E). rewrite rev_involutive, rev_app_distr in E'.
  assert (RR : rev (repeat 48 (leading_zeros (rev ds))) = repeat 48 (leading_zeros (rev ds))).
  { clear. induction (leading_zeros (rev ds)) as [|n IH]; [reflexivity|]. cbn [repeat rev]. rewrite IH. clear.
    induction n as [|n IH]; [reflexivity|]. cbn [repeat app]. now rewrite IH. }
  rewrite RR in E'. set (z := leading_zeros (rev ds)) in *.
  assert (LZ : length ds = (length rest + z)%nat) by (rewrite E' , app_length, rev_length, repeat_length; reflexivity).
  replace (length ds - z)%nat with (length (rev rest)) by (rewrite rev_length; lia).
  assert (FN : firstn (length (rev rest)) ds = rev rest) by (rewrite E', firstn_app, firstn_all, Nat.sub_diag; cbn [firstn]; apply app_nil_r).
  rewrite FN.
  assert (RN : rest <> []).
  { intros ->. cbn [rev app] in E'. rewrite E' in H. destruct z; [cbn in LZ; lia|]. cbn in H. lia. }
  assert (RV : rev rest <> []) by (intros X; apply (f_equal (@length Z)) in X; rewrite rev_length in X; destruct rest; [easy|discriminate X]).
  assert (HH : hd 48 (rev rest) = hd 48 ds) by (rewrite E'; destruct (rev rest); [easy|reflexivity]).
  split; [right; split; [exact RV|now rewrite HH]|].
  split; [rewrite rev_length; replace (length ds - length rest)%nat with z by lia; exact E'|].
  split; [split; [intros X; rewrite X in HH; cbn in HH; congruence|intros X; rewrite X in H; cbn in H; congruence]|].
  split; [|discriminate]. intros _. right. destruct R as [->|R]; [easy|]. destruct rest as [|c rest]; [easy|].
  cbn [rev]. rewrite last_last. exact R.
Qed.

(** ** The digits *)
Definition digits_ok (ds : list Z) (k : Z) : Prop :=
  all_digits ds /\ 1 <= zlen ds <= 40000 /\ -500 <= k <= 500 /\
  ((ds = [48] /\ k = 1) \/ 10 ^ (zlen ds - 1) <= digits_value ds).

Lemma digits_ok_first ds k : digits_ok ds k -> first_ok ds.
Proof.
  intros (A & L & _ & [[-> _]|F]); [now left|]. right.
  unfold zlen in *. destruct ds as [|c ds]; [cbn [length] in L; lia|]. split; [discriminate|]. cbn [hd].
  apply (digits_value_first c ds A). cbn [length] in F. replace (Z.of_nat (S (length ds)) - 1) with (Z.of_nat (length ds)) in F by lia. exact F.
Qed.

Lemma digits_ok_sig general ds k : digits_ok ds k -> (1 <= length (significant general ds))%nat.
Proof.
  intros H. apply digits_ok_first in H. destruct (significant_spec general ds H) as [[E|[E _]] _]; [rewrite E; cbn; lia|].
  destruct (significant general ds); [easy|cbn; lia].
Qed.

(** The presentation types. *)
Definition float_types : list Z := [0; 101; 69; 102; 70; 103; 71].
Definition precision_fits (s : format_specs) : Prop := -1 <= sp_precision s <= 32766.

Lemma wrap_i16 z : -32768 <= z <= 32767 -> wrap i16 z = z.
Proof. intros H. unfold wrap. cbn. change (2 ^ (16 - 1)) with 32768. change (2 ^ 16) with 65536. destruct (32768 <=? _) eqn:E; lia. Qed.

Lemma fp_fields s : In (sp_type s) float_types -> precision_fits s ->
  let fp := parse_fp_format_specs s in
  let t := sp_type s in
  let p := sp_precision s in
  fp_upper fp = (t =? 69) || (t =? 70) || (t =? 71) /\
  ((t = 101 \/ t = 69) -> let n := if p =? -1 then 6 else p in
     fp_fmt fp = fp_exp /\ fp_precision fp = n + 1 /\ fp_showpoint fp = sp_alternate_form s || negb (n =? 0)) /\
  ((t = 102 \/ t = 70) -> let n := if p =? -1 then 6 else p in
     fp_fmt fp = fp_fixed /\ fp_precision fp = n /\ fp_showpoint fp = sp_alternate_form s || negb (n =? 0)) /\
  ((t = 0 \/ t = 103 \/ t = 71) ->
     fp_fmt fp = fp_general /\ fp_showpoint fp = sp_alternate_form s /\
     fp_precision fp = (if p =? -1 then (if t =? 0 then -1 else 6) else Z.max 1 p)).
Proof.
  intros HT HP fp t p. unfold precision_fits in HP. fold p in HP.
  assert (W : wrap i16 p = p) by (apply wrap_i16; lia).
  assert (W1 : wrap i16 (p + 1) = p + 1) by (apply wrap_i16; lia).
  unfold fp, parse_fp_format_specs. fold t p. rewrite W. cbv zeta. cbn [fp_upper fp_fmt fp_precision fp_showpoint].
  split; [reflexivity|].
  change no_type with 0. change no_precision with (-1).
  split; [|split].
  - intros H. assert (X : (t =? 101) || (t =? 69) = true) by lia. rewrite X. assert (X2 : (t =? 102) || (t =? 70) = false) by lia. rewrite X2.
    split; [reflexivity|]. assert (X3 : (t =? 0) = false) by lia. rewrite X3. cbn [negb orb andb].
    destruct (p =? -1) eqn:E.
    + assert (X4 : (0 <=? p) = false) by lia. rewrite X4. cbn [orb]. change (wrap i16 (6 + 1)) with 7. cbn. split; [reflexivity|]. f_equal. lia.
    + assert (X4 : (0 <=? p) = true) by lia. rewrite X4. cbn [orb]. rewrite W1. assert (X5 : (p + 1 =? 0) = false) by lia. rewrite X5. auto.
  - intros H. assert (X : (t =? 101) || (t =? 69) = false) by lia. rewrite X. assert (X2 : (t =? 102) || (t =? 70) = true) by lia. rewrite X2.
    split; [reflexivity|]. assert (X3 : (t =? 0) = false) by lia. rewrite X3. cbn [negb orb andb].
    destruct (p =? -1) eqn:E.
    + assert (X4 : (0 <=? p) = false) by lia. rewrite X4. cbn [orb]. split; [reflexivity|]. f_equal. lia.
    + assert (X4 : (0 <=? p) = true) by lia. rewrite X4. cbn [orb]. auto.
  - intros H. assert (X : (t =? 101) || (t =? 69) = false) by lia. rewrite X. assert (X2 : (t =? 102) || (t =? 70) = false) by lia. rewrite X2.
    assert (X3 : (t =? 97) || (t =? 65) = false) by lia. rewrite X3.
    split; [reflexivity|]. cbn [negb orb andb]. rewrite orb_false_r. split; [reflexivity|].
    destruct (p =? -1) eqn:E.
    + assert (X4 : (0 <=? p) = false) by lia. rewrite X4. cbn [orb]. destruct (t =? 0) eqn:E0; [|reflexivity].
      assert (X5 : (p =? 0) = false) by lia. rewrite X5. lia.
    + assert (X4 : (0 <=? p) = true) by lia. rewrite X4. cbn [orb]. destruct (p =? 0) eqn:E0; lia.
Qed.

Lemma fp_precision_range s : In (sp_type s) float_types -> precision_fits s -> -32768 <= fp_precision (parse_fp_format_specs s) <= 32767.
Proof.
  intros HT HP. destruct (fp_fields s HT HP) as (_ & F1 & F2 & F3). cbv zeta in *. unfold precision_fits in HP. unfold float_types in HT. cbn in HT.
  destruct (sp_precision s =? -1) eqn:E.
  - assert (C : (sp_type s = 101 \/ sp_type s = 69) \/ (sp_type s = 102 \/ sp_type s = 70) \/ (sp_type s = 0 \/ sp_type s = 103 \/ sp_type s = 71)) by lia.
    destruct C as [C|[C|C]]; [destruct (F1 C) as (_ & -> & _)|destruct (F2 C) as (_ & -> & _)|destruct (F3 C) as (_ & _ & ->)]; try lia.
    destruct (sp_type s =? 0); lia.
  - assert (C : (sp_type s = 101 \/ sp_type s = 69) \/ (sp_type s = 102 \/ sp_type s = 70) \/ (sp_type s = 0 \/ sp_type s = 103 \/ sp_type s = 71)) by lia.
    destruct C as [C|[C|C]]; [destruct (F1 C) as (_ & -> & _)|destruct (F2 C) as (_ & -> & _)|destruct (F3 C) as (_ & _ & ->)]; lia.
Qed.

(** The decimal digits for each specification. *)
Definition float_digits (s : format_specs) (bits : Z) : outcome fp_result := format_decimal (parse_fp_format_specs s) (decode bits).

Lemma decode_zero bits : is_finite_double bits -> double_m bits = 0 -> d_category (decode bits) = cat_zero.
Proof. intros HF HM. destruct (decode_ok bits (proj1 HF)) as (_ & H & _). now apply H. Qed.
Lemma decode_finite bits : is_finite_double bits -> double_m bits <> 0 -> d_category (decode bits) = cat_finite.
Proof. intros HF HM. destruct (decode_ok bits (proj1 HF)) as (_ & _ & H & _). now apply H. Qed.

Lemma float_digits_zero s bits : is_finite_double bits -> double_m bits = 0 -> float_digits s bits = Ok ([48], 1).
Proof. intros HF HM. unfold float_digits, format_decimal. now rewrite (decode_zero bits HF HM). Qed.

Lemma zero_digits_ok : digits_ok [48] 1.
Proof. split; [apply Forall_cons; [lia|apply Forall_nil]|]. unfold zlen. cbn [length]. split; [lia|]. split; [lia|auto]. Qed.

Theorem float_digits_ok s bits : is_finite_double bits -> In (sp_type s) float_types -> precision_fits s ->
  exists ds k, float_digits s bits = Ok (ds, k) /\ digits_ok ds k.
Proof.
  intros HF HT HP. destruct (Z.eq_dec (double_m bits) 0) as [HM|HM].
  { exists [48], 1. split; [now apply float_digits_zero|apply zero_digits_ok]. }
  assert (PR := fp_precision_range s HT HP).
  unfold float_digits, format_decimal. rewrite (decode_finite bits HF HM).
  destruct (fp_fields s HT HP) as (_ & F1 & F2 & F3). cbv zeta in *. unfold precision_fits in HP. unfold float_types in HT. cbn in HT.
  assert (SG : forall N, 1 <= N <= 32767 -> exists ds k, format_exact (d_finite (decode bits)) mode_significand N = Ok (ds, k) /\ digits_ok ds k).
  { intros N HN. destruct (significand_double bits N HF HM ltac:(lia)) as (ds & k & k1 & E & A & L & F & K & _).
    exists ds, k. split; [exact E|]. split; [exact A|]. unfold zlen. split; [lia|]. split; [lia|]. right. rewrite L. exact F. }
  assert (C : (sp_type s = 101 \/ sp_type s = 69) \/ (sp_type s = 102 \/ sp_type s = 70) \/ (sp_type s = 0 \/ sp_type s = 103 \/ sp_type s = 71)) by lia.
  destruct C as [C|[C|C]].
  - destruct (F1 C) as (-> & E & _). apply SG. rewrite E in PR |- *. destruct (sp_precision s =? -1) eqn:EP; lia.
  - destruct (F2 C) as (-> & E & _). set (N := fp_precision _) in *. assert (HN : 0 <= N) by (rewrite E; destruct (sp_precision s =? -1) eqn:EP; lia).
    destruct (decimal_double bits N HF HM HN) as (ds & k & ED & A & K & H). rewrite ED. cbn [bind fst].
    destruct ds as [|c ds]; [exists [48], 1; split; [reflexivity|apply zero_digits_ok]|].
    cbn [length Nat.eqb]. exists (c :: ds), k. split; [reflexivity|]. cbv zeta in H. destruct H as (F & _ & X). 
    split; [exact A|]. unfold zlen. split; [cbn [length] in *; lia|]. split; [lia|]. right. exact F.
  - destruct (F3 C) as (-> & _ & E). change no_precision with (-1). destruct (fp_precision _ =? -1) eqn:EP.
    + destruct (shortest_double bits HF HM) as (ds & k & ES & A & L & K & F & _).
      exists ds, k. split; [exact ES|]. split; [exact A|]. unfold zlen. split; [lia|]. split; [lia|]. now right.
    + apply SG. destruct (sp_precision s =? -1) eqn:E1; [destruct (sp_type s =? 0); lia|lia].
Qed.

(** ** The writes *)
Definition nonfinite_specs (s : format_specs) : format_specs := if sp_zero_flag s then set_zero (set_fill s 32) false else s.
Definition nonfinite_text (upper inf : bool) : list Z :=
  if inf then (if upper then str "INF" else str "inf") else if upper then str "NAN" else str "nan".
Definition double_ops (s : format_specs) (bits : Z) : list op :=
  let fp := parse_fp_format_specs s in
  match d_category (decode bits) with
  | cat_infinity | cat_nan =>
    let s := nonfinite_specs s in
    let sg := sign_text s (bits_negative bits) in
    pad_ops s align_left (length sg + 3)
      (map (fun c => Atom [c]) sg ++
       [Chunk (nonfinite_text (fp_upper fp) (match d_category (decode bits) with cat_infinity => true | _ => false end))])
  | _ =>
    match float_digits s bits with
    | Ok r => number_ops s (bits_negative bits) [] (fp_body fp (sp_alternate_form s) r)
    | _ => []
    end
  end.

Section D.
  Context {K : Type} (vt : vtable K) (R : list Z -> bst K -> Prop) (cap amax room : option nat).
  Hypothesis HL : lawful vt R cap amax room.
  Let HK : chunky vt R cap room := lawful_chunky vt R cap amax room HL.

  Notation emits := (emits R cap amax room).

  Lemma write_arg_double_emits s bits : is_double bits -> In (sp_type s) float_types -> precision_fits s -> 0 <= sp_width s < 2 ^ 31 ->
    emits (fun b => write_arg_double vt b s bits) (double_ops s bits) (Ok tt).
  Proof.
    intros HD HT HP Hw. unfold write_arg_double, format_and_write_decimal, double_ops. cbv zeta.
    destruct (decode_ok bits HD) as (HN & HZ & HFin & _). rewrite HN.
    assert (FC : (d_category (decode bits) = cat_zero \/ d_category (decode bits) = cat_finite) ->
      emits (fun b => match float_digits s bits with
                      | Ok r => fp_write_decimal vt b s (parse_fp_format_specs s) (bits_negative bits) r
                      | Err e => (Err e, b) | Undef => (Undef, b) | Abort => (Abort, b) end)
            (match float_digits s bits with
             | Ok r => number_ops s (bits_negative bits) [] (fp_body (parse_fp_format_specs s) (sp_alternate_form s) r)
             | _ => [] end) (Ok tt)).
    { intros H. assert (HF : is_finite_double bits) by (destruct H as [H|H]; [apply HZ in H|apply HFin in H]; tauto).
      destruct (float_digits_ok s bits HF HT HP) as (ds & k & -> & OK). 
      apply (fp_write_decimal_emits vt R cap amax room HL); [exact Hw|exact (digits_ok_sig _ _ _ OK)|apply OK|apply OK|now apply fp_precision_range]. }
    assert (NF : forall inf, 
      emits (fun b => let s' := nonfinite_specs s in
        sdo (sign, b) <- try_write_sign vt b s' (bits_negative bits) ;;
        let has_sign := negb (sign =? no_sign) in
        write_padded vt align_left b s' (3 + if has_sign then 1 else 0) (fun b =>
          sdo (_, b) <- (if has_sign then write_char vt b sign else (Ok tt, b)) ;;
          write_non_finite vt b (fp_upper (parse_fp_format_specs s)) inf))
       (let s' := nonfinite_specs s in
        let sg := sign_text s' (bits_negative bits) in
        pad_ops s' align_left (length sg + 3)
          (map (fun c => Atom [c]) sg ++ [Chunk (nonfinite_text (fp_upper (parse_fp_format_specs s)) inf)])) (Ok tt)).
    { intros inf. cbv zeta. set (s' := nonfinite_specs s).
      assert (ZF : sp_zero_flag s' = false) by (unfold s', nonfinite_specs; destruct (sp_zero_flag s) eqn:E; [reflexivity|exact E]).
      assert (W' : sp_width s' = sp_width s) by (unfold s', nonfinite_specs; destruct (sp_zero_flag s); reflexivity).
      assert (FU : fp_upper (parse_fp_format_specs s') = fp_upper (parse_fp_format_specs s)) by (unfold s', nonfinite_specs; destruct (sp_zero_flag s); reflexivity).
      rewrite <- FU. clearbody s'. clear FU.
      assert (P := try_write_sign_emits vt R cap amax room HL s' (bits_negative bits)). rewrite ZF in P. unfold sign_ops in P. rewrite ZF in P.
      rewrite <- (app_nil_l (pad_ops _ _ _ _)). eapply emits_bind; [exact P|]. clear P. cbv beta zeta.
      assert (WN : emits (fun b => write_non_finite vt b (fp_upper (parse_fp_format_specs s')) inf) [Chunk (nonfinite_text (fp_upper (parse_fp_format_specs s')) inf)] (Ok tt))
        by apply (write_str_emits vt R cap amax room HK).
      destruct (sign_text_cases s' (bits_negative bits)) as [E|[E N]].
      - unfold sign_char. rewrite E. cbn [hd length map app]. change (negb (0 =? no_sign)) with false. cbv iota.
        apply (write_padded_emits vt R cap amax room HL); [discriminate|lia|vm_compute; reflexivity|].
        rewrite <- (app_nil_l [_]). eapply emits_bind; [apply emits_ret|exact WN].
      - rewrite E. cbn [length map app]. replace (negb (sign_char s' (bits_negative bits) =? no_sign)) with true by (change no_sign with 0; lia).
        change (3 + 1)%nat with 4%nat. change (1 + 3)%nat with 4%nat.
        apply (write_padded_emits vt R cap amax room HL); [discriminate|lia|vm_compute; reflexivity|].
        change ([Atom [sign_char s' (bits_negative bits)]; Chunk (nonfinite_text (fp_upper (parse_fp_format_specs s')) inf)])
          with ([Atom [sign_char s' (bits_negative bits)]] ++ [Chunk (nonfinite_text (fp_upper (parse_fp_format_specs s')) inf)]).
        eapply emits_bind; [apply (write_char_emits vt R cap amax room HL)|exact WN]. }
    unfold float_digits in FC. destruct (d_category (decode bits)) eqn:EC.
    all: try (apply FC; auto).
    all: try exact (NF true). all: exact (NF false).
  Qed.
End D.
