(** Proofs about FloatArg.v: the text of floating-point numbers meets SpecDecimal.v. *)
From Verif Require Import Base Conversion Buffer Writer Specs FormatArg Dragon FloatArg Lib SpecNum SpecFloat SpecFormat SpecDecimal.
From Verif Require Import ConversionProofs FormatArgProofs FloatArgProofs DragonProofs ExactProofs ReadBack DoubleProofs DecimalProofs.

Lemma zlen_app a b : zlen (a ++ b) = zlen a + zlen b.
Proof. unfold zlen. rewrite app_length. lia. Qed.
Lemma zlen_zeros n : zlen (zeros n) = Z.max 0 n.
Proof. unfold zlen, zeros. rewrite repeat_length. lia. Qed.
Lemma zlen_nonneg l : 0 <= zlen l.
Proof. unfold zlen. lia. Qed.
Lemma zlen_0 l : zlen l = 0 -> l = [].
Proof. unfold zlen. destruct l; [reflexivity|cbn [length]; lia]. Qed.
Lemma zlen_pos l : 1 <= zlen l -> l <> [].
Proof. intros H ->. change (zlen []) with 0 in H. lia. Qed.
Lemma zeros_app a b : 0 <= a -> 0 <= b -> zeros a ++ zeros b = zeros (a + b).
Proof. intros Ha Hb. unfold zeros. rewrite <- repeat_app. f_equal. lia. Qed.
Lemma zeros_nil n : n <= 0 -> zeros n = [].
Proof. intros H. unfold zeros. now replace (Z.to_nat n) with O by lia. Qed.
Lemma zeros_max n : zeros (Z.max 0 n) = zeros n.
Proof. unfold zeros. f_equal. lia. Qed.
Lemma all_digits_zeros n : all_digits (zeros n).
Proof. unfold zeros. induction (Z.to_nat n); cbn; constructor; auto. lia. Qed.
Lemma all_digits_app a b : all_digits a -> all_digits b -> all_digits (a ++ b).
Proof. intros. now apply Forall_app. Qed.
Lemma all_digits_firstn n l : all_digits l -> all_digits (firstn n l).
Proof. intros H. rewrite <- (firstn_skipn n l) in H. now apply Forall_app in H. Qed.
Lemma all_digits_skipn n l : all_digits l -> all_digits (skipn n l).
Proof. intros H. rewrite <- (firstn_skipn n l) in H. now apply Forall_app in H. Qed.

Lemma value_padded a sig z : 0 <= z -> digits_value (zeros a ++ sig ++ zeros z) = digits_value sig * 10 ^ z.
Proof.
  intros Hz. rewrite !digits_value_app. assert (V : forall n, digits_value (zeros n) = 0) by (intros; apply digits_value_zeros). rewrite !V.
  replace (Z.of_nat (length (zeros z))) with z by (fold (zlen (zeros z)); rewrite zlen_zeros; lia). lia.
Qed.

Lemma mantissa_point point i f (b : bool) : b = point || negb (length f =? 0)%nat ->
  mantissa_text point i f = i ++ (if b then [46] ++ f else []).
Proof. intros ->. reflexivity. Qed.
Lemma mantissa_nonempty point i f : f <> [] -> mantissa_text point i f = i ++ [46] ++ f.
Proof. intros H. unfold mantissa_text. destruct f; [easy|]. cbn [length Nat.eqb negb]. now rewrite orb_true_r. Qed.

Lemma exp_text_ok upper x : exponent_text upper x ([if upper then 69 else 101] ++ exp_text x).
Proof.
  exists (if Z.abs x <? 10 then 1%nat else 0%nat), (numeral 10 false (Z.abs x)).
  split; [apply numeral_canonical; lia|]. unfold exp_text. split.
  - destruct (x <? 0), (Z.abs x <? 10); reflexivity.
  - destruct (Z.abs x <? 10) eqn:E.
    + rewrite numeral_small by lia. reflexivity.
    + rewrite numeral_step by lia. rewrite app_length. cbn [length].
      assert (P := numeral_nonempty 10 false (Z.abs x / 10) ltac:(lia) ltac:(lia)). lia.
Qed.

(** ** Scientific notation *)
Lemma exp_body_text fp alt sig x : first_ok sig -> all_digits sig ->
  let z := if fp_showpoint fp then Z.max 0 (fp_precision fp - zlen sig) else 0 in
  fp_showpoint fp || (1 <? zlen sig) = alt || (1 <? zlen sig + z) ->
  exists i f, decimal_text alt (fp_upper fp) (Some x) i f (exp_body fp sig x) /\ i ++ f = sig ++ zeros z /\
    zlen f = zlen sig + z - 1.
Proof.
  intros HF HA z HP. destruct sig as [|c sig]; [exfalso; destruct HF as [H|[H _]]; [discriminate H|now apply H]|].
  assert (HZ : 0 <= z) by (unfold z; destruct (fp_showpoint fp); lia).
  exists [c], (sig ++ zeros z). inversion HA as [|? ? Hc HA']; subst.
  split; [|split; [reflexivity|unfold zlen at 2; rewrite zlen_app, zlen_zeros; unfold zlen; cbn [length]; lia]].
  split; [split; [now constructor|split; [discriminate|]]|split; [apply all_digits_app; [exact HA'|apply all_digits_zeros]|]].
  { destruct HF as [H|[_ H]]; [left; congruence|right; exact H]. }
  split; [reflexivity|]. exists ([if fp_upper fp then 69 else 101] ++ exp_text x). split; [apply exp_text_ok|].
  unfold exp_body. cbn [firstn skipn]. unfold mantissa_text.
  assert (EP : alt || negb (length (sig ++ zeros z) =? 0)%nat = fp_showpoint fp || (1 <? length (c :: sig))%nat).
  { replace (1 <? length (c :: sig))%nat with (1 <? zlen (c :: sig)) by (unfold zlen; lia). rewrite HP. f_equal.
    replace (zlen (c :: sig) + z) with (1 + zlen (sig ++ zeros z)) by (rewrite zlen_app, zlen_zeros; unfold zlen; cbn [length]; lia). unfold zlen. lia. }
  rewrite EP. rewrite <- !app_assoc. f_equal.
  assert (EZ : (if fp_showpoint fp then zeros (fp_precision fp - zlen (c :: sig)) else []) = zeros z).
  { unfold z. destruct (fp_showpoint fp); [now rewrite zeros_max|reflexivity]. }
  rewrite EZ. assert (EZ0 : fp_showpoint fp = false -> z = 0) by (unfold z; now intros ->). clearbody z.
  destruct (fp_showpoint fp || (1 <? length (c :: sig))%nat) eqn:ES; [rewrite <- !app_assoc; reflexivity|].
  cbn [app]. rewrite EZ0; [reflexivity|]. now apply orb_false_iff in ES.
Qed.

(** ** Fixed notation *)
Definition fixed_zeros (fp : fp_format_specs) (alt : bool) (n x : Z) : Z :=
  let keep := alt && fp_is_general fp in
  let p := fp_precision fp in
  if x <? 0 then (if keep then Z.max 0 (p - n) else 0)
  else if n <=? x + 1 then
    x + 1 - n + (if fp_showpoint fp then (if keep then Z.max 0 (p - (x + 1)) else if x + 1 =? n then Z.max 0 p else 0) else 0)
  else if fp_is_fixed fp && (n - (x + 1) <? p) then p - (n - (x + 1)) else if keep then Z.max 0 (p - n) else 0.

Lemma fixed_zeros_nonneg fp alt n x : 0 <= fixed_zeros fp alt n x.
Proof.
  unfold fixed_zeros. destruct (x <? 0); [destruct (alt && _); lia|]. destruct (n <=? x + 1) eqn:E.
  - destruct (fp_showpoint fp); [destruct (alt && _); [lia|destruct (x + 1 =? n); lia]|lia].
  - destruct (fp_is_fixed fp && _) eqn:EF; [|destruct (alt && _); lia]. apply andb_true_iff in EF. lia.
Qed.

Lemma fixed_body_text fp alt sig x : first_ok sig -> all_digits sig -> (sig = [48] -> x = 0) ->
  let z := fixed_zeros fp alt (zlen sig) x in
  (0 <= x -> zlen sig <= x + 1 -> fp_showpoint fp = alt || negb (zlen sig + z - (x + 1) =? 0)) ->
  exists i f a, decimal_text alt (fp_upper fp) None i f (fixed_body fp alt sig x) /\ i ++ f = zeros a ++ sig ++ zeros z /\
    zlen f = zlen sig + z - (x + 1).
Proof.
  intros HF HA HX z HP. assert (HZ : 0 <= z) by apply fixed_zeros_nonneg.
  assert (HN : 1 <= zlen sig) by (destruct HF as [->|[N _]]; [unfold zlen; cbn; lia|destruct sig; [easy|unfold zlen; cbn [length]; lia]]).
  unfold fixed_body. destruct (x <? 0) eqn:EX.
  - exists [48], (zeros (- x - 1) ++ sig ++ zeros z), (1 + (- x - 1)).
    assert (EZ : (if alt && fp_is_general fp then zeros (fp_precision fp - zlen sig) else []) = zeros z).
    { unfold z, fixed_zeros. rewrite EX. destruct (alt && _); [now rewrite zeros_max|reflexivity]. }
    rewrite EZ. split; [|split].
    + split; [split; [repeat constructor; lia|split; [discriminate|now left]]|].
      split; [repeat apply all_digits_app; try apply all_digits_zeros; exact HA|].
      rewrite mantissa_nonempty; [reflexivity|]. intros N. apply (f_equal zlen) in N. rewrite !zlen_app, !zlen_zeros in N. change (zlen []) with 0 in N. lia.
    + rewrite <- (zeros_app 1 (- x - 1)) by lia. rewrite <- app_assoc. reflexivity.
    + rewrite !zlen_app, !zlen_zeros. lia.
  - destruct (zlen sig <=? x + 1) eqn:EN.
    + set (w := if fp_showpoint fp then (if alt && fp_is_general fp then Z.max 0 (fp_precision fp - (x + 1)) else if x + 1 =? zlen sig then Z.max 0 (fp_precision fp) else 0) else 0).
      assert (EZ : z = x + 1 - zlen sig + w) by (unfold z, fixed_zeros; rewrite EX, EN; reflexivity).
      assert (HW : 0 <= w) by (unfold w; destruct (fp_showpoint fp); [destruct (alt && _); [lia|destruct (x + 1 =? zlen sig); lia]|lia]).
      exists (sig ++ zeros (x + 1 - zlen sig)), (zeros w), 0. split; [|split].
      * split; [|split; [apply all_digits_zeros|]].
        -- split; [apply all_digits_app; [exact HA|apply all_digits_zeros]|]. split; [apply zlen_pos in HN; destruct sig; [easy|discriminate]|].
           destruct HF as [->|[N H]]; [left; rewrite (HX eq_refl); reflexivity|right]. destruct sig; [easy|exact H].
        -- unfold mantissa_text. rewrite <- !app_assoc. f_equal. f_equal.
           assert (EP : alt || negb (length (zeros w) =? 0)%nat = fp_showpoint fp).
           { rewrite (HP ltac:(lia) ltac:(lia)). f_equal. replace (zlen sig + z - (x + 1)) with (zlen (zeros w)) by (rewrite zlen_zeros; lia). unfold zlen. lia. }
           rewrite EP. unfold w. destruct (fp_showpoint fp); [|reflexivity]. f_equal.
           destruct (alt && _); [now rewrite zeros_max|]. destruct (x + 1 =? zlen sig); [now rewrite zeros_max|reflexivity].
      * change (zeros 0) with (@nil Z). cbn [app]. rewrite <- app_assoc, zeros_app by lia. now rewrite EZ.
      * rewrite zlen_zeros. lia.
    + assert (EZ : (if fp_is_fixed fp && (zlen sig - (x + 1) <? fp_precision fp) then zeros (fp_precision fp - (zlen sig - (x + 1)))
         else if alt && fp_is_general fp then zeros (fp_precision fp - zlen sig) else []) = zeros z).
      { unfold z, fixed_zeros. rewrite EX, EN. destruct (fp_is_fixed fp && _); [reflexivity|]. destruct (alt && _); [now rewrite zeros_max|reflexivity]. }
      rewrite EZ. set (n := Z.to_nat (x + 1)). exists (firstn n sig), (skipn n sig ++ zeros z), 0.
      assert (LS : zlen (skipn n sig) = zlen sig - (x + 1)) by (unfold zlen, n in *; rewrite skipn_length; lia).
      split; [|split].
      * split; [|split; [apply all_digits_app; [now apply all_digits_skipn|apply all_digits_zeros]|]].
        -- split; [now apply all_digits_firstn|]. assert (E1 : exists m, n = S m) by (exists (Nat.pred n); unfold n; lia).
           destruct E1 as [m ->]. destruct sig as [|c sig]; [now apply zlen_pos in HN|]. split; [discriminate|].
           destruct HF as [H|[N H]]; [|right; exact H]. exfalso. specialize (HX H). rewrite H in EN. change (zlen [48]) with 1 in EN. lia.
        -- rewrite mantissa_nonempty; [reflexivity|]. intros N. apply (f_equal zlen) in N. rewrite zlen_app, zlen_zeros, LS in N. change (zlen []) with 0 in N. lia.
      * change (zeros 0) with (@nil Z). cbn [app]. now rewrite app_assoc, firstn_skipn.
      * rewrite zlen_app, zlen_zeros, LS. lia.
Qed.

(** ** From digits to the text *)
Lemma sig_facts general ds k : digits_ok ds k ->
  let sig := significant general ds in
  first_ok sig /\ all_digits sig /\ 1 <= zlen sig <= zlen ds /\
  digits_value ds = digits_value sig * 10 ^ (zlen ds - zlen sig) /\
  (sig = [48] -> k = 1 /\ ds = [48]) /\ (sig <> [48] -> 10 ^ (zlen sig - 1) <= digits_value sig < 10 ^ zlen sig) /\
  (general = true -> sig = [48] \/ last sig 48 <> 48) /\ (general = false -> sig = ds).
Proof.
  intros OK sig. assert (F := digits_ok_first ds k OK). destruct (significant_spec general ds F) as (F' & E & Z0 & T & G). fold sig in F', E, Z0, T, G.
  destruct OK as (A & L & K & V).
  assert (A' : all_digits sig) by (rewrite E in A; now apply Forall_app in A).
  assert (L1 : 1 <= zlen sig) by (assert (X := digits_ok_sig general ds k (conj A (conj L (conj K V)))); unfold zlen, sig; lia).
  assert (L2 : zlen sig <= zlen ds) by (unfold zlen; rewrite E, app_length; lia).
  assert (DV : digits_value ds = digits_value sig * 10 ^ (zlen ds - zlen sig)).
  { rewrite E at 1. rewrite digits_value_app, digits_value_zeros, repeat_length, Z.add_0_r. f_equal. f_equal. unfold zlen in *. lia. }
  repeat match goal with |- _ /\ _ => split end; try assumption; try lia.
  - intros S. assert (D := proj1 Z0 S). split; [|exact D]. destruct V as [[_ X]|X]; [exact X|]. exfalso. rewrite D in X. vm_compute in X. now apply X.
  - intros S. assert (D : ds <> [48]) by tauto. split.
    + destruct V as [[X _]|X]; [easy|]. rewrite DV in X.
      replace (zlen ds - 1) with ((zlen sig - 1) + (zlen ds - zlen sig)) in X by lia. rewrite Z.pow_add_r in X by lia.
      apply (Zmult_le_reg_r _ _ (10 ^ (zlen ds - zlen sig))); [|exact X]. assert (0 < 10 ^ (zlen ds - zlen sig)) by (apply Z.pow_pos_nonneg; lia). lia.
    + apply (digits_value_bound sig A').
Qed.

Lemma text_facts general ds k i f a z sci : digits_ok ds k ->
  let sig := significant general ds in
  0 <= z -> i ++ f = zeros a ++ sig ++ zeros z -> text_scale sci f = zlen sig + z - k ->
  same_decimal (text_value i f) (text_scale sci f) (digits_value ds) (zlen ds - k) /\
  first_exponent (text_value i f) (text_scale sci f) (k - 1).
Proof.
  intros OK sig HZ E HQ. destruct (sig_facts general ds k OK) as (F & A & L & V & Z0 & NZ & _). fold sig in F, A, L, V, Z0, NZ.
  unfold text_value. rewrite E, value_padded, HQ by exact HZ. split.
  - rewrite (same_decimal_iff _ _ _ _ (zlen ds + z - k)) by lia. rewrite V, <- !Z.mul_assoc, <- !Z.pow_add_r by lia. f_equal. f_equal. lia.
  - unfold first_exponent. destruct (list_eq_dec Z.eq_dec sig [48]) as [S|S].
    + rewrite S. change (digits_value [48]) with 0. rewrite Z.mul_0_l. destruct (Z0 S) as [-> _]. reflexivity.
    + specialize (NZ S). assert (P0 : 0 < 10 ^ (zlen sig - 1)) by (apply Z.pow_pos_nonneg; lia). assert (P1 : 0 < 10 ^ z) by (apply Z.pow_pos_nonneg; lia).
      replace (_ =? 0) with false by (symmetry; apply Z.eqb_neq; nia).
      replace (k - 1 + (zlen sig + z - k)) with (zlen sig - 1 + z) by lia. unfold pos_pow.
      replace (Z.max (- _) 0) with 0 by lia. replace (Z.max (_ + z) 0) with (zlen sig - 1 + z) by lia. rewrite Z.mul_1_r, Z.pow_add_r by lia.
      replace (10 ^ zlen sig) with (10 * 10 ^ (zlen sig - 1)) in NZ by (rewrite <- Z.pow_succ_r by lia; f_equal; lia).
      split; [apply Z.mul_le_mono_nonneg_r; lia|]. rewrite Z.mul_assoc. apply Zmult_lt_compat_r; lia.
Qed.

(** ** The four presentations *)
Definition float_text (s : format_specs) (bits : Z) (body : list Z) : Prop :=
  exists r, float_digits s bits = Ok r /\ body = fp_body (parse_fp_format_specs s) (sp_alternate_form s) r.

Lemma digits_zero_value ds k : digits_ok ds k -> ds <> [48] -> 0 < digits_value ds.
Proof.
  intros (A & L & _ & [[X _]|V]) N; [easy|]. assert (0 < 10 ^ (zlen ds - 1)) by (apply Z.pow_pos_nonneg; lia). lia.
Qed.

(** e and E *)
Theorem exp_format s bits : is_finite_double bits -> (sp_type s = 101 \/ sp_type s = 69) -> precision_fits s ->
  let N := if sp_precision s =? -1 then 6 else sp_precision s in
  exists body i f x, float_text s bits body /\
    decimal_text (sp_alternate_form s) (sp_type s =? 69) (Some x) i f body /\ zlen f = N /\
    first_exponent (text_value i f) (text_scale (Some x) f) x /\
    significant_rounding bits (N + 1) (text_value i f) (text_scale (Some x) f).
Proof.
  intros HF HT HP N. assert (HT' : In (sp_type s) float_types) by (cbn; lia).
  destruct (float_digits_ok s bits HF HT' HP) as (ds & k & E & OK).
  destruct (fp_fields s HT' HP) as (FU & F1 & _). cbv zeta in FU, F1. destruct (F1 HT) as (FF & FP & FS). fold N in FP, FS. clear F1.
  assert (HN : 0 <= N) by (unfold N; unfold precision_fits in HP; destruct (sp_precision s =? -1) eqn:G; lia).
  clearbody N. set (fp := parse_fp_format_specs s) in *.
  assert (EG : fp_is_general fp = false) by (unfold fp_is_general; now rewrite FF).
  assert (ED : zlen ds = N + 1 \/ ds = [48]).
  { destruct (Z.eq_dec (double_m bits) 0) as [HM|HM]; [right; rewrite (float_digits_zero s bits HF HM) in E; congruence|left].
    destruct (significand_double bits (N + 1) HF HM ltac:(lia)) as (ds' & k' & k1 & E' & _ & L & _).
    unfold float_digits, format_decimal in E. fold fp in E. rewrite (decode_finite bits HF HM), FF, FP, E' in E. unfold zlen. congruence. }
  destruct (sig_facts false ds k OK) as (S1 & S2 & S3 & _ & _ & _ & _ & SD). rewrite (SD eq_refl) in *. clear SD.
  assert (Z1 : zlen [48] = 1) by reflexivity.
  assert (EZ : (if fp_showpoint fp then Z.max 0 (fp_precision fp - zlen ds) else 0) = N + 1 - zlen ds).
  { rewrite FS, FP. destruct ED as [ED|ED]; [rewrite ED; destruct (sp_alternate_form s || negb (N =? 0)); lia|]. rewrite ED, Z1.
    destruct (N =? 0) eqn:G; [replace N with 0 by lia; destruct (sp_alternate_form s); reflexivity|]. cbn [negb]. rewrite orb_true_r. lia. }
  destruct (exp_body_text fp (sp_alternate_form s) ds (k - 1) S1 S2) as (i & f & D & EI & LF); [cbv zeta|].
  { rewrite EZ, FS. replace (1 <? zlen ds + (N + 1 - zlen ds)) with (negb (N =? 0)) by lia.
    destruct ED as [->| ->]; [|rewrite Z1; change (1 <? 1) with false; apply orb_false_r].
    replace (1 <? N + 1) with (negb (N =? 0)) by lia. destruct (sp_alternate_form s), (N =? 0); reflexivity. }
  cbv zeta in EI, LF. rewrite EZ in EI, LF.
  exists (fp_body fp (sp_alternate_form s) (ds, k)), i, f, (k - 1).
  assert (EB : fp_body fp (sp_alternate_form s) (ds, k) = exp_body fp ds (k - 1)).
  { unfold fp_body, fp_scientific. cbn [fst snd]. now rewrite FF, EG. }
  assert (TF := text_facts false ds k i f 0 (N + 1 - zlen ds) (Some (k - 1)) OK). cbv zeta in TF.
  unfold significant in TF. cbn [andb] in TF. destruct TF as [TS TE].
  { destruct ED as [->| ->]; lia. } { exact EI. } { unfold text_scale. fold (zlen f). lia. }
  split; [exists (ds, k); now split|]. rewrite EB.
  split. { rewrite FU in D. replace ((sp_type s =? 69) || _ || _) with (sp_type s =? 69) in D by lia. exact D. }
  split; [lia|]. split; [exact TE|].
  destruct (Z.eq_dec (double_m bits) 0) as [HM|HM].
  - left. split; [exact HM|]. rewrite (float_digits_zero s bits HF HM) in E. injection E as <- <-.
    unfold text_value. rewrite EI. assert (X := value_padded 0 [48] (N + 1 - zlen [48])). change (zeros 0) with (@nil Z) in X. rewrite app_nil_l in X.
    change (digits_value [48]) with 0 in X. rewrite X; lia.
  - right. destruct (significand_double bits (N + 1) HF HM ltac:(lia)) as (ds' & k' & k1 & E' & _ & L & _ & _ & M & K1 & V).
    unfold float_digits, format_decimal in E. fold fp in E. rewrite (decode_finite bits HF HM), FF, FP, E' in E. injection E as -> ->.
    exists k1. split; [exact M|]. eapply same_decimal_trans; [exact TS|]. unfold rounded. rewrite <- V.
    unfold same_decimal, pos_pow. fold (zlen ds) in L. rewrite L.
    replace (Z.max (N + 1 - k1 - (N + 1 - k)) 0) with (k - k1) by lia. replace (Z.max _ 0) with 0 by lia. lia.
Qed.

(** g, G and none *)
Lemma last_app_r (a b : list Z) d : b <> [] -> last (a ++ b) d = last b d.
Proof.
  intros H. destruct (exists_last H) as (l & c & ->). now rewrite app_assoc, !last_last.
Qed.

Lemma general_text s bits ds k : is_finite_double bits -> (sp_type s = 0 \/ sp_type s = 103 \/ sp_type s = 71) -> precision_fits s ->
  float_digits s bits = Ok (ds, k) -> digits_ok ds k ->
  let p := fp_precision (parse_fp_format_specs s) in
  let alt := sp_alternate_form s in
  let x := k - 1 in
  let sci := if (x <? -4) || ((if 0 <? p then p else 16) <=? x) then Some x else None in
  (p = -1 \/ zlen ds <= p) ->
  exists body i f a z, float_text s bits body /\ decimal_text alt (sp_type s =? 71) sci i f body /\
    0 <= z /\ i ++ f = zeros a ++ significant true ds ++ zeros z /\ text_scale sci f = zlen (significant true ds) + z - k /\
    (alt = false \/ p = -1 -> no_trailing_zero f) /\
    (alt = true -> p <> -1 -> text_scale sci f = p - 1 - x).
Proof.
  intros HF HT HP E OK p alt x sci Hp. assert (HT' : In (sp_type s) float_types) by (cbn; lia).
  destruct (fp_fields s HT' HP) as (FU & _ & _ & F3). cbv zeta in FU, F3. destruct (F3 HT) as (FF & FS & FP). clear F3.
  assert (P1 : p = -1 \/ 1 <= p) by (unfold p; rewrite FP; unfold precision_fits in HP; destruct (sp_precision s =? -1) eqn:G; [destruct (sp_type s =? 0)|]; lia).
  set (fp := parse_fp_format_specs s) in *. fold p in FP. fold alt in FS. clear FP.
  assert (EG : fp_is_general fp = true) by (unfold fp_is_general; now rewrite FF).
  assert (EF : fp_is_fixed fp = false) by (unfold fp_is_fixed; now rewrite FF).
  assert (EU : fp_upper fp = (sp_type s =? 71)) by (rewrite FU; lia).
  destruct (sig_facts true ds k OK) as (S1 & S2 & S3 & _ & SZ & _ & ST & _). specialize (ST eq_refl). set (sig := significant true ds) in *.
  assert (BD : fp_body fp alt (ds, k) = match sci with Some x => exp_body fp sig x | None => fixed_body fp alt sig x end).
  { unfold fp_body, fp_scientific. cbn [fst snd]. rewrite FF, EG. fold sig x p. unfold sci. destruct ((x <? -4) || ((if 0 <? p then p else 16) <=? x)); reflexivity. }
  assert (NT : forall i f a, i ++ f = zeros a ++ sig ++ zeros 0 -> (sig = [48] -> f = []) -> no_trailing_zero f).
  { intros i f a EI H0. destruct f as [|c f]; [now left|]. right. assert (X := f_equal (fun l => last l 48) EI). cbv beta in X.
    rewrite (last_app_r i) in X by discriminate. change (zeros 0) with (@nil Z) in X. rewrite app_nil_r in X.
    destruct ST as [ST|ST]; [discriminate (H0 ST)|]. rewrite last_app_r in X by (apply zlen_pos; lia). now rewrite X. }
  destruct sci as [x'|] eqn:ES.
  - assert (x' = x) by (unfold sci in ES; destruct ((x <? -4) || ((if 0 <? p then p else 16) <=? x)); congruence). subst x'.
    set (z := if fp_showpoint fp then Z.max 0 (fp_precision fp - zlen sig) else 0).
    destruct (exp_body_text fp alt sig x S1 S2) as (i & f & D & EI & LF).
    { cbv zeta. fold z. rewrite FS. destruct alt eqn:EA; [reflexivity|]. unfold z. rewrite FS, Z.add_0_r. reflexivity. }
    cbv zeta in EI, LF. fold z in EI, LF.
    exists (fp_body fp alt (ds, k)), i, f, 0, z. split; [exists (ds, k); now split|]. rewrite BD, <- EU. split; [exact D|].
    assert (HZ : 0 <= z) by (unfold z; destruct (fp_showpoint fp); lia).
    split; [exact HZ|]. split; [exact EI|]. unfold text_scale. fold (zlen f). split; [unfold x; lia|]. split.
    + intros H. assert (z = 0). { unfold z. rewrite FS. fold p. destruct H as [->|H]; [reflexivity|]. destruct alt; lia. }
      apply (NT i f 0). { rewrite EI. now rewrite H0. } intros S. apply zlen_0. rewrite LF, S, H0. reflexivity.
    + intros HA HNE. rewrite LF. unfold z. rewrite FS, HA. fold p. lia.
  - assert (XP : 0 < p -> x < p) by (unfold sci in ES; destruct ((x <? -4) || ((if 0 <? p then p else 16) <=? x)) eqn:G; [discriminate ES|]; apply orb_false_iff in G; intros; replace (0 <? p) with true in G by lia; lia).
    set (z := fixed_zeros fp alt (zlen sig) x).
    assert (HX : sig = [48] -> x = 0) by (intros S; destruct (SZ S) as [-> _]; reflexivity).
    destruct (fixed_body_text fp alt sig x S1 S2 HX) as (i & f & a & D & EI & LF).
    { intros X0 XL. cbv zeta. fold z. rewrite FS. destruct alt eqn:EA; [reflexivity|]. cbn [orb].
      unfold z, fixed_zeros. cbn [andb]. replace (x <? 0) with false by lia. replace (zlen sig <=? x + 1) with true by lia. rewrite FS. lia. }
    cbv zeta in EI, LF. fold z in EI, LF.
    exists (fp_body fp alt (ds, k)), i, f, a, z. split; [exists (ds, k); now split|]. rewrite BD, <- EU. split; [exact D|].
    assert (HZ : 0 <= z) by apply fixed_zeros_nonneg.
    split; [exact HZ|]. split; [exact EI|]. unfold text_scale. fold (zlen f). split; [unfold x in *; lia|]. split.
    + intros H. assert (HK : alt && fp_is_general fp = false \/ p < 0) by (destruct H as [-> |H]; [now left|right; lia]).
      assert (ZC : z = 0 \/ zlen f = 0).
      { rewrite LF. unfold z, fixed_zeros. fold p. rewrite EF. cbn [andb]. destruct (x <? 0) eqn:G1; [left; destruct HK as [-> |]; [reflexivity|destruct (alt && _); lia]|].
        destruct (zlen sig <=? x + 1) eqn:G2; [right|left; destruct HK as [-> |]; [reflexivity|destruct (alt && _); lia]].
        rewrite FS. destruct alt eqn:EA; [|lia]. destruct HK as [HK|HK]; [rewrite EG in HK; discriminate|]. destruct H as [H|H]; [discriminate|].
        rewrite EG. cbn [andb]. lia. }
      destruct ZC as [ZC|ZC]; [|left; now apply zlen_0].
      apply (NT i f a). { now rewrite EI, ZC. } intros S. apply zlen_0. rewrite LF, ZC, S, (HX S). reflexivity.
    + intros HA HNE. rewrite LF. unfold z, fixed_zeros. rewrite HA, EG, FS, EF. cbn [andb]. fold p. rewrite HA.
      destruct (x <? 0) eqn:G1; [lia|]. destruct (zlen sig <=? x + 1) eqn:G2; lia.
Qed.

Theorem shortest_format s bits : is_finite_double bits -> sp_type s = 0 -> sp_precision s = -1 ->
  exists body i f x sig a z, let sci := if (-4 <=? x) && (x <? 16) then None else Some x in
    float_text s bits body /\
    decimal_text (sp_alternate_form s) false sci i f body /\ no_trailing_zero f /\
    first_exponent (text_value i f) (text_scale sci f) x /\
    i ++ f = repeat 48 a ++ sig ++ repeat 48 z /\
    (double_m bits = 0 -> i = [48] /\ f = []) /\
    (double_m bits <> 0 -> reads_back (text_value i f) (text_scale sci f) bits /\
       (forall d q, 0 < d < 10 ^ (zlen sig - 1) -> ~ reads_back d q bits) /\
       (forall d q, 0 < d < 10 ^ zlen sig -> reads_back d q bits -> nearest (text_value i f) (text_scale sci f) d q bits)).
Proof.
  intros HF HT HP. assert (HT' : In (sp_type s) float_types) by (cbn; lia). assert (HP' : precision_fits s) by (unfold precision_fits; lia).
  destruct (float_digits_ok s bits HF HT' HP') as (ds & k & E & OK).
  destruct (fp_fields s HT' HP') as (_ & _ & _ & F3). cbv zeta in F3. destruct (F3 (or_introl HT)) as (FF & FS & FP). clear F3.
  rewrite HP, HT in FP. change (if -1 =? -1 then if 0 =? 0 then -1 else 6 else Z.max 1 (-1)) with (-1) in FP.
  destruct (general_text s bits ds k HF (or_introl HT) HP' E OK) as (body & i & f & a & z & B & D & HZ & EI & EQ & NT & _); [now left|].
  rewrite FP in D, EQ, NT. change (if 0 <? -1 then -1 else 16) with 16 in D, EQ. rewrite HT in D. change (0 =? 71) with false in D.
  assert (SC : (if (k - 1 <? -4) || (16 <=? k - 1) then Some (k - 1) else None) = (if (-4 <=? k - 1) && (k - 1 <? 16) then None else Some (k - 1))).
  { destruct ((k - 1 <? -4) || (16 <=? k - 1)) eqn:G1, ((-4 <=? k - 1) && (k - 1 <? 16)) eqn:G2; try reflexivity; exfalso; lia. }
  rewrite SC in D, EQ.
  exists body, i, f, (k - 1), (significant true ds), (Z.to_nat a), (Z.to_nat z). cbv zeta.
  destruct (text_facts true ds k i f a z _ OK HZ EI EQ) as [TS TE].
  split; [exact B|]. split; [exact D|]. split; [apply NT; now right|]. split; [exact TE|]. split; [exact EI|]. split.
  - intros HM. rewrite (float_digits_zero s bits HF HM) in E. injection E as <- <-.
    change (significant true [48]) with [48] in EI, EQ. change ((-4 <=? 1 - 1) && (1 - 1 <? 16)) with true in *. cbv iota in *.
    destruct D as ((I1 & I2 & I3) & F1 & _). unfold text_scale in EQ. fold (zlen f) in EQ. change (zlen [48]) with 1 in EQ.
    assert (NZ : f = []).
    { destruct (NT (or_intror eq_refl)) as [N|N]; [exact N|]. exfalso. destruct f as [|c f]; [now apply N|].
      assert (X := f_equal (fun l => last l 48) EI). cbv beta in X. rewrite last_app_r in X by discriminate. rewrite X in N. apply N.
      rewrite last_app_r by (destruct (zeros z); discriminate). unfold zeros. clear. induction (Z.to_nat z) as [|n IH]; [reflexivity|].
      cbn [repeat]. cbn [app] in IH |- *. destruct (repeat 48 n) eqn:R; [reflexivity|]. exact IH. }
    split; [|exact NZ]. destruct I3 as [I3|I3]; [exact I3|]. exfalso. rewrite NZ, app_nil_r in EI. rewrite EI in I3. apply I3.
    unfold zeros. destruct (Z.to_nat a); reflexivity.
  - intros HM. destruct (shortest_double bits HF HM) as (ds' & k' & E' & _ & _ & _ & _ & R & SH & _).
    unfold float_digits, format_decimal in E. rewrite (decode_finite bits HF HM), FF, FP in E. assert (NP : (-1 =? no_precision) = true) by reflexivity. rewrite NP in E. clear NP.
    rewrite E' in E. injection E as -> ->. split; [|split].
    + eapply reads_back_same; [apply same_decimal_sym; exact TS|exact R].
    + intros d q Hd. apply SH. split; [lia|]. eapply Z.lt_le_trans; [apply Hd|]. apply Z.pow_le_mono_r; [lia|].
      destruct (sig_facts true ds k OK) as (_ & _ & S3 & _). unfold zlen in *. lia.
    + intros d q Hd RD. eapply nearest_same; [exact TS|]. apply (closest_double bits ds k HF HM E'); [|exact RD].
      split; [lia|]. eapply Z.lt_le_trans; [apply Hd|]. apply Z.pow_le_mono_r; [lia|].
      destruct (sig_facts true ds k OK) as (_ & _ & S3 & _). unfold zlen in *. lia.
Qed.

Theorem general_format s bits : is_finite_double bits -> precision_fits s ->
  ((sp_type s = 0 /\ sp_precision s <> -1) \/ sp_type s = 103 \/ sp_type s = 71) ->
  let P := if sp_precision s =? -1 then 6 else Z.max 1 (sp_precision s) in
  exists body i f x, let sci := if (-4 <=? x) && (x <? P) then None else Some x in
    float_text s bits body /\
    decimal_text (sp_alternate_form s) (sp_type s =? 71) sci i f body /\
    first_exponent (text_value i f) (text_scale sci f) x /\
    (sp_alternate_form s = false -> no_trailing_zero f) /\
    (sp_alternate_form s = true -> text_scale sci f = P - 1 - x) /\
    significant_rounding bits P (text_value i f) (text_scale sci f).
Proof.
  intros HF HP HT P. assert (HT' : In (sp_type s) float_types) by (cbn; lia).
  assert (HT2 : sp_type s = 0 \/ sp_type s = 103 \/ sp_type s = 71) by tauto.
  assert (HP1 : 1 <= P) by (unfold P; destruct (sp_precision s =? -1); lia).
  destruct (float_digits_ok s bits HF HT' HP) as (ds & k & E & OK).
  destruct (fp_fields s HT' HP) as (_ & _ & _ & F3). cbv zeta in F3. destruct (F3 HT2) as (FF & FS & FP). clear F3.
  assert (FP' : fp_precision (parse_fp_format_specs s) = P).
  { rewrite FP. unfold P. destruct (sp_precision s =? -1) eqn:G; [|reflexivity]. replace (sp_type s =? 0) with false by lia. reflexivity. }
  clear FP. clearbody P. assert (FN : P =? no_precision = false) by (change no_precision with (-1); lia).
  assert (LD : zlen ds <= P).
  { destruct (Z.eq_dec (double_m bits) 0) as [HM|HM]; [rewrite (float_digits_zero s bits HF HM) in E; injection E as <- <-; exact HP1|].
    destruct (significand_double bits P HF HM HP1) as (ds' & k' & k1 & E' & _ & L & _).
    unfold float_digits, format_decimal in E. rewrite (decode_finite bits HF HM), FF, FP', FN, E' in E. injection E as <- <-. unfold zlen. lia. }
  destruct (general_text s bits ds k HF HT2 HP E OK) as (body & i & f & a & z & B & D & HZ & EI & EQ & NT & AT); [rewrite FP'; now right|].
  rewrite FP' in D, EQ, NT, AT. replace (0 <? P) with true in D, EQ, AT by lia. cbv iota in D, EQ, AT.
  assert (SC : (if (k - 1 <? -4) || (P <=? k - 1) then Some (k - 1) else None) = (if (-4 <=? k - 1) && (k - 1 <? P) then None else Some (k - 1))).
  { destruct ((k - 1 <? -4) || (P <=? k - 1)) eqn:G1, ((-4 <=? k - 1) && (k - 1 <? P)) eqn:G2; try reflexivity; exfalso; lia. }
  rewrite SC in D, EQ, AT. exists body, i, f, (k - 1). cbv zeta.
  destruct (text_facts true ds k i f a z _ OK HZ EI EQ) as [TS TE].
  split; [exact B|]. split; [exact D|]. split; [exact TE|]. split; [intros HA; apply NT; now left|]. split; [intros HA; apply AT; [exact HA|lia]|].
  destruct (Z.eq_dec (double_m bits) 0) as [HM|HM].
  - left. split; [exact HM|]. rewrite (float_digits_zero s bits HF HM) in E. injection E as <- <-.
    unfold text_value. rewrite EI, value_padded by exact HZ. reflexivity.
  - right. destruct (significand_double bits P HF HM HP1) as (ds' & k' & k1 & E' & _ & L & _ & _ & M & K1 & V).
    unfold float_digits, format_decimal in E. rewrite (decode_finite bits HF HM), FF, FP', FN, E' in E. injection E as -> ->.
    exists k1. split; [exact M|]. eapply same_decimal_trans; [exact TS|]. unfold rounded. rewrite <- V.
    unfold same_decimal, pos_pow. fold (zlen ds) in L. rewrite L.
    replace (Z.max (P - k1 - (P - k)) 0) with (k - k1) by lia. replace (Z.max _ 0) with 0 by lia. lia.
Qed.

(** f and F *)
Lemma rounded_zero bits q : double_m bits = 0 -> rounded bits q = 0.
Proof.
  intros H. unfold rounded. rewrite H. unfold scaled_num. rewrite !Z.mul_0_l. unfold round_half_even.
  assert (P := scaled_den_pos (double_e bits) q). rewrite Z.div_0_l, Z.mod_0_l by lia.
  rewrite (proj2 (Z.compare_lt_iff _ _)) by lia. reflexivity.
Qed.

Lemma scaled_next m e q : 0 <= q -> scaled_num m e (q + 1) = 10 * scaled_num m e q /\ scaled_den e (q + 1) = scaled_den e q.
Proof.
  intros H. unfold scaled_num, scaled_den, pos_pow. replace (Z.max (- (q + 1)) 0) with (Z.max (- q) 0) by lia.
  split; [|reflexivity]. replace (Z.max (q + 1) 0) with (Z.succ (Z.max q 0)) by lia. rewrite Z.pow_succ_r by lia. ring.
Qed.

Lemma pow10_inj a b : 0 <= a -> 0 <= b -> 10 ^ a = 10 ^ b -> a = b.
Proof. intros Ha Hb. apply Z.pow_inj_r; lia. Qed.

Theorem fixed_format s bits : is_finite_double bits -> (sp_type s = 102 \/ sp_type s = 70) -> precision_fits s ->
  let N := if sp_precision s =? -1 then 6 else sp_precision s in
  exists body i f, float_text s bits body /\
    decimal_text (sp_alternate_form s) (sp_type s =? 70) None i f body /\
    ((~ rounds_up_to_power bits N /\ zlen f = N /\ text_value i f = rounded bits N) \/
     (rounds_up_to_power bits N /\ zlen f = N - 1 /\ 10 * text_value i f = rounded bits N)).
Proof.
  intros HF HT HP N. assert (HT' : In (sp_type s) float_types) by (cbn; lia).
  destruct (fp_fields s HT' HP) as (FU & _ & F2 & _). cbv zeta in FU, F2. destruct (F2 HT) as (FF & FP & FS). fold N in FP, FS. clear F2.
  assert (HN : 0 <= N) by (unfold N; unfold precision_fits in HP; destruct (sp_precision s =? -1) eqn:G; lia). clearbody N.
  destruct (float_digits_ok s bits HF HT' HP) as (ds & k & E & OK).
  set (fp := parse_fp_format_specs s) in *. set (alt := sp_alternate_form s) in *.
  assert (EG : fp_is_general fp = false) by (unfold fp_is_general; now rewrite FF).
  assert (EF : fp_is_fixed fp = true) by (unfold fp_is_fixed; now rewrite FF).
  assert (EU : fp_upper fp = (sp_type s =? 70)) by (rewrite FU; lia).
  destruct (sig_facts false ds k OK) as (S1 & S2 & S3 & _ & SZ & _ & _ & SD). rewrite (SD eq_refl) in *. clear SD.
  (* the digits *)
  assert (DC : (ds = [48] /\ k = 1 /\ rounded bits N = 0) \/
               (ds <> [48] /\ let x := k - zlen ds + N in digits_value ds * 10 ^ x = rounded bits N /\
                ((x = 0 /\ (magnitude (double_m bits) (double_e bits) k \/ zlen ds = 1)) \/
                 (x = 1 /\ ds = 49 :: repeat 48 (length ds - 1) /\ magnitude (double_m bits) (double_e bits) (k - 1))))).
  { destruct (Z.eq_dec (double_m bits) 0) as [HM|HM].
    { left. rewrite (float_digits_zero s bits HF HM) in E. injection E as <- <-. auto using rounded_zero. }
    unfold float_digits, format_decimal in E. fold fp in E. rewrite (decode_finite bits HF HM), FF, FP in E.
    destruct (decimal_double bits N HF HM HN) as (ds' & k' & E' & A' & K' & H). rewrite E' in E. cbn [bind fst] in E.
    destruct ds' as [|c ds']; cbn [length Nat.eqb] in E; injection E as <- <-.
    - left. destruct H as [H _]. auto.
    - right. cbv zeta in H. destruct H as (H1 & H2 & H3). split.
      + intros X. rewrite X in H1. vm_compute in H1. now apply H1.
      + unfold zlen. cbv zeta. split; [exact H2|]. destruct H3 as [[X [M|L]]|H3]; [left; auto|left; split; [exact X|right; lia]|right; exact H3]. }
  assert (HX : ds = [48] -> k - 1 = 0) by (intros S; destruct (SZ S) as [-> _]; reflexivity).
  set (z := fixed_zeros fp alt (zlen ds) (k - 1)).
  (* the number of decimals *)
  assert (LC : (zlen ds + z - k = N /\ (ds = [48] \/ k - zlen ds + N = 0 \/ 1 <= k)) \/
               (k <= 0 /\ k - zlen ds + N = 1 /\ zlen ds + z - k = N - 1)).
  { unfold z, fixed_zeros. rewrite EG, EF, FP, FS, andb_false_r. cbn [andb].
    destruct DC as [(D1 & D2 & _)|(D1 & _ & D2)].
    - left. split; [|now left]. rewrite D1, D2. change (zlen [48]) with 1. change (1 - 1 <? 0) with false. change (1 <=? 1 - 1 + 1) with true. change (1 - 1 + 1 =? 1) with true. cbv iota.
      destruct (N =? 0) eqn:G; [destruct alt; cbn; lia|]. cbn [negb]. rewrite orb_true_r. lia.
    - destruct (k - 1 <? 0) eqn:G1; [lia|]. replace (k - 1 + 1) with k by lia. destruct (zlen ds <=? k) eqn:G2.
      + left. split; [|right; right; lia]. destruct (k =? zlen ds) eqn:G3.
        * destruct (N =? 0) eqn:G; [destruct alt; cbn [orb negb]; lia|]. cbn [negb]. rewrite orb_true_r. lia.
        * destruct (alt || negb (N =? 0)); lia.
      + left. split; [|right; right; lia]. destruct (zlen ds - k <? N) eqn:G3; lia. }
  assert (HZ : 0 <= z) by apply fixed_zeros_nonneg.
  destruct (fixed_body_text fp alt ds (k - 1) S1 S2 HX) as (i & f & a & D & EI & LF).
  { intros X0 XL. cbv zeta. fold z. rewrite FS. f_equal. f_equal. replace (k - 1 + 1) with k by lia. lia. }
  cbv zeta in EI, LF. fold z in EI, LF. replace (k - 1 + 1) with k in LF by lia. rewrite EU in D.
  exists (fp_body fp alt (ds, k)), i, f. split; [exists (ds, k); now split|].
  replace (fp_body fp alt (ds, k)) with (fixed_body fp alt ds (k - 1)) by (unfold fp_body, fp_scientific; cbn [fst snd]; now rewrite FF, EG).
  split; [exact D|]. unfold text_value. rewrite EI, value_padded by exact HZ. rewrite LF.
  assert (B : 10 ^ (zlen ds - 1) <= digits_value ds < 10 ^ zlen ds \/ ds = [48]).
  { destruct OK as (OA & _ & _ & [[O1 _]|O1]); [now right|left]. split; [exact O1|]. apply (digits_value_bound ds OA). }
  destruct LC as [[LC L2]|(LK & LX & LC)]; [left|right].
  - assert (V : digits_value ds * 10 ^ z = rounded bits N).
    { destruct DC as [(D1 & _ & ->)|(_ & D2 & _)]; [rewrite D1; reflexivity|]. rewrite <- D2. f_equal. f_equal. lia. }
    split; [|split; [exact LC|exact V]].
    intros (j & Hj & J1 & J2). assert (J3 : 10 <= 10 ^ (N - j)) by (change 10 with (10 ^ 1) at 1; apply Z.pow_le_mono_r; lia).
    destruct DC as [(D1 & _ & D2)|(D1 & D2 & D3)]; [lia|]. destruct B as [B|B]; [|easy].
    destruct D3 as [[X M]|(X & C & _)].
    + rewrite X in D2. change (10 ^ 0) with 1 in D2. destruct M as [M|M]; [|rewrite M in B; change (10 ^ 1) with 10 in B; lia].
      assert (LD : N - j = zlen ds - 1).
      { assert (N - j < zlen ds) by (apply (Z.pow_lt_mono_r_iff 10); lia). assert (zlen ds - 1 <= N - j) by (apply (Z.pow_le_mono_r_iff 10); lia). lia. }
      destruct M as [M _]. replace (1 - k) with j in M by lia. lia.
    + rewrite X in D2. assert (V1 : digits_value ds = 10 ^ (zlen ds - 1)).
      { rewrite C, digits_value_1zeros. unfold zlen. cbn [length]. rewrite repeat_length. f_equal. lia. }
      rewrite V1, J2 in D2. change 1 with (Z.of_nat 1) in D2 at 2.
      rewrite <- Z.pow_add_r in D2 by lia. apply pow10_inj in D2; try lia. destruct L2 as [L2|[L2|L2]]; [easy|lia|lia].
  - destruct DC as [(D1 & -> & _)|(D1 & D2 & D3)]; [lia|]. destruct D3 as [[X _]|(X & C & M)]; [lia|].
    assert (V1 : digits_value ds = 10 ^ (zlen ds - 1)).
    { rewrite C, digits_value_1zeros. unfold zlen. cbn [length]. rewrite repeat_length. f_equal. lia. }
    rewrite X in D2. change (10 ^ 1) with 10 in D2. assert (z = 0) by lia. rewrite H. change (10 ^ 0) with 1. split; [|split; lia].
    exists (1 - k). split; [lia|]. split.
    + destruct M as [_ M]. replace (1 - (k - 1)) with (1 - k + 1) in M by lia.
      destruct (scaled_next (double_m bits) (double_e bits) (1 - k) ltac:(lia)) as [-> ->] in M. lia.
    + rewrite <- D2, V1. replace (N - (1 - k)) with (Z.succ (zlen ds - 1)) by lia. rewrite Z.pow_succ_r by lia. ring.
Qed.
