(** Proofs about FormatArg.v: what the formatters of all types but floating
    point write, for every lawful buffer. *)
From Verif Require Import Base Conversion Buffer Writer Specs FormatArg Lib SpecNum SpecEscape SpecFormat.
From Verif Require Import ConversionProofs BufferProofs Emits WriterProofs CallProofs.

(** Characters added on the left and on the right. *)
Definition pads (a : alignment) (width n : Z) : nat * nat :=
  let k := Z.max 0 (width - n) in
  match a with
  | align_left => (O, Z.to_nat k)
  | align_center => (Z.to_nat (k / 2), Z.to_nat (k - k / 2))
  | _ => (Z.to_nat k, O)
  end.
Definition pad_ops (s : format_specs) (a : alignment) (n : nat) (ops : list op) : list op :=
  let (l, r) := pads (field_align a s) (sp_width s) (Z.of_nat n) in
  [Chunk (repeat (sp_fill s) l)] ++ ops ++ [Chunk (repeat (sp_fill s) r)].

Lemma pad_ops_field a s ops : a <> align_none -> 0 <= sp_width s ->
  field a s (ops_data ops) (ops_data (pad_ops s a (length (ops_data ops)) ops)).
Proof.
  intros Ha Hw. unfold field, pad_ops, is_padded.
  destruct (pads _ _ _) as [l r] eqn:E. exists l, r. rewrite !ops_data_app. cbn [ops_data flat_map op_data]. rewrite !app_nil_r.
  split; [reflexivity|]. rewrite !app_length, !repeat_length. unfold pads in E.
  unfold field_align in *. destruct (sp_align s), a; try congruence; injection E as <- <-; split; lia.
Qed.

(** ** The writes of each formatter *)
Definition sign_char (s : format_specs) (negative : bool) : Z := hd 0 (sign_text s negative).

Definition sign_ops (s : format_specs) (negative : bool) : list op :=
  if sp_zero_flag s then map (fun c => Atom [c]) (sign_text s negative) else [].

Definition used_prefix (s : format_specs) (v : Z) (prefix : list Z) : list Z :=
  if sp_alternate_form s && negb ((sp_type s =? 111) && (v =? 0)) then prefix else [].

Definition number_ops (s : format_specs) (negative : bool) (prefix rest : list Z) : list op :=
  let sg := sign_text s negative in
  let n := length (sg ++ prefix ++ rest) in
  if sp_zero_flag s then
    sign_ops s negative ++ [Chunk prefix] ++ pad_ops s align_right n [Atom rest]
  else pad_ops s align_right n [Atom (sg ++ prefix ++ rest)].

Definition int_options (type : Z) : option (list Z * Z * bool) :=
  match find (fun x => fst (fst (fst x)) =? type) int_types with
  | Some (_, p, b, u) => Some (p, b, u)
  | None => None
  end.

Definition int_ops (s : format_specs) (v : Z) : list op :=
  if sp_type s =? 99 then pad_ops s align_left 1 [Atom [v mod 256]]
  else
    match int_options (sp_type s) with
    | Some (prefix, base, upper) =>
      number_ops s (v <? 0) (used_prefix s v prefix) (numeral base upper (Z.abs v))
    | None => []
    end.
Definition int_outcome (s : format_specs) : outcome unit :=
  if sp_type s =? 99 then Ok tt
  else match int_options (sp_type s) with Some _ => Ok tt | None => Err invalid_format end.

Definition str_ops (s : format_specs) (text : list Z) : list op :=
  if sp_type s =? ch_question then
    let body := [ch_quote] ++ escape_text text ++ [ch_quote] in pad_ops s align_left (length body) [Chunk body]
  else
    let body := if 0 <=? sp_precision s then firstn (Z.to_nat (sp_precision s)) text else text in
    pad_ops s align_left (length body) [Chunk body].

Definition char_ops (s : format_specs) (c : Z) : list op :=
  if sp_type s =? ch_question then pad_ops s align_left 3 [Chunk ([ch_apos] ++ escape c ++ [ch_apos])]
  else if (sp_type s =? no_type) || (sp_type s =? 99) then pad_ops s align_left 1 [Atom [c]]
  else int_ops s c.
Definition char_outcome (s : format_specs) : outcome unit :=
  if sp_type s =? ch_question then Ok tt else int_outcome s.

Definition bool_ops (s : format_specs) (v : bool) : list op :=
  if (sp_type s =? no_type) || (sp_type s =? 115) then
    let body := if v then str "true" else str "false" in pad_ops s align_left (length body) [Chunk body]
  else int_ops s (if v then 1 else 0).
Definition bool_outcome (s : format_specs) : outcome unit :=
  if (sp_type s =? 115) then Ok tt else int_outcome s.

Definition ptr_specs (s : format_specs) : format_specs := set_type (set_alternate s true) 120.
Definition ptr_ops (s : format_specs) (p : Z) : list op := int_ops (ptr_specs s) p.

Lemma make_write_int_options_ok type :
  make_write_int_options type = match int_options type with Some x => Ok x | None => Err invalid_format end.
Proof.
  unfold make_write_int_options, int_options, int_types. cbn [find fst snd].
  rewrite !(Z.eqb_sym _ type).
  repeat match goal with |- context [type =? ?k] => destruct (type =? k); cbn [orb]; [reflexivity|] end. reflexivity.
Qed.

Lemma int_options_in type p b u : int_options type = Some (p, b, u) -> In (type, p, b, u) int_types.
Proof.
  unfold int_options. intros H. destruct (find _ _) as [[[[ty p'] b'] u']|] eqn:E; [|discriminate].
  injection H as -> -> ->. apply find_some in E. cbn in E. destruct E as [E1 E2].
  replace type with ty by lia. exact E1.
Qed.

Lemma int_options_base type p b u : int_options type = Some (p, b, u) -> 2 <= b <= 36 /\ (length p <= 2)%nat.
Proof.
  intros H. apply int_options_in in H. unfold int_types in H. cbn [In] in H.
  decompose [or] H; try contradiction;
  match goal with E : (_, _, _, _) = _ |- _ => injection E as <- <- <- <- end; split; try lia; vm_compute; lia.
Qed.

Lemma abs_ok t v : is_ity t -> in_range t v ->
  to_absolute t v = Z.abs v /\ 0 <= Z.abs v < 2 ^ 64 /\ is_negative t v = (v <? 0).
Proof.
  intros Ht Hv. unfold in_range in Hv. unfold is_ity in Ht. cbn in Ht. unfold to_absolute, is_negative.
  decompose [or] Ht; subst; try contradiction; unfold imin, imax in *; cbn in Hv |- *; zlit; zlit;
    (split; [|split]); try lia; destruct (v <? 0) eqn:?; try lia; reflexivity.
Qed.

Lemma numeral_length_64 base up n : 2 <= base <= 36 -> 0 <= n < 2 ^ 64 -> (length (numeral base up n) <= 64)%nat.
Proof.
  intros Hb Hn.
  destruct (le_lt_dec (length (numeral base up n)) 64) as [H|H]; [exact H|exfalso].
  assert (P := numeral_nonempty base up n Hb ltac:(lia)).
  destruct (proj1 (numeral_length_bounds base up n _ ltac:(lia) ltac:(lia) P) eq_refl) as [[B|B] _]; [|lia].
  assert (M : 2 ^ 64 <= base ^ Z.of_nat (length (numeral base up n) - 1)).
  { apply Z.le_trans with (base ^ 64).
    - apply Z.pow_le_mono_l. lia.
    - apply Z.pow_le_mono_r; lia. }
  lia.
Qed.

Section E.
  Context {K : Type} (vt : vtable K) (R : list Z -> bst K -> Prop) (cap amax room : option nat).
  Context (HL : lawful vt R cap amax room).
  Notation emits := (emits R cap amax room).
  Let HK : chunky vt R cap room := lawful_chunky _ _ _ _ _ HL.

  Lemma exec_chunk_nil w : obound cap (length w) -> exec cap amax w [Chunk []] = (true, w).
  Proof.
    intros H. rewrite exec_single. rewrite exec1_fits.
    - now rewrite app_nil_r.
    - cbn [length]. now rewrite Nat.add_0_r.
  Qed.

  Lemma emits_chunk_nil {A} (o : outcome A) : emits (fun b => (o, b)) [Chunk []] o.
  Proof.
    intros w b HR _. exists b. rewrite exec_chunk_nil by (eapply k_cap; eassumption). now split.
  Qed.

  Lemma emits_nil {A} (m : bst K -> outcome A * bst K) o : emits m [] o -> emits m [Chunk []] o.
  Proof.
    intros H w b HR HO. rewrite exec_chunk_nil by (eapply k_cap; eassumption). now apply (H w b HR).
  Qed.

  Lemma wrap_i32 z : - 2 ^ 31 <= z < 2 ^ 31 -> wrap i32 z = z.
  Proof.
    intros H. unfold wrap, i32. cbn [Base.bits signed andb]. change (32 - 1) with 31. zlit. zlit.
    destruct (_ <=? _) eqn:E; lia.
  Qed.

  Lemma arith_i32 z : 0 <= z < 2 ^ 31 -> arith iso i32 z = Ok z.
  Proof.
    intros H. unfold arith, in_rangeb, imin, imax, i32. cbn [Base.bits signed andb].
    replace (_ && _) with true by (zlit; zlit; lia). reflexivity.
  Qed.

  Lemma to_nat_wrap z : 0 <= z < 2 ^ 31 -> Z.to_nat (z mod 2 ^ 64) = Z.to_nat z.
  Proof. intros H. zlit. zlit. rewrite Z.mod_small by lia. reflexivity. Qed.

  Lemma write_padding_left_emits s n : sp_align s <> align_none ->
    0 <= sp_width s < 2 ^ 31 -> Z.of_nat n < 2 ^ 31 ->
    let p := pads (sp_align s) (sp_width s) (Z.of_nat n) in
    emits (fun b => write_padding_left vt b s n) [Chunk (repeat (sp_fill s) (fst p))]
          (Ok (set_width s (Z.of_nat (snd p)))).
  Proof.
    intros Ha Hw Hn p. unfold write_padding_left. rewrite wrap_i32 by lia. cbv zeta.
    assert (Z2 : 2 ^ 31 = 2147483648) by reflexivity. rewrite Z2 in *.
    destruct ((sp_width s =? 0) || (sp_width s <? Z.of_nat n)) eqn:E.
    - replace (fst p) with O by (unfold p, pads; destruct (sp_align s); cbn [fst]; lia).
      replace (snd p) with O by (unfold p, pads; destruct (sp_align s); cbn [snd]; lia).
      apply emits_chunk_nil.
    - rewrite arith_i32 by lia.
      assert (Q : Z.quot (sp_width s - Z.of_nat n) 2 = (sp_width s - Z.of_nat n) / 2) by (apply Z.quot_div_nonneg; lia).
      unfold p, pads. replace (Z.max 0 (sp_width s - Z.of_nat n)) with (sp_width s - Z.of_nat n) by lia.
      destruct (sp_align s); cbn [fst snd]; [congruence| | |].
      + rewrite Z2Nat.id by lia. apply emits_chunk_nil.
      + rewrite Q. rewrite arith_i32 by lia. cbn [bind]. rewrite arith_i32 by lia.
        rewrite to_nat_wrap by lia.
        rewrite <- (app_nil_r [_]). eapply emits_bind; [apply (write_char_n_emits vt R cap amax room HK)|].
        replace (Z.of_nat (Z.to_nat (sp_width s - Z.of_nat n - (sp_width s - Z.of_nat n) / 2)))
          with (sp_width s - ((sp_width s - Z.of_nat n) / 2 + Z.of_nat n)) by lia.
        apply emits_ret.
      + rewrite arith_i32 by lia. cbn [bind]. rewrite arith_i32 by lia.
        rewrite to_nat_wrap by lia.
        rewrite <- (app_nil_r [_]). eapply emits_bind; [apply (write_char_n_emits vt R cap amax room HK)|].
        replace (sp_width s - (sp_width s - Z.of_nat n + Z.of_nat n)) with 0 by lia.
        apply emits_ret.
  Qed.

  Lemma write_padding_right_emits s : 0 <= sp_width s < 2 ^ 31 ->
    (sp_align s = align_right -> sp_width s = 0) -> sp_align s <> align_none ->
    emits (fun b => write_padding_right vt b s) [Chunk (repeat (sp_fill s) (Z.to_nat (sp_width s)))] (Ok tt).
  Proof.
    intros Hw Hr Ha. unfold write_padding_right.
    destruct (_ || _) eqn:E.
    - replace (Z.to_nat (sp_width s)) with O.
      + apply emits_chunk_nil.
      + destruct (sp_align s); try congruence; try (rewrite (Hr eq_refl); reflexivity); lia.
    - rewrite to_nat_wrap by lia. apply (write_char_n_emits vt R cap amax room HK).
  Qed.

  (** The whole padded field; [n] is the width the caller says the text has. *)
  Lemma write_padded_emits a s n func ops : a <> align_none ->
    0 <= sp_width s < 2 ^ 31 -> Z.of_nat n < 2 ^ 31 -> emits func ops (Ok tt) ->
    emits (fun b => write_padded vt a b s n func) (pad_ops s a n ops) (Ok tt).
  Proof.
    intros Ha Hw Hn HF. unfold write_padded, pad_ops. cbv zeta.
    set (s' := default_align a s).
    assert (E1 : sp_align s' = field_align a s) by (unfold s', default_align, field_align; destruct (sp_align s) eqn:E; auto).
    assert (E2 : sp_width s' = sp_width s) by (unfold s', default_align; destruct (sp_align s); reflexivity).
    assert (E3 : sp_fill s' = sp_fill s) by (unfold s', default_align; destruct (sp_align s); reflexivity).
    assert (E4 : sp_align s' <> align_none) by (rewrite E1; unfold field_align; destruct (sp_align s); congruence).
    clearbody s'. rewrite <- E1, <- E2, <- E3.
    assert (P := write_padding_left_emits s' n E4 ltac:(lia) Hn). cbv zeta in P.
    destruct (pads (sp_align s') (sp_width s') (Z.of_nat n)) as [l r] eqn:EP. cbn [fst snd] in P.
    eapply emits_bind; [exact P|]. eapply emits_bind; [exact HF|].
    assert (Q := write_padding_right_emits (set_width s' (Z.of_nat r))). cbn [set_width sp_width sp_fill sp_align] in Q.
    rewrite Nat2Z.id in Q. apply Q; auto.
    - unfold pads in EP. destruct (sp_align s'); injection EP as <- <-; lia.
    - intros EA. rewrite EA in EP. injection EP as <- <-. reflexivity.
  Qed.

  Lemma emits_app_nil {A} (m : bst K -> outcome A * bst K) ops o : emits m (ops ++ []) o -> emits m ops o.
  Proof. now rewrite app_nil_r. Qed.

  Lemma sign_char_0 s neg : (sign_char s neg =? 0) = (length (sign_text s neg) =? 0)%nat.
  Proof.
    unfold sign_char, sign_text. destruct neg; [reflexivity|].
    destruct (sp_sign s =? 43); [reflexivity|]. destruct (sp_sign s =? 32); reflexivity.
  Qed.

  Lemma sign_text_cases s neg : sign_text s neg = [] \/ sign_text s neg = [sign_char s neg] /\ sign_char s neg <> 0.
  Proof.
    unfold sign_char, sign_text. destruct neg; [right; split; [reflexivity|discriminate]|].
    destruct (sp_sign s =? 43); [right; split; [reflexivity|discriminate]|].
    destruct (sp_sign s =? 32); [right; split; [reflexivity|discriminate]|]. now left.
  Qed.

  Lemma try_write_sign_emits s neg :
    emits (fun b => try_write_sign vt b s neg) (sign_ops s neg)
          (Ok (if sp_zero_flag s then no_sign else sign_char s neg)).
  Proof.
    unfold try_write_sign, sign_ops.
    assert (E : (if neg then ch_minus else if (sp_sign s =? ch_plus) || (sp_sign s =? 32) then sp_sign s else no_sign)
                = sign_char s neg).
    { unfold sign_char, sign_text. destruct neg; [reflexivity|].
      destruct (sp_sign s =? 43) eqn:E1; [cbn; lia|]. cbn [orb].
      destruct (sp_sign s =? 32) eqn:E2; [cbn; lia|]. reflexivity. }
    rewrite E. clear E. cbv zeta.
    destruct (sign_text_cases s neg) as [E|[E N]].
    - rewrite E. unfold sign_char. rewrite E. cbn. destruct (sp_zero_flag s); apply emits_ret.
    - rewrite E. replace (sign_char s neg =? 0) with false by lia. cbn [negb andb].
      destruct (sp_zero_flag s); [|apply emits_ret]. cbn [map].
      apply emits_app_nil. eapply emits_bind; [apply (write_char_emits vt R cap amax room HL)|apply emits_ret].
  Qed.

  Lemma try_write_prefix_emits s prefix :
    let p := if sp_alternate_form s then prefix else [] in
    emits (fun b => try_write_prefix vt b s prefix) (if sp_zero_flag s then [Chunk p] else [])
          (Ok (if sp_zero_flag s then [] else p)).
  Proof.
    cbv zeta. unfold try_write_prefix. destruct (sp_alternate_form s); cbn [andb].
    - destruct (length prefix =? 0)%nat eqn:E; cbn [negb andb].
      + destruct prefix; [|discriminate]. destruct (sp_zero_flag s); [apply emits_chunk_nil|apply emits_ret].
      + destruct (sp_zero_flag s); [|apply emits_ret].
        apply emits_app_nil. eapply emits_bind; [apply (write_str_emits vt R cap amax room HK)|apply emits_ret].
    - destruct (sp_zero_flag s); [apply emits_chunk_nil|apply emits_ret].
  Qed.

  (** Sign, prefix and digits in one area. *)
  Lemma number_area_emits sign prefix base upper n : 2 <= base <= 36 -> 0 <= n < 2 ^ 64 ->
    let sg := if sign =? no_sign then [] else [sign] in
    emits (fun b =>
      let has_sign := negb (sign =? no_sign) in
      let area_size := (length (numeral base upper n) + (if has_sign then 1 else 0) + length prefix)%nat in
      sdo (a, b) <- get_write_area_of vt b area_size ;;
      fill_area vt b a (fun cells =>
        odo cells <- (if has_sign then store cells 0 sign else Some cells) ;;
        let it := if has_sign then 1%nat else O in
        odo cells <- store_list cells it prefix ;;
        let it := (it + length prefix)%nat in
        odo (cells, _) <- write_number n base upper cells (it + length (numeral base upper n)) ;;
        Some cells)) [Atom (sg ++ prefix ++ numeral base upper n)] (Ok tt).
  Proof.
    intros Hb Hn sg. cbv zeta.
    assert (EQ : (length (numeral base upper n) + (if negb (sign =? 0)%Z then 1 else 0) + length prefix)%nat
                 = length (sg ++ prefix ++ numeral base upper n)).
    { unfold sg. rewrite !app_length. destruct (sign =? 0); cbn [negb length]; lia. }
    rewrite EQ. apply (emits_atom vt R cap amax room HL). intros cells Hc. unfold sg in *. clear sg EQ.
    rewrite !app_length in Hc. destruct (sign =? 0); cbn [negb length] in *.
    - cbn [obind]. rewrite store_list_ok by lia. cbn [obind].
      rewrite write_number_ok by (rewrite ?splice_length; lia). cbn [obind]. f_equal.
      replace (0 + length prefix + length (numeral base upper n) - length (numeral base upper n))%nat
        with (0 + length prefix)%nat by lia.
      rewrite splice_app by lia. apply splice_full. cbn [app]. rewrite app_length. lia.
    - rewrite store_ok by lia. cbn [obind].
      rewrite store_list_ok by (rewrite splice_length; cbn [length]; lia). cbn [obind].
      rewrite write_number_ok by (rewrite ?splice_length; cbn [length]; rewrite ?splice_length; cbn [length]; lia). cbn [obind]. f_equal.
      change 1%nat with (0 + length [sign])%nat at 1 2. rewrite splice_app by (cbn [length]; lia).
      replace (0 + length [sign] + length prefix + length (numeral base upper n) - length (numeral base upper n))%nat
        with (0 + length ([sign] ++ prefix))%nat by (rewrite app_length; cbn [length]; lia).
      rewrite splice_app by (rewrite app_length; cbn [length]; lia). rewrite <- app_assoc. apply splice_full.
      rewrite !app_length. cbn [length]. lia.
  Qed.

  Lemma write_arg_int_emits s t v : is_ity t -> in_range t v -> 0 <= sp_width s < 2 ^ 31 ->
    emits (fun b => write_arg_int vt b s t v) (int_ops s v) (int_outcome s).
  Proof.
    intros Ht Hv Hw. unfold write_arg_int, int_ops, int_outcome.
    assert (Z2 : 2 ^ 31 = 2147483648) by reflexivity.
    destruct (sp_type s =? 99) eqn:E99.
    { apply write_padded_emits; [discriminate|lia|lia|]. apply (write_char_emits vt R cap amax room HL). }
    rewrite make_write_int_options_ok. destruct (int_options (sp_type s)) as [[[prefix base] upper]|] eqn:EO; [|apply emits_ret].
    destruct (int_options_base _ _ _ _ EO) as [Hb HP].
    destruct (abs_ok t v Ht Hv) as (-> & HA & ->).
    rewrite (get_number_of_digits_ok upper) by lia. cbv zeta.
    set (prefix' := if (sp_type s =? 111) && (v =? 0) then [] else prefix).
    assert (UP : used_prefix s v prefix = if sp_alternate_form s then prefix' else []).
    { unfold used_prefix, prefix'. destruct (sp_alternate_form s), ((sp_type s =? 111) && (v =? 0)); reflexivity. }
    assert (SG : (if (v <? 0) || (sp_sign s =? 32) || (sp_sign s =? ch_plus) then 1%nat else 0%nat) = length (sign_text s (v <? 0))).
    { unfold sign_text. destruct (v <? 0); [reflexivity|]. cbn [orb].
      destruct (sp_sign s =? 43) eqn:E1.
      - replace (sp_sign s =? 32) with false by lia. reflexivity.
      - destruct (sp_sign s =? 32); reflexivity. }
    assert (TW : (length (numeral base upper (Z.abs v)) + (if sp_alternate_form s then length prefix' else 0) +
                 (if ((v <? 0) || (sp_sign s =? 32) || (sp_sign s =? ch_plus))%Z then 1 else 0))%nat
                 = length (sign_text s (v <? 0) ++ used_prefix s v prefix ++ numeral base upper (Z.abs v))).
    { rewrite SG. rewrite UP, !app_length. destruct (sp_alternate_form s); cbn [length]; lia. }
    rewrite TW.
    assert (TL : Z.of_nat (length (sign_text s (v <? 0) ++ used_prefix s v prefix ++ numeral base upper (Z.abs v))) < 2 ^ 31).
    { rewrite !app_length. assert (NL := numeral_length_64 base upper (Z.abs v) Hb HA).
      assert (length (used_prefix s v prefix) <= 2)%nat by (unfold used_prefix; destruct (sp_alternate_form s && negb ((sp_type s =? 111) && (v =? 0))); cbn [length]; lia).
      assert (length (sign_text s (v <? 0)%Z) <= 1)%nat by (rewrite <- SG; destruct ((v <? 0) || (sp_sign s =? 32) || (sp_sign s =? ch_plus)); lia). lia. }
    clear TW. unfold number_ops.
    eapply emits_ext with (m' := fun b => _); [intros; reflexivity|].
    destruct (sp_zero_flag s) eqn:EZ.
    - eapply emits_bind.
      { assert (P := try_write_sign_emits s (v <? 0)). rewrite EZ in P. exact P. }
      eapply emits_bind.
      { assert (P := try_write_prefix_emits s prefix'). cbv zeta in P. rewrite EZ, <- UP in P. exact P. }
      apply write_padded_emits; [discriminate|lia|exact TL|].
      assert (P := number_area_emits 0 [] base upper (Z.abs v) Hb HA). exact P.
    - rewrite <- (app_nil_l (pad_ops _ _ _ _)).
      eapply emits_bind.
      { assert (P := try_write_sign_emits s (v <? 0)). rewrite EZ in P. unfold sign_ops in P. rewrite EZ in P. exact P. }
      rewrite <- (app_nil_l (pad_ops _ _ _ _)).
      eapply emits_bind.
      { assert (P := try_write_prefix_emits s prefix'). cbv zeta in P. rewrite EZ, <- UP in P. exact P. }
      apply write_padded_emits; [discriminate|lia|exact TL|].
      assert (P := number_area_emits (sign_char s (v <? 0)) (used_prefix s v prefix) base upper (Z.abs v) Hb HA). cbv zeta in P.
      replace (if sign_char s (v <? 0) =? 0 then [] else [sign_char s (v <? 0)]) with (sign_text s (v <? 0)) in P; [exact P|].
      destruct (sign_text_cases s (v <? 0)) as [E|[E N]].
      + unfold sign_char. rewrite E. reflexivity.
      + rewrite E. replace (sign_char s (v <? 0) =? 0) with false by lia. reflexivity.
  Qed.

  Lemma write_arg_str_emits s text : Forall is_byte text -> 0 <= sp_width s < 2 ^ 31 ->
    Z.of_nat (length (escape_text text)) + 2 < 2 ^ 31 -> Z.of_nat (length text) < 2 ^ 31 ->
    emits (fun b => write_arg_str vt b s text) (str_ops s text) (Ok tt).
  Proof.
    intros HB Hw Hl1 Hl2. unfold write_arg_str, str_ops. rewrite count_escaped by assumption.
    destruct (sp_type s =? ch_question); cbn [negb]; cbv zeta.
    - replace (length (escape_text text) + 2)%nat with (length ([ch_quote] ++ escape_text text ++ [ch_quote]))
        by (rewrite !app_length; cbn [length]; lia).
      apply write_padded_emits; [discriminate|lia|rewrite !app_length; cbn [length]; lia|].
      assert (P := write_str_escaped_impl_emits vt R cap amax room HK text ch_quote HB).
      rewrite count_escaped in P by assumption. exact P.
    - apply write_padded_emits; [discriminate|lia| |apply (write_str_emits vt R cap amax room HK)].
      destruct (0 <=? sp_precision s); [rewrite firstn_length|]; lia.
  Qed.

  Lemma write_arg_char_emits s c : is_byte c -> 0 <= sp_width s < 2 ^ 31 ->
    emits (fun b => write_arg_char vt b s c) (char_ops s c) (char_outcome s).
  Proof.
    intros HB Hw. assert (Z2 : 2 ^ 31 = 2147483648) by reflexivity. unfold write_arg_char, char_ops, char_outcome.
    destruct (sp_type s =? ch_question) eqn:EQ; cbn [negb andb]; rewrite ?andb_false_r, ?andb_true_r.
    - apply write_padded_emits; [discriminate|lia|lia|]. apply (write_char_escaped_emits vt R cap amax room HK c HB).
    - destruct (sp_type s =? 0) eqn:E0; cbn [negb andb orb].
      { unfold int_outcome. replace (sp_type s) with 0 by lia. 
        apply write_padded_emits; [discriminate|lia|lia|]. apply (write_char_emits vt R cap amax room HL). }
      destruct (sp_type s =? 99) eqn:E99; cbn [negb andb].
      { unfold int_outcome. rewrite E99.
        apply write_padded_emits; [discriminate|lia|lia|]. apply (write_char_emits vt R cap amax room HL). }
      apply write_arg_int_emits; [unfold is_ity; cbn; tauto|unfold is_byte in HB; unfold in_range, imin, imax; cbn; lia|exact Hw].
  Qed.

  Lemma write_arg_bool_emits s v : 0 <= sp_width s < 2 ^ 31 ->
    emits (fun b => write_arg_bool vt b s v) (bool_ops s v) (bool_outcome s).
  Proof.
    intros Hw. assert (Z2 : 2 ^ 31 = 2147483648) by reflexivity. unfold write_arg_bool, bool_ops, bool_outcome.
    assert (W : 0 <= sp_width s < 2 ^ 31 -> emits (fun b => if v then write_padded vt align_left b s 4 (fun b => write_str vt b (str "true"))
       else write_padded vt align_left b s 5 (fun b => write_str vt b (str "false")))
       (pad_ops s align_left (length (if v then str "true" else str "false")) [Chunk (if v then str "true" else str "false")]) (Ok tt)).
    { intros _. destruct v; (apply write_padded_emits; [discriminate|lia|vm_compute; reflexivity|]; apply (write_str_emits vt R cap amax room HK)). }
    destruct (sp_type s =? 115) eqn:E1; cbn [negb andb orb]; rewrite ?andb_false_r, ?andb_true_r, ?orb_true_r.
    - apply W. exact Hw.
    - destruct (sp_type s =? 0) eqn:E0; cbn [negb andb orb].
      + unfold int_outcome. replace (sp_type s) with 0 by lia. apply W. exact Hw.
      + apply write_arg_int_emits; [unfold is_ity; cbn; tauto|destruct v; unfold in_range, imin, imax; cbn; lia|exact Hw].
  Qed.

  Lemma write_arg_ptr_emits s p : 0 <= p < 2 ^ 64 -> 0 <= sp_width s < 2 ^ 31 ->
    emits (fun b => write_arg_ptr vt b s p) (ptr_ops s p) (Ok tt).
  Proof.
    intros Hp Hw. unfold write_arg_ptr, ptr_ops.
    apply (write_arg_int_emits (ptr_specs s) u64 p); [unfold is_ity; cbn; tauto| |exact Hw].
    unfold in_range, imin, imax. cbn. zlit. lia.
  Qed.
End E.

(** ** The writes make up the text the specification demands *)
Lemma sign_ops_data s neg : ops_data (sign_ops s neg) = if sp_zero_flag s then sign_text s neg else [].
Proof.
  unfold sign_ops. destruct (sp_zero_flag s); [|reflexivity].
  destruct (sign_text_cases s neg) as [E|[E _]]; rewrite E; reflexivity.
Qed.

Lemma number_ops_field s neg prefix rest : specs_ok s ->
  number_field s (sign_text s neg ++ prefix) rest (ops_data (number_ops s neg prefix rest)).
Proof.
  intros (_ & Hw & _ & _ & HZ). unfold number_field, number_ops. cbv zeta.
  destruct (sp_zero_flag s) eqn:EZ.
  - destruct (HZ eq_refl) as [HF HA].
    rewrite !ops_data_app, sign_ops_data, EZ. unfold pad_ops, field_align, pads. rewrite HA, HF.
    rewrite !ops_data_app. cbn [ops_data flat_map op_data repeat]. rewrite !app_nil_r.
    eexists. split; [rewrite <- app_assoc; reflexivity|].
    rewrite !app_length, repeat_length. lia.
  - assert (E : sign_text s neg ++ prefix ++ rest = ops_data [Atom ((sign_text s neg ++ prefix) ++ rest)]).
    { cbn. now rewrite app_nil_r, <- app_assoc. }
    rewrite <- app_assoc. rewrite E at 1 2. replace (sign_text s neg ++ prefix ++ rest) with ((sign_text s neg ++ prefix) ++ rest) by now rewrite <- app_assoc.
    apply pad_ops_field; [discriminate|lia].
Qed.

Lemma int_ops_field s v : specs_ok s -> int_outcome s = Ok tt -> any_int_field s v (ops_data (int_ops s v)).
Proof.
  intros HS HO. unfold any_int_field, int_ops, int_outcome in *.
  destruct (sp_type s =? 99) eqn:E99.
  - exists (v mod 256). split; [unfold is_byte; lia|]. split; [exists (v / 256); lia|].
    apply (pad_ops_field align_left s [Atom [v mod 256]]); [discriminate|]. apply HS.
  - destruct (int_options (sp_type s)) as [[[prefix base] upper]|] eqn:EO; [|discriminate].
    exists prefix, base, upper, (numeral base upper (Z.abs v)). split; [now apply int_options_in|].
    destruct (int_options_base _ _ _ _ EO) as [Hb _].
    split; [apply numeral_canonical; lia|]. now apply number_ops_field.
Qed.

Lemma str_ops_field s text : specs_ok s -> string_field s text (ops_data (str_ops s text)).
Proof.
  intros HS. destruct HS as (_ & Hw & Hp & _). unfold string_field, str_ops, string_body. cbv zeta.
  destruct (sp_type s =? ch_question) eqn:EQ.
  - eexists. split; [reflexivity|].
    assert (P := pad_ops_field align_left s [Chunk ([ch_quote] ++ escape_text text ++ [ch_quote])] ltac:(discriminate) ltac:(lia)).
    cbn [ops_data flat_map op_data] in P. rewrite app_nil_r in P. exact P.
  - eexists. split; [|].
    2:{ match goal with |- field _ _ _ (ops_data (pad_ops _ _ _ [Chunk ?x])) =>
          assert (P := pad_ops_field align_left s [Chunk x] ltac:(discriminate) ltac:(lia));
          cbn [ops_data flat_map op_data] in P; rewrite app_nil_r in P; exact P end. }
    destruct (sp_precision s =? -1) eqn:E1.
    + replace (0 <=? sp_precision s) with false by lia. reflexivity.
    + replace (0 <=? sp_precision s) with true by lia.
      exists (skipn (Z.to_nat (sp_precision s)) text). split; [now rewrite firstn_skipn|]. rewrite firstn_length. lia.
Qed.

Lemma bool_ops_field s v : specs_ok s -> bool_outcome s = Ok tt -> bool_field s v (ops_data (bool_ops s v)).
Proof.
  intros HS HO. unfold bool_field, bool_ops, bool_outcome in *.
  destruct ((sp_type s =? 0) || (sp_type s =? 115)) eqn:E.
  - destruct v; cbv zeta.
    + apply (pad_ops_field align_left s [Chunk (str "true")]); [discriminate|]. apply HS.
    + apply (pad_ops_field align_left s [Chunk (str "false")]); [discriminate|]. apply HS.
  - replace (sp_type s =? 115) with false in HO by lia. now apply int_ops_field.
Qed.

(** The escaped form of a character is padded as if it had three characters. *)
Lemma char_ops_field s c : specs_ok s -> char_outcome s = Ok tt ->
  (sp_type s = ch_question -> length (escape c) = 1%nat) -> char_field s c (ops_data (char_ops s c)).
Proof.
  intros HS HO HQ. unfold char_field, char_ops, char_outcome, char_body in *.
  destruct (sp_type s =? ch_question) eqn:EQ; rewrite ?orb_true_r, ?orb_false_r.
  - assert (P := pad_ops_field align_left s [Chunk ([ch_apos] ++ escape c ++ [ch_apos])] ltac:(discriminate) ltac:(apply HS)).
    cbn [ops_data flat_map op_data] in P. rewrite app_nil_r in P.
    replace (length ([ch_apos] ++ escape c ++ [ch_apos])) with 3%nat in P; [exact P|].
    rewrite !app_length, HQ by lia. reflexivity.
  - destruct ((sp_type s =? 0) || (sp_type s =? 99)) eqn:E.
    + apply (pad_ops_field align_left s [Atom [c]]); [discriminate|]. apply HS.
    + now apply int_ops_field.
Qed.

Lemma ptr_ops_field s p : specs_ok s -> sp_sign s = no_sign -> sp_zero_flag s = false -> 0 <= p ->
  pointer_field s p (ops_data (ptr_ops s p)).
Proof.
  intros HS HG HZ Hp. destruct (int_ops_field (ptr_specs s) p) as (prefix & base & upper & digits & HI & HC & HF).
  { unfold specs_ok, ptr_specs in *. cbn [set_type set_alternate sp_fill sp_width sp_precision sp_sign sp_zero_flag sp_align]. exact HS. }
  { reflexivity. }
  cbn in HI. repeat (destruct HI as [HI|HI]; [try discriminate HI|]); [|contradiction].
  injection HI as <- <- <-. exists digits. split; [now rewrite Z.abs_eq in HC by lia|].
  unfold number_field in HF. cbn [ptr_specs set_type set_alternate sp_zero_flag sp_alternate_form sp_type andb negb] in HF.
  change (120 =? 111) with false in HF. cbn [andb negb] in HF. rewrite HZ in HF.
  replace (sign_text (ptr_specs s) (p <? 0)) with (@nil Z) in HF; [exact HF|].
  unfold sign_text, ptr_specs. cbn [set_type set_alternate sp_sign]. rewrite HG. replace (p <? 0) with false by lia. reflexivity.
Qed.
