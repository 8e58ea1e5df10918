(** Properties C01, C02, C05 - C08: the reader. *)
From Verif Require Import Base Lib Conversion SpecNum SpecReader SpecDigits ConversionProofs Reader ReaderProofs DigitProofs ParseProofs.

(** A reader somewhere inside its text. *)
Definition valid (r : reader) : Prop := (rpos r <= length (rtext r))%nat.

(** ** C01 Integer parsing returns the exact value or out_of_range

    Full statement: for every integer type [t], base 2..36, and valid reader
    [r], [parse_int m t base r = (fst spec, set_pos r (rpos r + snd spec))]
    where [spec] is [read_int_spec] on the remaining text. It is false: see
    [C01_parse_int_exact_refuted] (a 32/64-bit unsigned overflow goes
    unnoticed) and C02 (':' .. '@').

    Proved: the full behaviour whenever the literal's value fits into the
    32/64-bit type the parser computes in, or the target is an 8/16-bit type
    (without undefined behaviour on signed overflow). Literals beyond the
    32/64-bit range for 32/64-bit targets: [C01_every_text]. *)
Theorem C01_parse_int_exact_partial : forall m t base r,
  is_ity t -> 2 <= base <= 36 -> valid r ->
  Forall is_byte (view_remaining r) ->
  base <= 10 \/ stops_clean base (snd (split_sign (view_remaining r))) ->
  (in_range (upcasted t) (literal_value base (view_remaining r)) \/
   (bits t <= 16 /\ ~ (m = iso /\ signed t = true))) ->
  let spec := read_int_spec (imin t) (imax t) base (view_remaining r) in
  parse_int m t base r = (fst spec, set_pos r (rpos r + snd spec)).
Proof.
  intros m t base r HT Hb W HB HC HE. exact (proj1 (parse_int_char m t base r HT Hb W HB HC) HE).
Qed.
Print Assumptions C01_parse_int_exact_partial.

Example C01_case_in_range :
  parse_int iso i16 10 (reader_of (str "-32768;")) = (Ok (-32768), mk_reader (str "-32768;") 6).
Proof. reflexivity. Qed.
Example C01_case_narrow_overflow :
  let s := str "99999999999999999999" in
  ~ in_range (upcasted u8) (literal_value 10 s) /\ parse_int iso u8 10 (reader_of s) = (Err out_of_range, reader_of s).
Proof. split; [intros (H1 & H2); vm_compute in H2; contradiction|reflexivity]. Qed.

(** ISO C++, signed target: a value returned is always the right one (an
    overflow is undefined behaviour, never a wrong value). *)
Theorem C01_signed_iso_partial : forall t base r,
  is_ity t -> signed t = true -> 2 <= base <= 36 -> valid r ->
  Forall is_byte (view_remaining r) ->
  base <= 10 \/ stops_clean base (snd (split_sign (view_remaining r))) ->
  let spec := read_int_spec (imin t) (imax t) base (view_remaining r) in
  parse_int iso t base r = (fst spec, set_pos r (rpos r + snd spec)) \/
  (fst (parse_int iso t base r) = Undef /\ ~ in_range (upcasted t) (literal_value base (view_remaining r))).
Proof.
  intros t base r HT HS Hb W HB HC. exact (proj2 (parse_int_char iso t base r HT Hb W HB HC) eq_refl HS).
Qed.
Print Assumptions C01_signed_iso_partial.

Example C01_signed_iso_case_undef : fst (parse_int iso i32 10 (reader_of (str "2147483648"))) = Undef.
Proof. reflexivity. Qed.

(** The full statement is false: uint32_t and uint64_t literals above the range
    are accepted with a wrong value; so are int32_t literals with [-fwrapv]. *)
Theorem C01_parse_int_exact_refuted :
  (exists s v, parse_int iso u32 10 (reader_of s) = (Ok v, mk_reader s (length s)) /\
     literal_value 10 s = 5000000000 /\ v = 705032704) /\
  (exists s v, parse_int iso u64 10 (reader_of s) = (Ok v, mk_reader s (length s)) /\
     literal_value 10 s = 30000000000000000000 /\ v <> literal_value 10 s) /\
  (exists s v, parse_int fwrapv i32 10 (reader_of s) = (Ok v, mk_reader s (length s)) /\
     literal_value 10 s > imax i32 /\ v <> literal_value 10 s) /\
  (exists s, fst (parse_int iso i32 10 (reader_of s)) = Undef).
Proof.
  repeat split.
  - exists (str "5000000000"), 705032704. vm_compute. repeat split.
  - exists (str "30000000000000000000"), 11553255926290448384. vm_compute. repeat split; discriminate.
  - exists (str "5000000000"), 705032704. vm_compute. repeat split; discriminate.
  - exists (str "9999999999"). reflexivity.
Qed.
Print Assumptions C01_parse_int_exact_refuted.

(** What happens for every text and every target, without any condition: the
    characters ':' .. '@' count as the digits a .. g ([as_digit]); then the result
    is the specified one, unless the literal does not fit the 32 or 64 bits the
    parser computes in.  Then either the overflow goes unnoticed, for a target of
    32 or 64 bits without undefined overflow: the literal is consumed and its
    value modulo 2^bits returned; or it is undefined, for a signed target. *)
Theorem C01_every_text : forall m t base r,
  is_ity t -> 2 <= base <= 36 -> valid r -> Forall is_byte (view_remaining r) ->
  let s := map as_digit (view_remaining r) in
  let spec := read_int_spec (imin t) (imax t) base s in
  parse_int m t base r = (fst spec, set_pos r (rpos r + snd spec)) \/
  (~ in_range (upcasted t) (literal_value base s) /\
   ((exists v k, parse_int m t base r = (Ok v, set_pos r (rpos r + literal_length base s)) /\
       32 <= bits t /\ in_range t v /\ v = literal_value base s + k * 2 ^ bits t /\ ~ (m = iso /\ signed t = true)) \/
    (fst (parse_int m t base r) = Undef /\ m = iso /\ signed t = true))).
Proof.
  intros m t base r HT Hb W HB. destruct (parse_any m t base r HT Hb W HB) as [H|(H & [(v & H1 & H2 & H3 & H4 & k & H5)|H1])]; [now left| |]; right; (split; [exact H|]); [left; exists v, k; auto|now right].
Qed.
Print Assumptions C01_every_text.
Example C01_every_text_case :
  let r := reader_of (str "-1<;:0 ") in
  map as_digit (view_remaining r) = str "-1cba0 " /\ read_int_spec (imin i32) (imax i32) 16 (str "-1cba0 ") = (Ok (-117664), 6%nat) /\
  parse_int iso i32 16 r = (Ok (-117664), set_pos r 6) /\
  parse_int iso u32 10 (reader_of (str "5000000000")) = (Ok (5000000000 - 2 ^ 32), mk_reader (str "5000000000") 10).
Proof. repeat split; vm_compute; reflexivity. Qed.

(** ** C02 Integer parsing accepts only real digits

    Full statement: for every byte [c] and base, the parser takes [c] as a
    digit iff [is_digit base c]. False for bases above 10
    ([C02_only_digits_refuted]); proved for every base when [c] is not one of
    ':' .. '@', and for every character when the base is at most 10. *)
Theorem C02_only_digits_partial : forall base c,
  2 <= base <= 36 -> is_byte c -> base <= 10 \/ ~ (58 <= c <= 64) ->
  char_to_digit c base = if is_digit base c then digit_value c else None.
Proof. intros base c Hb Hc H. exact (char_to_digit_spec base c Hc (proj2 Hb) H). Qed.
Print Assumptions C02_only_digits_partial.

Example C02_case : char_to_digit 102 16 = Some 15 /\ char_to_digit 103 16 = None /\ char_to_digit 58 10 = None.
Proof. repeat split. Qed.

(** Which characters are taken for digits, without any condition. *)
Theorem C02_digits_taken : forall base c,
  2 <= base <= 36 -> is_byte c ->
  char_to_digit c base = (if is_digit base (as_digit c) then digit_value (as_digit c) else None) /\
  (as_digit c <> c <-> In c (str ":;<=>?@")).
Proof.
  intros base c Hb Hc. rewrite <- (as_digit_code c base Hc). split.
  - apply char_to_digit_spec; [now apply as_digit_byte|lia|right; apply as_digit_odd].
  - unfold as_digit. cbn [In str]. destruct ((58 <=? c) && (c <=? 64)) eqn:E; cbn; lia.
Qed.
Print Assumptions C02_digits_taken.
Example C02_digits_taken_case : char_to_digit 64 17 = Some 16 /\ char_to_digit 64 16 = None /\ as_digit 64 = 103.
Proof. repeat split. Qed.

(** What parsing a whole text of one character does, in terms of the API. *)
Theorem C02_only_digits_refuted :
  exists s, parse_int iso i32 16 (reader_of s) = (Ok 10, mk_reader s 1) /\ s = str ":" /\ digit_run 16 s = [].
Proof. exists (str ":"). vm_compute. repeat split. Qed.
Print Assumptions C02_only_digits_refuted.

(** ** C05 Reader never leaves its input

    Any history of calls keeps the reader in its text; each call returns a
    character of the text at the current position, or a view starting at the
    current position and lying within the text. The only undefined outcome is
    the signed overflow of [parse_int] (C01). *)
Theorem C05_reader_stays_inside : forall ops sv,
  Forall rop_ok ops ->
  let (_, r) := run_rops (reader_of sv) ops in
  rtext r = sv /\ valid r /\
  forall op, rop_ok op ->
    match run_rop r op with
    | (Ok (VChar c), _) => nth_error sv (rpos r) = Some c
    | (Ok (VView s), r') => exists b, sv = firstn (rpos r) sv ++ s ++ b
    | (Undef, _) => exists t b, op = RParseInt iso t b /\ signed t = true
    | (Abort, _) => False
    | _ => True
    end.
Proof.
  intros ops sv F.
  assert (P := run_rops_inv ops (reader_of sv) (Nat.le_0_l _) F).
  destruct (run_rops (reader_of sv) ops) as [os r]. destruct P as (W & T). simpl in T.
  split; [exact T|]. split; [exact W|]. intros op OK.
  assert (Q := run_rop_inv r op W OK). rewrite T in Q.
  destruct (run_rop r op) as [[[| | |]|e| |] r']; intuition.
  - simpl in *. now rewrite <- T.
  - simpl in *. rewrite T in *. destruct H2 as (b & _ & H2). eauto.
Qed.
Print Assumptions C05_reader_stays_inside.

Example C05_case :
  let sv := str "ab,cd" in
  let (os, r) := run_rops (reader_of sv)
     [RPop 1; RUntilChar 44 default_read_until_options; RPeek; RUnpop 9; RReadN 99; RReadRemaining; RPeek] in
  os = [Ok VUnit; Ok (VView (str "b")); Ok (VChar 99); Ok VUnit; Err eof; Ok (VView sv); Err eof] /\ rpos r = 5%nat.
Proof. vm_compute. repeat split. Qed.

(** ** C06 Failed reader operations do not consume input *)
Theorem C06_failure_consumes_nothing : forall sv ops op,
  Forall rop_ok ops -> rop_ok op ->
  let (_, r) := run_rops (reader_of sv) ops in
  forall e r', run_rop r op = (Err e, r') -> r' = r.
Proof.
  intros sv ops op F OK.
  assert (P := run_rops_inv ops (reader_of sv) (Nat.le_0_l _) F).
  destruct (run_rops (reader_of sv) ops) as [os r]. destruct P as (W & T).
  intros e r' E. assert (Q := run_rop_inv r op W OK). rewrite E in Q. exact Q.
Qed.
Print Assumptions C06_failure_consumes_nothing.

Example C06_case :
  run_rop (mk_reader (str "+-1999999") 1) (RParseInt iso i16 10) = (Err out_of_range, mk_reader (str "+-1999999") 1) /\
  run_rop (mk_reader (str "abc") 1) (RUntilStr (str "x") {| include_delimiter := false; keep_delimiter := false; ignore_eof := true |})
  = (Err invalid_data, mk_reader (str "abc") 1).
Proof. vm_compute. split; reflexivity. Qed.

(** ** C07 read_until_* finds the first delimiter *)

(** read_until and its variants for one character: the delimiter is the first
    character satisfying [p]. *)
Theorem C07_read_until_first : forall r p o, valid r ->
  (view_remaining r = [] -> read_until r p o = (Err eof, r)) /\
  (view_remaining r <> [] -> Forall (fun c => p c = false) (view_remaining r) ->
     read_until r p o = if ignore_eof o then (Err invalid_data, r)
       else (Ok (view_remaining r), set_pos r (rpos r + length (view_remaining r)))) /\
  (forall a c b, view_remaining r = a ++ c :: b -> Forall (fun x => p x = false) a -> p c = true ->
     read_until r p o = (Ok (if include_delimiter o then a ++ [c] else a),
       set_pos r (rpos r + (if keep_delimiter o then length a else length a + 1)))).
Proof. exact read_until_spec. Qed.
Print Assumptions C07_read_until_first.

Theorem C07_char_sets : forall r c g o,
  read_until_char r c o = read_until r (fun x => c =? x) o /\
  read_until_any_of r g o = read_until r (fun x => existsb (Z.eqb x) g) o /\
  read_until_none_of r g o = read_until r (fun x => negb (existsb (Z.eqb x) g)) o.
Proof.
  intros r c g o. split; [reflexivity|]. split; exact (read_until_pos_pred r _ o).
Qed.
Print Assumptions C07_char_sets.

Theorem C07_read_until_str_first : forall r d o, valid r ->
  (view_remaining r = [] -> read_until_str r d o = (Err eof, r)) /\
  (view_remaining r <> [] -> (forall a b, view_remaining r <> a ++ d ++ b) ->
     read_until_str r d o = if ignore_eof o then (Err invalid_data, r)
       else (Ok (view_remaining r), set_pos r (rpos r + length (view_remaining r)))) /\
  (forall a, view_remaining r <> [] -> before_first (view_remaining r) d a ->
     read_until_str r d o = (Ok (if include_delimiter o then a ++ d else a),
       set_pos r (rpos r + (if keep_delimiter o then length a else length a + length d)))).
Proof. exact read_until_str_spec. Qed.
Print Assumptions C07_read_until_str_first.

Example C07_case :
  before_first (str "aabaab") (str "ab") (str "a") /\
  read_until_str (reader_of (str "aabaab")) (str "ab") {| include_delimiter := true; keep_delimiter := true; ignore_eof := true |}
  = (Ok (str "aab"), mk_reader (str "aabaab") 1).
Proof.
  split; [|reflexivity]. split; [now exists (str "aab")|].
  intros [|x a'] b' E; [discriminate|simpl; lia].
Qed.

(** ** C08 Reader cursor arithmetic *)
Theorem C08_cursor : forall sv p n, (p <= length sv)%nat ->
  let r := mk_reader sv p in
  pop r n = mk_reader sv (Nat.min (p + n) (length sv)) /\
  unpop r n = mk_reader sv (p - n) /\
  view_remaining r = skipn p sv /\
  cnt_remaining r = (length sv - p)%nat /\
  read_remaining r = (skipn p sv, mk_reader sv (length sv)) /\
  (forall c, nth_error sv p = Some c -> peek r = Ok c /\ read_char r = (Ok c, mk_reader sv (S p))) /\
  (p = length sv -> peek r = Err eof /\ read_char r = (Err eof, r)) /\
  read_n_chars r n = (if (p + n <=? length sv)%nat then (Ok (firstn n (skipn p sv)), mk_reader sv (p + n)) else (Err eof, r)).
Proof.
  intros sv p n H r. unfold r, pop, unpop, cnt_remaining, view_remaining, read_remaining, read_n_chars,
    read_char, peek, at_eof, set_pos, view_remaining, cnt_remaining. cbn [rtext rpos].
  repeat split.
  - destruct (n <=? length sv - p)%nat eqn:E; f_equal; lia.
  - destruct (n <=? p)%nat eqn:E; f_equal; lia.
  - intros. assert (p < length sv)%nat by (apply nth_error_Some; congruence).
    replace (length sv =? p)%nat with false by lia. now rewrite H0.
  - intros. assert (p < length sv)%nat by (apply nth_error_Some; congruence).
    replace (length sv =? p)%nat with false by lia. rewrite H0. do 2 f_equal. lia.
  - subst p. now rewrite Nat.eqb_refl.
  - subst p. now rewrite Nat.eqb_refl.
  - destruct (n <=? length sv - p)%nat eqn:E; destruct (p + n <=? length sv)%nat eqn:E'; try lia; reflexivity.
Qed.
Print Assumptions C08_cursor.

(** subreader(pos, len): full statement for every [pos] and [len] of type
    size_t. Proved when [it_ + pos] does not wrap around the address space;
    refuted otherwise. *)
Theorem C08_subreader_partial : forall base sv p q len, (p <= length sv)%nat -> 0 < base ->
  base + Z.of_nat (length sv) < 2 ^ 64 -> 0 <= q -> base + Z.of_nat p + q < 2 ^ 64 ->
  (forall l, len = Some l -> 0 <= l < 2 ^ 64) ->
  subreader base (mk_reader sv p) q len =
    if Z.of_nat (length sv) <? Z.of_nat p + q then Err eof
    else let rest := skipn (p + Z.to_nat q) sv in
         Ok (reader_of match len with None => rest | Some l => firstn (Z.to_nat l) rest end).
Proof.
  intros base sv p q len Hp Hb H1 Hq H2 HL. unfold subreader. cbn [rpos rtext].
  rewrite (Z.mod_small (base + Z.of_nat p + q)) by lia.
  destruct (Z.of_nat (length sv) <? Z.of_nat p + q) eqn:E.
  - replace (base + Z.of_nat (length sv) <? base + Z.of_nat p + q) with true by lia. reflexivity.
  - replace (base + Z.of_nat (length sv) <? base + Z.of_nat p + q) with false by lia.
    rewrite Z.mod_small by lia.
    set (rl := match len with None => _ | Some l => _ end).
    assert (R : 0 <= rl <= base + Z.of_nat (length sv) - (base + Z.of_nat p + q)).
    { unfold rl. destruct len as [l|]; [specialize (HL l eq_refl)|]; lia. }
    replace ((base <=? base + Z.of_nat p + q) && (base + Z.of_nat p + q + rl <=? base + Z.of_nat (length sv)))
      with true by lia.
    do 2 f_equal. replace (Z.to_nat (base + Z.of_nat p + q - base)) with (p + Z.to_nat q)%nat by lia.
    unfold rl. destruct len as [l|].
    + specialize (HL l eq_refl).
      set (rest := skipn (p + Z.to_nat q) sv).
      assert (LR : length rest = (length sv - (p + Z.to_nat q))%nat) by apply skipn_length.
      destruct (Z.le_gt_cases l (base + Z.of_nat (length sv) - (base + Z.of_nat p + q))).
      * rewrite Z.min_l by lia. reflexivity.
      * rewrite Z.min_r by lia. rewrite !firstn_all2 by lia. reflexivity.
    + apply firstn_all2. rewrite skipn_length. lia.
Qed.
Print Assumptions C08_subreader_partial.

Example C08_subreader_case :
  subreader 4096 (mk_reader (str "abcdef") 1) 2 (Some 2) = Ok (reader_of (str "de")) /\
  subreader 4096 (mk_reader (str "abcdef") 1) 5 None = Ok (reader_of []) /\
  subreader 4096 (mk_reader (str "abcdef") 1) 6 None = Err eof.
Proof. vm_compute. repeat split. Qed.

(** [pos] = SIZE_MAX wraps: the subreader starts before the cursor. *)
Theorem C08_subreader_refuted :
  exists sv p q, 0 <= q < 2 ^ 64 /\ Z.of_nat (length sv) < Z.of_nat p + q /\
    subreader 4096 (mk_reader sv p) q None = Ok (reader_of (str "bcd")).
Proof. exists (str "abcd"), 2%nat, (2 ^ 64 - 1). vm_compute. repeat split; discriminate. Qed.
Print Assumptions C08_subreader_refuted.
