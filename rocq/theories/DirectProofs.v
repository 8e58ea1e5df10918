(** The direct and the type erased path of formatting and scanning. *)
From Verif Require Import Base Conversion Reader Buffer Writer Bitset Specs FormatArg FloatArg Format FormatApi Scan Direct Validated.
From Verif Require Import Lib SpecNum SpecReader.

(** ** Arguments *)
Lemma apply_erased {K} (vt : vtable K) args : forall n r b,
  match nth_error (map (erase vt) (map unified_arg args)) n with
  | Some a => apply_direct vt n args r b = a r b
  | None => apply_direct vt n args r b = (Err invalid_format, (r, b))
  end.
Proof.
  induction args as [|tv args IH]; intros [|n] r b; cbn [map nth_error apply_direct]; try reflexivity. apply IH.
Qed.

Lemma paths_loop {K} (vt : vtable K) args : forall fuel inc st,
  fst (parse_loop vt fuel (map (erase vt) (map unified_arg args)) inc st) <> Undef ->
  direct_loop vt fuel args inc st = parse_loop vt fuel (map (erase vt) (map unified_arg args)) inc st.
Proof.
  induction fuel as [|fuel IH]; intros inc st; cbn [parse_loop direct_loop]; [intros N; now contradiction N|].
  destruct (parse_text vt (S (length (rtext (fst st)))) st (rpos (fst st))) as [[[|]| | |] st1]; cbn [sbind negb]; try reflexivity.
  destruct (on_reader (parse_field (fst st1) inc) (snd st1)) as [[[n inc']| | |] st2]; cbn [sbind]; try reflexivity.
  destruct (n =? no_more_args); [reflexivity|].
  assert (A := apply_erased vt args (Z.to_nat n) (fst st2) (snd st2)).
  destruct (nth_error (map (erase vt) (map unified_arg args)) (Z.to_nat n)) as [a|]; [|intros N; now contradiction N].
  rewrite A. destruct (a (fst st2) (snd st2)) as [[[]| | |] st3]; cbn [sbind]; try reflexivity. apply IH.
Qed.

Lemma paths_agree {K} (vt : vtable K) b s args :
  fst (vformat_to_erased vt b s args) <> Undef -> format_to_direct vt b s args = vformat_to_erased vt b s args.
Proof.
  unfold vformat_to_erased, vformat_to, vformat_erased, format_to_direct. destruct (vs_str s) as [sv| | |]; try reflexivity. destruct (vs_plain s); [reflexivity|].
  unfold parse_format. intros N. rewrite paths_loop; [reflexivity|]. intros E. apply N.
  destruct (parse_loop vt (S (length sv)) (map (erase vt) (map unified_arg args)) 0 (reader_of sv, b)) as [o st]. cbn in E |- *. exact E.
Qed.

(** ** Validation *)
Lemma validate_at tys : forall n r,
  match nth_error (map unified_ty tys) n with
  | Some t => validate_direct_at n tys r = validate_fty t r
  | None => validate_direct_at n tys r = (Err invalid_format, r)
  end.
Proof. induction tys as [|t tys IH]; intros [|n] r; cbn [map nth_error validate_direct_at]; try reflexivity. apply IH. Qed.
Lemma u8_range z : 0 <= wrap u8 z.
Proof. unfold wrap. cbn [u8 bits signed andb]. apply Z.mod_pos_bound. lia. Qed.
Lemma check_field_range r use inc n use' inc' r' : 0 <= inc -> check_field r use inc = (Ok (n, use', inc'), r') -> 0 <= n /\ 0 <= inc'.
Proof.
  intros HI. unfold check_field. destruct (peek_s r) as [[c| | |] r1]; cbn [sbind]; try discriminate.
  assert (A : forall x r2, (if isdigit c then match use with Some false => (Err invalid_format, r1) | _ => sdo (n, r) <- parse_int iso u8 10 r1 ;; (Ok (n, Some true, inc), r) end
     else match use with Some true => (Err invalid_format, r1) | _ => (Ok (inc, Some false, wrap u8 (inc + 1)), r1) end) = (Ok x, r2) -> 0 <= fst (fst x) /\ 0 <= snd x).
  { intros x r2. assert (P : forall v r3, parse_int iso u8 10 r1 = (Ok v, r3) -> 0 <= v).
    { intros v r3. unfold parse_int. destruct (parse_sign_and_int iso (upcasted u8) 10 r1) as [[w| | |] r4]; try discriminate.
      change (imin u8) with 0. destruct (w <? 0) eqn:E; cbn [orb]; [discriminate|]. destruct (imax u8 <? w); [discriminate|]. intros [= <- _]. lia. }
    destruct (isdigit c).
    - destruct use as [[|]|]; try discriminate; destruct (parse_int iso u8 10 r1) as [[v| | |] r3] eqn:EP; cbn [sbind]; try discriminate; intros [= <- _]; cbn [fst snd]; split; try lia; eapply P; reflexivity.
    - destruct use as [[|]|]; try discriminate; intros [= <- _]; cbn [fst snd]; split; try lia; apply u8_range. }
  match goal with |- (sdo (x, r) <- ?f ;; _) = _ -> _ => destruct f as [[x| | |] r2] eqn:E; cbn [sbind]; try discriminate end.
  specialize (A x r2 eq_refl). destruct (peek_s r2) as [[c2| | |] r3]; cbn [sbind]; try discriminate.
  destruct (c2 =? 125); [|destruct (c2 =? 58); [|discriminate]]; intros [= -> _]; cbn [fst snd] in A; exact A.
Qed.
Lemma validate_paths_loop tys : forall fuel r use inc matched, 0 <= inc ->
  validate_direct_loop fuel tys r use inc matched = validate_loop fuel (map unified_ty tys) r use inc matched.
Proof.
  induction fuel as [|fuel IH]; intros r use inc matched HI; cbn [validate_direct_loop validate_loop]; [reflexivity|].
  destruct (check_text (S (length (rtext r))) r) as [[[|]| | |] r1]; try reflexivity; rewrite ?map_length; [|reflexivity].
  destruct (check_field r1 use inc) as [[[[n use'] inc']| | |] r2] eqn:EC; try reflexivity. apply check_field_range in EC; [|exact HI].
  destruct (n =? no_more_args); [reflexivity|]. destruct (Z.of_nat (length tys) <=? n) eqn:EL; [reflexivity|].
  destruct (bitset_set matched (Z.to_nat n)) as [matched'| | |]; cbn [bind]; try reflexivity.
  assert (A := validate_at tys (Z.to_nat n) r2). destruct (nth_error (map unified_ty tys) (Z.to_nat n)) as [t|] eqn:EN.
  - rewrite A. destruct (validate_fty t r2) as [[[]| | |] r3]; try reflexivity. now apply IH.
  - apply nth_error_None in EN. rewrite map_length in EN. exfalso. apply Z.leb_gt in EL. lia.
Qed.
Lemma validate_paths s tys : validate_direct s tys = validate_erased s tys.
Proof. now apply validate_paths_loop. Qed.

Lemma unified_signed t : signed (unified_int t) = signed t.
Proof. unfold unified_int. destruct (signed t) eqn:E, (bits t <=? 32); cbn; auto. Qed.
Lemma unified_validate t r : validate_fty (unified_ty t) r = validate_fty t r.
Proof. destruct t as [[]| | | | | | |]; try reflexivity. cbn [unified_ty validate_fty]. unfold validate_core, check_specs. rewrite unified_signed. reflexivity. Qed.
Lemma unified_loop tys : forall fuel r use inc matched,
  validate_loop fuel (map unified_ty tys) r use inc matched = validate_loop fuel tys r use inc matched.
Proof.
  induction fuel as [|fuel IH]; intros r use inc matched; cbn [validate_loop]; [reflexivity|]. rewrite !map_length.
  destruct (check_text (S (length (rtext r))) r) as [[[|]| | |] r1]; try reflexivity.
  destruct (check_field r1 use inc) as [[[[n use'] inc']| | |] r2]; try reflexivity.
  destruct (n =? no_more_args); [reflexivity|]. destruct (Z.of_nat (length tys) <=? n); [reflexivity|].
  destruct (bitset_set matched (Z.to_nat n)) as [matched'| | |]; cbn [bind]; try reflexivity.
  rewrite nth_error_map. destruct (nth_error tys (Z.to_nat n)) as [t|]; cbn [option_map]; [|reflexivity].
  rewrite unified_validate. destruct (validate_fty t r2) as [[[]| | |] r3]; try reflexivity. apply IH.
Qed.
Lemma erased_validate s tys : validate_erased s tys = validate_string s tys.
Proof. apply unified_loop. Qed.

(** ** Plain strings *)
Lemma plain_direct s : check_if_plain_direct s = check_if_plain_string s.
Proof.
  unfold check_if_plain_direct, check_if_plain_string. induction s as [|c s IH]; [reflexivity|].
  cbn [find_first_of existsb]. change (str "{}") with [123; 125] in *. cbn [existsb]. rewrite orb_false_r.
  destruct ((c =? 123) || (c =? 125)); [reflexivity|]. cbn [orb]. rewrite <- IH. now destruct (find_first_of s [123; 125]).
Qed.
Lemma memchr_found s c : memchr s c (length s) = None <-> existsb (fun x => x =? c) s = false.
Proof.
  induction s as [|x s IH]; [now split|]. cbn [memchr existsb length]. destruct (x =? c); [now split|]. cbn [orb]. rewrite <- IH. now destruct (memchr s c (length s)).
Qed.
Lemma plain_memchr s : check_if_plain_memchr s = check_if_plain_string s.
Proof.
  unfold check_if_plain_memchr, check_if_plain_string.
  assert (E : existsb (fun c => (c =? 123) || (c =? 125)) s = existsb (fun x => x =? 123) s || existsb (fun x => x =? 125) s).
  { induction s as [|x s IH]; [reflexivity|]. cbn [existsb]. rewrite IH. destruct (x =? 123), (x =? 125), (existsb (fun x => x =? 123) s), (existsb (fun x => x =? 125) s); reflexivity. }
  rewrite E. assert (A := memchr_found s 123). assert (B := memchr_found s 125).
  destruct (memchr s 123 (length s)), (memchr s 125 (length s)), (existsb (fun x => x =? 123) s), (existsb (fun x => x =? 125) s); cbn; try reflexivity;
    first [destruct A as [A1 A2]; try discriminate (A1 eq_refl); try discriminate (A2 eq_refl)|idtac];
    destruct B as [B1 B2]; try discriminate (B1 eq_refl); try discriminate (B2 eq_refl).
Qed.
Lemma from_direct s tys : vstr_from_direct s tys = vstr_from s tys.
Proof. unfold vstr_from_direct, vstr_from. now rewrite plain_direct, validate_paths, erased_validate. Qed.
Lemma from_erased s tys : vstr_from_erased s tys = vstr_from s tys.
Proof. unfold vstr_from_erased, vstr_from. now rewrite plain_memchr, erased_validate. Qed.

(** ** Scanning *)
Lemma scan_at m tys : forall n fr r,
  match nth_error tys n with
  | Some t => scan_direct_at m n tys fr r = scan_field m t fr r
  | None => scan_direct_at m n tys fr r = (Err invalid_format, (fr, (r, None)))
  end.
Proof. induction tys as [|t tys IH]; intros [|n] fr r; cbn [nth_error scan_direct_at]; try reflexivity. apply IH. Qed.
Lemma scan_paths_loop m tys : forall fuel inc st,
  fst (scan_loop fuel m tys inc st) <> Undef -> scan_direct_loop fuel m tys inc st = scan_loop fuel m tys inc st.
Proof.
  induction fuel as [|fuel IH]; intros inc st; cbn [scan_loop scan_direct_loop]; [intros N; now contradiction N|].
  destruct (scan_text (S (length (rtext (fst st)))) st (rpos (fst st))) as [[[|]| | |] [fr [r vars]]]; cbn [sbind negb]; try reflexivity.
  destruct (parse_field fr inc) as [[[n inc']| | |] fr']; cbn [sbind]; try reflexivity.
  destruct (n =? no_more_args); [reflexivity|].
  assert (A := scan_at m tys (Z.to_nat n) fr' r). destruct (nth_error tys (Z.to_nat n)) as [t|]; [|intros N; now contradiction N].
  rewrite A. destruct (scan_field m t fr' r) as [[[]| | |] [fr2 [r2 v]]]; cbn [sbind]; try reflexivity. apply IH.
Qed.
Lemma scan_paths m r s tys vars :
  fst (vscan_from m r s tys vars) <> Undef -> scan_from_direct m r s tys vars = vscan_from m r s tys vars.
Proof.
  unfold vscan_from, scan_from_direct. destruct (vs_str s) as [sv| | |]; try reflexivity. destruct (vs_plain s); [reflexivity|].
  intros N. rewrite scan_paths_loop; [reflexivity|]. intros E. apply N.
  destruct (scan_loop (S (length sv)) m tys 0 (reader_of sv, (r, vars))) as [o st]. cbn in E |- *. exact E.
Qed.
Lemma scan_validate_at_nth tys : forall n r,
  match nth_error tys n with
  | Some t => scan_validate_at n tys r = validate_sty t r
  | None => scan_validate_at n tys r = (Err invalid_format, r)
  end.
Proof. induction tys as [|t tys IH]; intros [|n] r; cbn [nth_error scan_validate_at]; try reflexivity. apply IH. Qed.
Lemma scan_validate_paths_loop tys : forall fuel r use inc matched, 0 <= inc ->
  scan_validate_direct_loop fuel tys r use inc matched = scan_validate_loop fuel tys r use inc matched.
Proof.
  induction fuel as [|fuel IH]; intros r use inc matched HI; cbn [scan_validate_direct_loop scan_validate_loop]; [reflexivity|].
  destruct (check_text (S (length (rtext r))) r) as [[[|]| | |] r1]; try reflexivity.
  destruct (check_field r1 use inc) as [[[[n use'] inc']| | |] r2] eqn:EC; try reflexivity. apply check_field_range in EC; [|exact HI].
  destruct (n =? no_more_args); [reflexivity|]. destruct (Z.of_nat (length tys) <=? n) eqn:EL; [reflexivity|].
  destruct (bitset_set matched (Z.to_nat n)) as [matched'| | |]; cbn [bind]; try reflexivity.
  assert (A := scan_validate_at_nth tys (Z.to_nat n) r2). destruct (nth_error tys (Z.to_nat n)) as [t|] eqn:EN.
  - rewrite A. destruct (validate_sty t r2) as [[[]| | |] r3]; try reflexivity. now apply IH.
  - apply nth_error_None in EN. exfalso. apply Z.leb_gt in EL. lia.
Qed.
Lemma scan_validate_paths s tys : scan_validate_direct s tys = scan_validate s tys.
Proof. now apply scan_validate_paths_loop. Qed.

(** ** Integer types *)
Lemma unified_range t v : is_ity t -> in_range t v -> in_range (unified_int t) v /\ In (unified_int t) [i32; i64; u32; u64] /\ wrap (unified_int t) v = v.
Proof.
  intros HT HR.
  assert (A : forall u, In u [i32; i64; u32; u64] -> in_range u v -> wrap u v = v).
  { intros u HU HRu. unfold in_range, imin, imax in HRu. unfold wrap. cbn in HU. repeat (destruct HU as [<- |HU]); [..|contradiction]; cbn [bits signed i32 i64 u32 u64 andb] in *.
    - destruct (Z.lt_ge_cases v 0); [rewrite <- (Z_mod_plus_full v 1)|]; rewrite Z.mod_small by lia; destruct (2 ^ (32 - 1) <=? _) eqn:E; lia.
    - destruct (Z.lt_ge_cases v 0); [rewrite <- (Z_mod_plus_full v 1)|]; rewrite Z.mod_small by lia; destruct (2 ^ (64 - 1) <=? _) eqn:E; lia.
    - apply Z.mod_small. lia.
    - apply Z.mod_small. lia. }
  assert (B : in_range (unified_int t) v /\ In (unified_int t) [i32; i64; u32; u64]).
  { unfold in_range, imin, imax in *. cbn in HT. repeat (destruct HT as [<- |HT]); [..|contradiction]; cbn [bits signed i8 i16 i32 i64 u8 u16 u32 u64] in HR;
      (split; [|cbn; auto 10]); unfold unified_int; cbn [bits signed i8 i16 i32 i64 u8 u16 u32 u64]; match goal with |- context [?a <=? 32] => let x := eval vm_compute in (a <=? 32) in change (a <=? 32) with x end; cbn [bits signed i32 i64 u32 u64]; lia. }
  destruct B as [B1 B2]. auto.
Qed.

(** ** Strings without braces *)
Definition braceless (c : Z) : Prop := c <> 123 /\ c <> 125.
Lemma parse_text_plain {K} (vt : vtable K) T b begin : Forall braceless T -> forall fuel p, (p <= length T)%nat -> (length T - p < fuel)%nat ->
  parse_text vt fuel (mk_reader T p, b) begin =
  (sdo (_, st) <- (if (begin =? length T)%nat then (Ok tt, (mk_reader T (length T), b)) else process vt (mk_reader T (length T), b) begin (length T)) ;; (Ok false, st)).
Proof.
  intros HB. induction fuel as [|fuel IH]; intros p HP HF; [lia|]. cbn [parse_text rtext rpos]. destruct (nth_error T p) as [c|] eqn:E.
  - assert (HI := nth_error_In _ _ E). rewrite Forall_forall in HB. destruct (HB c HI) as [H1 H2]. assert (L : (p < length T)%nat) by (apply nth_error_Some; congruence).
    replace (c =? 123) with false by lia. replace (c =? 125) with false by lia. unfold set_pos. cbn [rtext]. apply IH; lia.
  - apply nth_error_None in E. assert (p = length T) as -> by lia. reflexivity.
Qed.
Lemma format_plain {K} (vt : vtable K) b s args : Forall braceless s ->
  vformat_to vt b (mk_vstr true (Ok s)) args = vformat_to vt b (mk_vstr false (Ok s)) args.
Proof.
  intros HB. unfold vformat_to, vformat_erased. cbn [vs_str vs_plain]. unfold parse_format. cbn [parse_loop fst]. unfold reader_of. cbn [rtext rpos].
  rewrite (parse_text_plain vt s b 0 HB) by lia. destruct s as [|c s].
  - reflexivity.
  - change (0 =? length (c :: s))%nat with false. cbv iota. unfold process. cbn [rtext skipn]. rewrite Nat.sub_0_r, firstn_all.
    destruct (write_str vt b (c :: s)) as [[[]| | |] b']; cbn [on_buffer sbind negb snd]; reflexivity.
Qed.
Lemma scan_text_plain T rv begin : Forall braceless T -> forall fuel p, (p <= length T)%nat -> (length T - p < fuel)%nat ->
  scan_text fuel (mk_reader T p, rv) begin =
  (sdo (_, st) <- (if (begin =? length T)%nat then (Ok tt, (mk_reader T (length T), rv)) else match_part (mk_reader T (length T), rv) begin (length T)) ;; (Ok false, st)).
Proof.
  intros HB. induction fuel as [|fuel IH]; intros p HP HF; [lia|]. cbn [scan_text rtext rpos]. destruct (nth_error T p) as [c|] eqn:E.
  - assert (HI := nth_error_In _ _ E). rewrite Forall_forall in HB. destruct (HB c HI) as [H1 H2]. assert (L : (p < length T)%nat) by (apply nth_error_Some; congruence).
    replace (c =? 123) with false by lia. replace (c =? 125) with false by lia. unfold set_pos. cbn [rtext]. apply IH; lia.
  - apply nth_error_None in E. assert (p = length T) as -> by lia. reflexivity.
Qed.
Lemma match_nothing r : read_if_match_str r [] = (Ok [], r).
Proof. unfold read_if_match_str. cbn. unfold set_pos. destruct r. cbn. now rewrite Nat.add_0_r. Qed.
Lemma scan_plain m r s tys vars : Forall braceless s ->
  vscan_from m r (mk_vstr true (Ok s)) tys vars = vscan_from m r (mk_vstr false (Ok s)) tys vars.
Proof.
  intros HB. unfold vscan_from. cbn [vs_str vs_plain]. cbn [scan_loop fst]. unfold reader_of. cbn [rtext rpos].
  rewrite (scan_text_plain s (r, vars) 0 HB) by lia. destruct s as [|c s].
  - rewrite match_nothing. reflexivity.
  - change (0 =? length (c :: s))%nat with false. cbv iota. unfold match_part. cbn [rtext skipn]. rewrite Nat.sub_0_r, firstn_all.
    destruct (read_if_match_str r (c :: s)) as [[x| | |] r']; cbn [bind sbind negb snd]; reflexivity.
Qed.
