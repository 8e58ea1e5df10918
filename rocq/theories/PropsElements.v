(** Property C58: ranges, optionals and variants of values with user-defined formatters. *)
From Verif Require Import Base Conversion Reader Buffer Writer Bitset Specs FormatArg FloatArg Format Custom Elements.
From Verif Require Import Lib SpecNum SpecReader SpecEscape SpecWriter SpecFloat SpecFormat SpecDecimal SpecField SpecSpecs SpecString SpecCustom SpecElements.
From Verif Require Import ConversionProofs ReaderProofs SpecsProofs BufferProofs Emits WriterProofs CallProofs FieldProofs StringProofs StringLoop StringEmits StringTop StringTuples PropsFormat CustomProofs PropsCustom ElementsProofs SpecString SpecCustom SpecElements.

(** ** Formatters built from others keep their promise *)
Theorem C58_range : forall A (F : formatter A) c o cl sep,
  keeps_promise F c -> f_validate F <> None -> p_reads c [125] ->
  keeps_promise (range_of F (mk_rs o cl sep)) (range_promise (o, cl, sep) c).
Proof. intros A F c o cl sep HK HV HR. exact (range_keeps F c HK (o, cl, sep) HV HR). Qed.
Print Assumptions C58_range.

Theorem C58_optional : forall A (F : formatter A) c, keeps_promise F c -> keeps_promise (optional_of F) (optional_promise c).
Proof. exact @optional_keeps. Qed.
Print Assumptions C58_optional.

Theorem C58_derived : forall A B (F : formatter A) c (convert : B -> A),
  keeps_promise F c -> keeps_promise (derived_of F convert) (derived_promise convert c).
Proof. intros A B F c convert HK. exact (derived_keeps F c HK convert). Qed.
Print Assumptions C58_derived.

Theorem C58_variant : forall alternative : user -> contract -> Prop,
  (forall u c, alternative u c -> keeps u c /\ c_reads c [125]) -> keeps_promise variant_of (variant_promise alternative).
Proof. exact variant_keeps. Qed.
Print Assumptions C58_variant.

(** A formatter that keeps its promise can be used for arguments, so that C56 says
    which format strings are accepted and what they write. *)
Theorem C58_argument : forall A (F : formatter A) c a, keeps_promise F c -> p_value c a -> keeps (as_user F a) (promise_for c a).
Proof. intros A F c a HK. exact (argument_keeps F c HK a). Qed.
Print Assumptions C58_argument.

(** Conversely a formatter that can be used for arguments can be used for elements. *)
Theorem C58_element : forall A (F : formatter A) c,
  (exists a, p_value c a) -> (forall a, p_value c a -> keeps (as_user F a) (promise_for c a)) ->
  f_debug F = None -> (forall sp a out o, p_does c false sp a out o -> p_does c true sp a out o) ->
  keeps_promise F c.
Proof.
  intros A F c (a0 & H0) HK HD HE. assert (K0 := HK a0 H0). split.
  - exact (k_closed _ _ K0).
  - exact (k_sound _ _ K0).
  - exact (k_complete _ _ K0).
  - intros debug T n sp rest HB HS HR HV _. destruct (k_format _ _ K0 T n sp rest HB HS HR HV) as (m & _ & _ & HP & _). cbn [as_user u_parse] in HP.
    exists m. split; [unfold set_debug; rewrite HD; destruct debug; exact HP|]. intros a HA.
    destruct (k_format _ _ (HK a HA) T n sp rest HB HS HR HV) as (m' & out & o & HP' & HDo & HO & HAc). cbn [as_user u_parse u_format] in HP', HAc. rewrite HP in HP'. injection HP' as <-.
    exists out, o. split; [destruct debug; [apply HE|]; exact HDo|]. split; [exact HO|exact HAc].
Qed.
Print Assumptions C58_element.

(** ** The formatters of the library *)

(** All without tuples can be elements, with the texts of C22; characters and texts in
    ranges are escaped unless there is a specification. *)
Theorem C58_library : forall t, tuple_free t -> keeps_promise (lib t) (lib_promise t).
Proof. exact lib_keeps. Qed.
Print Assumptions C58_library.

(** For elements of the library the templates are the formatters of Format.v. *)
Definition new_specs (k : rkind) : ranges_specs := match k with range_list => list_specs | _ => set_specs end.
Definition new_underlying (k : rkind) (t : fty) : fmtr :=
  match k with range_map => set_separator (set_brackets (new_formatter t) [] []) (str ": ") | _ => new_formatter t end.
Definition same_user (u u' : user) : Prop :=
  (forall r, validate_trait u r = validate_trait u' r) /\ (forall K (vt : vtable K) r b, user_erase vt u r b = user_erase vt u' r b).
Theorem C58_library_same :
  (forall k t vs, same_user (as_user (range_of (lib_from t (new_underlying k t)) (new_specs k)) vs) (builtin (FRange k t, VRange vs))) /\
  (forall t v, same_user (as_user (optional_of (lib t)) v) (builtin (FOpt t, VOpt v))) /\
  (forall v, same_user (as_user variant_of (match v with
                                            | None => valueless
                                            | Some (_, VCore (AChar c)) => holds_char c
                                            | Some (_, VCore (AStr s)) => holds_text s
                                            | Some tv => holds (builtin tv)
                                            end)) (builtin (FVariant, VVariant v))).
Proof.
  split; [|split].
  - intros k t vs. split; [intros r; reflexivity|]. intros K vt r b. unfold user_erase. cbn [as_user builtin u_parse u_format fst snd].
    assert (E : new_formatter (FRange k t) = MRange (new_specs k) (new_underlying k t)) by (now destruct k). unfold parse_fmtr. rewrite E, parse_range.
    cbn [range_of f_parse f_new]. rewrite range_of_peek. unfold range_peek.
    destruct (assume (peek_s r)) as [[c|?| |] r1]; try reflexivity. cbn [sbind]. cbv zeta.
    set (r2 := if c =? 110 then pop r1 1 else r1). set (rs := if c =? 110 then mk_rs [] [] (rs_sep (new_specs k)) else new_specs k). destruct (if c =? 110 then assume (peek_s r2) else (Ok c, r2)) as [[c2|?| |] r3]; try reflexivity. cbn [sbind].
    change (f_new (lib_from t (new_underlying k t))) with (new_underlying k t). rewrite parse_debug. change (f_parse (lib_from t (new_underlying k t)) (new_underlying k t) (pop r3 1)) with (parse_with None (new_underlying k t) (pop r3 1)). change (f_object (lib_from t (new_underlying k t))) with fmtr.
    destruct (if c2 =? 125 then parse_with (Some true) (new_underlying k t) r3 else parse_with None (new_underlying k t) (pop r3 1)) as [[m|?| |] r4]; try reflexivity. cbn [sbind on_reader].
    f_equal. cbn [range_of f_format fst snd format_fval]. destruct (write_str vt b (rs_open rs)) as [[[]|?| |] b1]; try reflexivity. cbn [sbind]. now rewrite format_lib_elements.
  - intros t v. split; [intros r; reflexivity|]. intros K vt r b. unfold user_erase. cbn [as_user builtin u_parse u_format fst snd optional_of f_parse f_new lib lib_from new_formatter]. unfold parse_fmtr. cbn [parse_with].
    destruct (parse_with None (new_formatter t) r) as [[m|?| |] r1]; try reflexivity; destruct v; reflexivity.
  - intros v. split; [intros r; reflexivity|]. intros K vt r b. unfold user_erase. cbn [as_user builtin u_parse u_format fst snd variant_of f_parse f_new new_formatter]. unfold parse_fmtr. cbn [parse_with].
    destruct (match_rbrace r) as [[[]|?| |] r1]; try reflexivity. cbn [sbind on_reader]. f_equal.
    destruct v as [[t [[]| | | | | | |]]|]; reflexivity.
Qed.
Print Assumptions C58_library_same.

(** ** Examples *)

(** The formatter of test/unit_test/test_formatter.cpp:62-92 *)
Definition sign_formatter (name : list Z) : formatter Z :=
  mk_formatter Z 1 None (Some (fun r => sdo (_, r) <- read_sign r ;; (Ok tt, r))) (fun _ => assume_sign)
    (fun K vt sign id b => vformat_to vt b (mk_vstr false (Ok (name ++ str ": {}"))) [(int_t, int_v (sign * id))]).
Definition sign_promise (name : list Z) : promise Z :=
  mk_promise (fun id => - 2 ^ 31 < id < 2 ^ 31) (fun sp => sp = str "}" \/ sp = str "-}")
    (fun _ sp id out o => o = Ok tt /\ sign_text name (if (length sp =? 1)%nat then id else - id) out).
Theorem C58_sign : forall name,
  Forall is_byte name -> (forall c, In c name -> ~ is_brace c) -> keeps_promise (sign_formatter name) (sign_promise name).
Proof.
  intros name HB HN. apply C58_element; [exists 0; cbn; lia| |reflexivity|auto]. intros id HI. exact (C56_sign true name id HB HN HI).
Qed.
Print Assumptions C58_sign.

(** Ranges, optionals, ranges of optionals and a range of ranges. *)
Definition foos : formatter (list Z) := range_of (sign_formatter (str "foo")) list_specs.
Definition foos_promise := range_promise (str "[", str "]", str ", ") (sign_promise (str "foo")).
Lemma foo_keeps : keeps_promise (sign_formatter (str "foo")) (sign_promise (str "foo")).
Proof. apply C58_sign; [bytes|unfold is_brace; cbn; lia]. Qed.
Lemma foos_keeps : keeps_promise foos foos_promise.
Proof. apply C58_range; [exact foo_keeps|discriminate|now left]. Qed.

Example C58_example :
  let us := [as_user foos [1; 2]; as_user (optional_of (sign_formatter (str "foo"))) (Some 3); as_user (range_of foos set_specs) [[]; [4]; [5; 6]]; as_user variant_of (holds (as_user foos [7]))] in
  let cs := [promise_for foos_promise [1; 2]; promise_for (optional_promise (sign_promise (str "foo"))) (Some 3); promise_for (range_promise (str "{", str "}", str ", ") foos_promise) [[]; [4]; [5; 6]];
             promise_for (variant_promise (fun u c => u = as_user foos [7] /\ c = promise_for foos_promise [7])) (holds (as_user foos [7]))] in
  let s := str "{0:n:-} {1} {2:n::-} {3} {0}" in
  Forall2 keeps us cs /\ Forall is_byte s /\ user_accepted s us /\
  user_run s us = Ok (Ok tt, str "foo: -1, foo: -2 optional(foo: 3) [], [foo: -4], [foo: -5, foo: -6] variant([foo: 7]) [foo: 1, foo: 2]").
Proof.
  intros us cs s. split; [|split; [bytes|split; [exists (mk_vstr false (Ok s)); split; vm_compute; reflexivity|vm_compute; reflexivity]]].
  unfold us, cs. constructor; [|constructor; [|constructor; [|constructor; [|constructor]]]].
  - apply C58_argument; [exact foos_keeps|repeat constructor; cbn; lia].
  - apply C58_argument; [apply C58_optional; exact foo_keeps|cbn; lia].
  - apply C58_argument; [|repeat constructor; cbn; lia]. apply C58_range; [exact foos_keeps|discriminate|]. exists false, None. split; [reflexivity|exact Logic.I].
  - apply C58_argument; [|cbn; eauto]. apply C58_variant. intros u c (-> & ->). split; [apply C58_argument; [exact foos_keeps|repeat constructor; cbn; lia]|]. exists false, None. split; [reflexivity|exact Logic.I].
Qed.

(** A class derived from the formatter of texts: escaped in a range without a
    specification, because set_debug_format is inherited. *)
Definition color_name (red : bool) : fval := VCore (AStr (if red then str "red" else str "blue")).
Definition color_formatter : formatter bool := derived_of (lib (FCore TStr)) color_name.
Example C58_derived_example :
  keeps_promise color_formatter (derived_promise color_name (lib_promise (FCore TStr))) /\
  (forall red, p_value (derived_promise color_name (lib_promise (FCore TStr))) red) /\
  user_run (str "{} {:>6}") [as_user color_formatter true; as_user color_formatter false] = Ok (Ok tt, str "red   blue") /\
  user_run (str "{} {::} {:n:_<5}") [as_user (range_of color_formatter list_specs) [true; false]; as_user (range_of color_formatter list_specs) [true]; as_user (range_of color_formatter list_specs) [false; true]] =
    Ok (Ok tt, str "[" ++ [34] ++ str "red" ++ [34] ++ str ", " ++ [34] ++ str "blue" ++ [34] ++ str "] [red] blue_, red__").
Proof.
  split; [apply C58_derived; now apply C58_library|]. split; [|split; vm_compute; reflexivity].
  intros []; (apply (ht_core (AStr _)); [bytes|vm_compute; reflexivity]).
Qed.

(** An element that fails ends the range. *)
Definition picky_formatter : formatter Z :=
  mk_formatter unit tt None (Some match_rbrace) (fun _ => match_rbrace)
    (fun K vt _ x b => sdo (_, b) <- write_char vt b 60 ;; if x <? 0 then (Err invalid_data, b) else write_char vt b 62).
Definition picky_promise : promise Z :=
  mk_promise (fun _ => True) (eq [125]) (fun _ _ x out o => (0 <= x /\ out = str "<>" /\ o = Ok tt) \/ (x < 0 /\ out = str "<" /\ o = Err invalid_data)).
Example C58_failing_example :
  keeps_promise picky_formatter picky_promise /\
  user_run (str "{}!") [as_user (range_of picky_formatter list_specs) [1; 2]] = Ok (Ok tt, str "[<>, <>]!") /\
  user_run (str "{}!") [as_user (range_of picky_formatter list_specs) [1; -2; 3]] = Ok (Err invalid_data, str "[<>, <") /\
  user_run (str "{}!") [as_user (optional_of picky_formatter) (Some (-1))] = Ok (Err invalid_data, str "optional(<").
Proof.
  split; [|repeat split; vm_compute; reflexivity]. apply C58_element; [exists 0; exact Logic.I| |reflexivity|auto]. intros x _.
  apply (rbrace_keeps true). destruct (x <? 0) eqn:E.
  - exists (str "<"), (Err invalid_data). split; [right; split; [lia|auto]|]. split; [eauto|]. cbn [as_user u_format picky_formatter f_format]. rewrite E.
    apply (acts_bind (fun K vt b => write_char vt b 60) (fun K vt b => (Err invalid_data, b)) [60] []); [apply acts_char|]. exists []. split; [reflexivity|]. intros. apply emits_ret.
  - exists (str "<>"), (Ok tt). split; [left; split; [lia|auto]|]. split; [now left|]. cbn [as_user u_format picky_formatter f_format]. rewrite E.
    apply (acts_bind (fun K vt b => write_char vt b 60) (fun K vt b => write_char vt b 62) [60] [62]); apply acts_char.
Qed.

(** ** The formatter of the elements must accept an empty specification *)

(** Without a colon the elements are not validated, but they parse the closing brace.
    For a formatter that demands a specification, and relies on it having been
    validated, the field of a range without one is accepted although parsing it is
    undefined; the same for a variant.  Used alone, the formatter is fine. *)
Definition demanding_formatter : formatter Z :=
  mk_formatter unit tt None (Some (fun r => sdo (_, r) <- read_if_match_char r 120 ;; match_rbrace r))
    (fun _ r => sdo (_, r) <- assume (read_char r) ;; sdo (_, r) <- assume (read_char r) ;; (Ok tt, r))
    (fun K vt _ x b => write_char vt b 33).
Definition demanding_promise : promise Z := mk_promise (fun _ => True) (eq (str "x}")) (fun _ _ _ out o => out = str "!" /\ o = Ok tt).
Theorem C58_no_spec_refuted : exists (F : formatter Z) c,
  keeps_promise F c /\ f_validate F <> None /\ (forall x, p_value c x) /\
  user_run (str "{:x}") [as_user F 1] = Ok (Ok tt, str "!") /\ user_run (str "{}") [as_user F 1] = Err invalid_format /\
  user_accepted (str "{}") [as_user (range_of F list_specs) [1]] /\ fst (user_format_to mem_vt (memory_buffer 4 4) (mk_vstr false (Ok (str "{}"))) [as_user (range_of F list_specs) [1]]) = Undef /\
  user_accepted (str "{}") [as_user variant_of (holds (as_user F 1))] /\ fst (user_format_to mem_vt (memory_buffer 4 4) (mk_vstr false (Ok (str "{}"))) [as_user variant_of (holds (as_user F 1))]) = Undef.
Proof.
  exists demanding_formatter, demanding_promise.
  assert (V : forall T n r, validate_trait_of demanding_formatter (mk_reader T n) = (Ok tt, r) <-> (exists rest, skipn n T = str "x}" ++ rest) /\ r = mk_reader T (n + 2)).
  { intros T n r. cbn [validate_trait_of demanding_formatter f_validate]. unfold read_if_match_char. destruct (peek (mk_reader T n)) as [c| | |] eqn:EP; cbn [sbind]; try (split; [discriminate|intros [(rest & E) _]; rewrite (peek_at _ _ _ _ E) in EP; discriminate]).
    destruct (c =? 120) eqn:EC; cbn [sbind].
    - apply peek_inv in EP. destruct EP as (l & EP). assert (c = 120) as -> by lia. unfold set_pos. cbn [rpos rtext]. rewrite match_rbrace_ok, Nat.add_1_r, (skip_succ _ _ _ _ EP), EP. split.
      + intros [(rest & ->) ->]. split; [exists rest; reflexivity|f_equal; lia].
      + intros [(rest & E) ->]. injection E as ->. split; [eauto|f_equal; lia].
    - split; [discriminate|]. intros [(rest & E) _]. rewrite (peek_at _ _ _ _ E) in EP. injection EP as <-. discriminate. }
  split; [|split; [discriminate|split; [intros; exact Logic.I|]]].
  - split; cbn [demanding_promise p_reads p_value p_does].
    + intros sp <-. exists [120]. split; [reflexivity|]. cbn. lia.
    + intros T n _ HN. assert (S : settled (mk_reader T n) (validate_trait_of demanding_formatter (mk_reader T n))).
      { cbn [validate_trait_of demanding_formatter f_validate]. apply settled_bind; [|intros; now apply settled_brace]. unfold read_if_match_char.
        destruct (peek_cases (mk_reader T n) HN) as [(c & s' & Es & ->)|(Es & ->)]; [|now apply settled_err]. destruct (c =? 120); [|now apply settled_err].
        apply settled_ok; [|reflexivity]. unfold rwf, set_pos. cbn [rpos rtext]. assert (L := f_equal (@length Z) Es). unfold view_remaining in L. cbn [rpos rtext] in L. rewrite skipn_length in L. cbn [length] in L. lia. }
      destruct (validate_trait_of demanding_formatter (mk_reader T n)) as [[[]|?| |] r] eqn:E; [|exact Logic.I|exact S..].
      apply V in E. destruct E as [(rest & E) ->]. exists (str "x}"), rest. auto.
    + intros T n sp rest _ HS <- _. apply V. eauto.
    + intros debug T n sp rest _ HS <- _ _. exists tt. change (str "x}" ++ rest) with (120 :: 125 :: rest) in HS. split.
      * cbn [demanding_formatter f_parse]. rewrite (PropsCustom.read_at _ _ _ _ HS). cbn [assume sbind]. assert (HS1 := skip_succ _ _ _ _ HS). rewrite (PropsCustom.read_at _ _ _ _ HS1). cbn [assume sbind]. rewrite Nat.add_comm. reflexivity.
      * intros a _. exists (str "!"), (Ok tt). split; [auto|]. split; [now left|]. apply acts_char.
  - repeat split; try (vm_compute; reflexivity); exists (mk_vstr false (Ok (str "{}"))); split; vm_compute; reflexivity.
Qed.
Print Assumptions C58_no_spec_refuted.
