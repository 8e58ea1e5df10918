(** Properties C51, C52, C53, C54: standard library types, the two paths of
    formatting and scanning, validated strings, nested arguments. *)
From Verif Require Import Base Conversion Reader Buffer Writer Bitset Specs FormatArg FloatArg Format FormatApi Scan Direct Validated.
From Verif Require Import Lib SpecNum SpecReader SpecEscape SpecWriter SpecFloat SpecFormat SpecDecimal SpecField SpecSpecs SpecString.
From Verif Require Import ConversionProofs ReaderProofs SpecsProofs BufferProofs TruncProofs Emits WriterProofs CallProofs FieldProofs PropsWriter PropsField StringProofs StringLoop StringEmits StringTop StringTuples StringUnique PropsFormat PropsApi DirectProofs SpecString.

(** ** C52 The direct and the type erased path *)

(** Whatever the sink: when the type erased path is defined, the direct one does
    the same. *)
Theorem C52_paths : forall K (vt : vtable K) b s args,
  fst (vformat_to_erased vt b s args) <> Undef -> format_to_direct vt b s args = vformat_to_erased vt b s args.
Proof. intros K vt. exact (paths_agree vt). Qed.
Print Assumptions C52_paths.

Lemma call_defined v args : format_call v args ->
  forall K (vt : vtable K) R cap amax room w b, lawful vt R cap amax room -> R w b -> room = None -> fst (vformat_to vt b v args) <> Undef.
Proof.
  intros HC K vt R cap amax room w b HL HR ->. destruct (call_emits v args HC) as (ops & o & HO & _ & HW).
  destruct (HW K vt R cap amax None HL w b HR Logic.I) as (b' & _ & E). rewrite E. cbn [fst]. destruct (fst (exec cap amax w ops)); [destruct HO as [-> | ->]|]; discriminate.
Qed.
(** For calls without tuples in front of other items this is always the case: the
    paths agree on memory buffers with any history, on fixed buffers and on the
    size. *)
Theorem C52_calls : forall v args, format_call v (map unified_arg args) ->
  (forall storage capacity ops, Forall op_ok ops ->
     let b := mem_after storage capacity ops in format_to_direct mem_vt b v args = vformat_to_erased mem_vt b v args) /\
  (forall cells, let b := span_buffer cells in format_to_direct span_vt b v args = vformat_to_erased span_vt b v args) /\
  (forall I (put : I -> Z -> I) it, let b := iterator_buffer default_cache_size it in format_to_direct (iter_vt put) b v args = vformat_to_erased (iter_vt put) b v args) /\
  formatted_size_direct v args = vformatted_size_erased v args.
Proof.
  intros v args HC. assert (HD := call_defined v _ HC). split; [|split; [|split]].
  - intros storage capacity ops HO b. apply paths_agree. apply (HD _ mem_vt mem_R None None None _ _ mem_lawful (mem_after_R storage capacity ops HO) eq_refl).
  - intros cells b. apply paths_agree. apply (HD _ span_vt _ _ _ _ _ _ (span_lawful (length cells)) (span_buffer_init cells) eq_refl).
  - intros I put it b. apply paths_agree. apply (HD _ (iter_vt put) _ _ _ _ _ _ (iter_lawful put it default_cache_size ltac:(unfold default_cache_size; lia)) (iterator_buffer_init put it default_cache_size) eq_refl).
  - unfold formatted_size_direct, vformatted_size_erased, vformatted_size. rewrite paths_agree; [reflexivity|].
    apply (HD _ count_vt _ _ _ _ _ _ (count_lawful default_cache_size ltac:(unfold default_cache_size; lia)) (counting_buffer_init default_cache_size) eq_refl).
Qed.
Print Assumptions C52_calls.

(** A string is judged equally at compile time and at run time. *)
Theorem C52_validation : forall s tys,
  vstr_from_direct s tys = vstr_from s tys /\ vstr_from_erased s tys = vstr_from s tys.
Proof. intros s tys. split; [apply from_direct|apply from_erased]. Qed.
Print Assumptions C52_validation.

Theorem C52_scan : forall m r s tys vars,
  fst (vscan_from m r s tys vars) <> Undef -> scan_from_direct m r s tys vars = vscan_from m r s tys vars.
Proof. exact scan_paths. Qed.
Print Assumptions C52_scan.
Theorem C52_scan_validation : forall s tys, scan_validate_direct s tys = scan_validate s tys.
Proof. exact scan_validate_paths. Qed.
Print Assumptions C52_scan_validation.

(** Arguments of the integer types are stored with their value. *)
Definition native (tv : fty * fval) : Prop :=
  (exists t v, is_ity t /\ in_range t v /\ tv = (FCore (TInt t), VCore (AInt t v))) \/ has_type (fst tv) (snd tv).
Theorem C52_integers : forall tv, native tv ->
  has_type (fst (unified_arg tv)) (snd (unified_arg tv)) /\
  (forall t v, tv = (FCore (TInt t), VCore (AInt t v)) ->
     exists t', unified_arg tv = (FCore (TInt t'), VCore (AInt t' v)) /\ signed t' = signed t /\ bits t <= bits t' /\ (bits t' = 32 \/ bits t' = 64)) /\
  forall K (vt : vtable K) r b, erase vt (unified_arg tv) r b = erase vt tv r b.
Proof.
  intros tv HN. assert (HI : forall t v, is_ity t -> in_range t v -> unified_arg (FCore (TInt t), VCore (AInt t v)) = (FCore (TInt (unified_int t)), VCore (AInt (unified_int t) v))).
  { intros t v HT HR. cbn [unified_arg]. destruct (unified_range t v HT HR) as (_ & _ & ->). reflexivity. }
  assert (HB : forall t, is_ity t -> bits t <= bits (unified_int t) /\ (bits (unified_int t) = 32 \/ bits (unified_int t) = 64)).
  { intros t HT. cbn in HT. repeat (destruct HT as [<- |HT]); [..|contradiction]; vm_compute; (split; [discriminate|auto]). }
  assert (C : (exists t v, is_ity t /\ in_range t v /\ tv = (FCore (TInt t), VCore (AInt t v))) \/ unified_arg tv = tv /\ has_type (fst tv) (snd tv) /\ forall t v, tv <> (FCore (TInt t), VCore (AInt t v))).
  { destruct HN as [H|H]; [now left|]. destruct tv as [ft fv]. cbn [fst snd] in H. inversion H as [a HA HF| | | | | | | | |]; subst; try (right; split; [reflexivity|split; [exact H|intros; discriminate]]).
    destruct a; try (right; split; [reflexivity|split; [exact H|intros; discriminate]]). left. destruct HA as [HA HR]. exists t, v. split; [|auto]. cbn in HA |- *. tauto. }
  destruct C as [(t & v & HT & HR & ->)|(E & H & N)].
  - rewrite (HI t v HT HR). destruct (unified_range t v HT HR) as (R1 & R2 & _). split; [|split].
    + apply (ht_core (AInt (unified_int t) v)); [now split|exact Logic.I].
    + intros t0 v0 E0. assert (t0 = t /\ v0 = v) as [-> ->] by (injection E0; auto). exists (unified_int t). destruct (HB t HT) as [B1 B2]. split; [reflexivity|]. split; [apply unified_signed|auto].
    + intros K vt r b. unfold erase, parse_fmtr. cbn [new_formatter parse_with maybe_set_debug_format]. destruct (parse_format_specs r default_specs) as [[s| | |] r1]; cbn [on_reader sbind]; try reflexivity. cbn [fst snd]. f_equal.
      cbn [format_fval write_arg]. unfold write_arg_int. destruct (sp_type s =? 99); [reflexivity|].
      replace (to_absolute (unified_int t) v) with (to_absolute t v); [replace (is_negative (unified_int t) v) with (is_negative t v); [reflexivity|unfold is_negative; now rewrite unified_signed]|].
      unfold to_absolute. rewrite unified_signed. replace (bits (unified_int t) <=? 32) with (bits t <=? 32); [reflexivity|]. clear - HT. cbn in HT. repeat (destruct HT as [<- |HT]); [..|contradiction]; reflexivity.
  - rewrite E. split; [exact H|split; [|reflexivity]]. intros t v E0. now apply N in E0.
Qed.
Print Assumptions C52_integers.

(** False with tuples: the jump behind a tuple ends in front of a number that no
    argument has.  The type erased arguments are then read behind their end, the
    direct path fails. *)
Theorem C52_paths_refuted : exists s args v,
  typed args /\ vstr_from s (map fst args) = Ok v /\ vs_str v = Ok s /\ well_formed s (map fst args) /\
  fst (vformat_to_erased mem_vt (memory_buffer 4 4) v args) = Undef /\ fst (format_to_direct mem_vt (memory_buffer 4 4) v args) = Err invalid_format.
Proof.
  exists (str "{}{{7}}"), [(pair_t, pair_v)], (mk_vstr false (Ok (str "{}{{7}}"))).
  split; [constructor; [exact pair_typed|constructor]|]. split; [vm_compute; reflexivity|]. split; [reflexivity|]. split; [|split; vm_compute; reflexivity].
  exists [Field [] false [125]; Brace 123; Literal 55; Brace 125], [0%nat]. split; [reflexivity|]. split; [|intros [|n] H; [now left|cbn in H; lia]].
  split; [|split; [left; split; [repeat constructor|reflexivity]|]].
  - constructor; [split; [now left|reflexivity]|]. constructor; [now left|]. constructor; [intros [H|H]; discriminate|]. constructor; [now right|constructor].
  - constructor; [exists pair_t; split; [reflexivity|exact pair_default]|constructor].
Qed.
Print Assumptions C52_paths_refuted.

Example C52_example :
  let s := str "{:>6} {:#x} {}" in
  let args := [(FCore (TInt i8), VCore (AInt i8 (-128))); (FCore (TInt u16), VCore (AInt u16 65535)); (str_t, str_v (str "x"))] in
  Forall native args /\ (forall v, vstr_from s (map fst args) = Ok v ->
    fst (vformat_to_erased mem_vt (memory_buffer 4 4) v args) = Ok tt /\ mem_view (snd (format_to_direct mem_vt (memory_buffer 4 4) v args)) = str "  -128 0xffff x" /\
    formatted_size_direct v args = Ok 15%nat).
Proof.
  cbv zeta. split.
  - constructor; [left; exists i8, (-128); split; [cbn; tauto|split; [vm_compute; split; discriminate|reflexivity]]|].
    constructor; [left; exists u16, 65535; split; [cbn; tauto|split; [vm_compute; split; discriminate|reflexivity]]|].
    constructor; [right; apply (ht_core (AStr (str "x"))); [bytes|vm_compute; reflexivity]|constructor].
  - intros v H. vm_compute in H. injection H as <-. split; [vm_compute; reflexivity|split; vm_compute; reflexivity].
Qed.

(** ** C53 Validated strings *)

(** A string can be turned into a valid one in each of the ways iff it is accepted;
    the text is kept. *)
Theorem C53_valid : forall s tys, Forall is_byte s -> (length tys <= 128)%nat -> small_numbers s ->
  exists v, runtime_validated (vstr_from s tys) = Ok v /\
    ((walked s tys /\ vs_get v = Ok s /\ as_valid v = Ok v /\ valid_from (vstr_from s tys) = Ok v /\ literal_string (vstr_from s tys) = Ok v) \/
     (~ walked s tys /\ vs_get v = Err invalid_format /\ as_valid v = Err invalid_format /\ valid_from (vstr_from s tys) = Err invalid_format /\ literal_string (vstr_from s tys) = Abort)).
Proof.
  intros s tys HB HL HSm. destruct (all_decided s tys HB HL) as (v & HV & HS). exists v. split; [exact HV|]. unfold as_valid, valid_from, literal_string, vs_has_value, vs_get. rewrite HV. cbn [bind].
  destruct HS as [HS|HS]; rewrite HS; [left|right]; (split; [|auto]).
  - apply (C21_accepted_iff s tys HB HSm HL). exists v. auto.
  - intros HW. apply (C21_accepted_iff s tys HB HSm HL) in HW. destruct HW as (v' & HV' & HS'). rewrite HV in HV'. injection HV' as <-. congruence.
Qed.
Print Assumptions C53_valid.

(** Plain strings and empty strings. *)
Theorem C53_plain : forall s tys v, vstr_from s tys = Ok v ->
  (vs_is_plain_str v = true <-> tys = [] /\ Forall (fun c => ~ is_brace c) s) /\
  (vs_is_plain_str v = true -> vs_get v = Ok s) /\
  (vs_empty v = Ok true <-> tys = [] /\ s = []) /\ (vs_empty v = Ok true \/ vs_empty v = Ok false).
Proof.
  intros s tys v. assert (P : check_if_plain_string s = true <-> Forall (fun c => ~ is_brace c) s).
  { unfold check_if_plain_string. rewrite negb_true_iff. split.
    - intros H. apply Forall_forall. intros c HI HBr. assert (X : existsb (fun c => (c =? 123) || (c =? 125)) s = true); [|congruence]. apply existsb_exists. exists c. split; [exact HI|]. destruct HBr as [-> | ->]; reflexivity.
    - intros H. apply not_true_is_false. intros X. apply existsb_exists in X. destruct X as (c & HI & X). rewrite Forall_forall in H. apply (H c HI). apply orb_true_iff in X. destruct X as [X|X]; apply Z.eqb_eq in X; [left|right]; exact X. }
  unfold vstr_from. destruct ((length tys =? 0)%nat && check_if_plain_string s) eqn:E.
  - intros [= <-]. apply andb_true_iff in E. destruct E as [E1 E2]. apply Nat.eqb_eq, length_zero_iff_nil in E1. apply P in E2. unfold vs_is_plain_str, vs_get, vs_empty. cbn. split; [tauto|]. split; [reflexivity|].
    destruct s; cbn; (split; [|auto]); split; intros H; try discriminate; auto. now destruct H.
  - destruct (validate_string s tys) as [valid| | |]; cbn [bind]; try discriminate. intros [= <-]. unfold vs_is_plain_str, vs_get, vs_empty. cbn. split; [|split; [discriminate|split; [|auto]]].
    + split; [discriminate|]. intros [-> H]. apply P in H. rewrite H in E. discriminate.
    + split; [discriminate|]. intros [-> ->]. discriminate.
Qed.
Print Assumptions C53_plain.

(** A default constructed string is the empty one: nothing is written, whatever the
    sink. *)
Theorem C53_default : vstr_from [] [] = Ok default_vstr /\ vs_empty default_vstr = Ok true /\ as_valid default_vstr = Ok default_vstr /\
  (forall K (vt : vtable K) b, vformat_to vt b default_vstr [] = (Ok tt, b)) /\
  (forall m r, vscan_from m r default_vstr [] [] = (Ok tt, (r, []))).
Proof.
  split; [reflexivity|]. split; [reflexivity|]. split; [reflexivity|]. split; [reflexivity|]. intros m r. unfold vscan_from. cbn [default_vstr vs_str vs_plain].
  unfold read_if_match_str. cbn. unfold set_pos. destruct r. cbn. now rewrite Nat.add_0_r.
Qed.
Print Assumptions C53_default.

(** The short cut for plain strings: formatting and scanning do the same as with the
    parser, whatever the sink and the arguments. *)
Theorem C53_short_cut : forall s, Forall (fun c => ~ is_brace c) s ->
  (forall K (vt : vtable K) b args, vformat_to vt b (mk_vstr true (Ok s)) args = vformat_to vt b (mk_vstr false (Ok s)) args) /\
  (forall m r tys vars, vscan_from m r (mk_vstr true (Ok s)) tys vars = vscan_from m r (mk_vstr false (Ok s)) tys vars).
Proof.
  intros s H. assert (B : Forall braceless s) by (revert H; apply Forall_impl; intros c N; split; intros ->; apply N; [now left|now right]).
  split; [intros; now apply format_plain|intros; now apply scan_plain].
Qed.
Print Assumptions C53_short_cut.
Example C53_example :
  (exists v, vstr_from (str "a{}{{") [int_t] = Ok v /\ as_valid v = Ok v /\ vs_empty v = Ok false /\ vs_is_plain_str v = false) /\
  valid_from (vstr_from (str "a{}{") [int_t]) = Err invalid_format /\ literal_string (vstr_from (str "a{}{") [int_t]) = Abort /\
  (exists v, vstr_from (str "abc") [] = Ok v /\ vs_is_plain_str v = true) /\ (exists v, vstr_from (str "abc") [int_t] = Ok v /\ vs_get v = Err invalid_format) /\
  Forall is_byte (str "a{}{{") /\ small_numbers (str "a{}{{") /\ Forall (fun c => ~ is_brace c) (str "abc").
Proof.
  split; [eexists; split; [vm_compute; reflexivity|vm_compute; auto]|]. split; [vm_compute; reflexivity|]. split; [vm_compute; reflexivity|].
  split; [eexists; split; vm_compute; reflexivity|]. split; [eexists; split; vm_compute; reflexivity|]. split; [bytes|]. split; [now apply short_small|].
  repeat (constructor; [intros [H|H]; discriminate|]). constructor.
Qed.

(** ** C54 Nested arguments *)

(** A field with the result of make_format_args does exactly what formatting these
    arguments does: for every sink, whether it succeeds or not. *)
Lemma erase_nested K (vt : vtable K) v args b :
  erase vt (FArgs, VArgs v args) (mk_reader (str "{}") 1) b = on_buffer (mk_reader (str "{}") 2) (vformat_to vt b v args).
Proof.
  unfold erase at 1. assert (E : parse_fmtr (new_formatter FArgs) (mk_reader (str "{}") 1) = (Ok MArgs, mk_reader (str "{}") 2)) by (vm_compute; reflexivity). rewrite E. reflexivity.
Qed.
Lemma loop_field K (vt : vtable K) fuel a b :
  parse_loop vt (S fuel) [a] 0 (reader_of (str "{}"), b) = (sdo (_, st) <- a (mk_reader (str "{}") 1) b ;; parse_loop vt fuel [a] 1 st).
Proof. reflexivity. Qed.
Lemma loop_end K (vt : vtable K) fuel args inc b : parse_loop vt (S fuel) args inc (mk_reader (str "{}") 2, b) = (Ok tt, (mk_reader (str "{}") 2, b)).
Proof. reflexivity. Qed.
Theorem C54_nested : forall K (vt : vtable K) b v args,
  vformat_to vt b (mk_vstr false (Ok (str "{}"))) [(FArgs, VArgs v args)] = vformat_to vt b v args /\
  vstr_from (str "{}") [FArgs] = Ok (mk_vstr false (Ok (str "{}"))).
Proof.
  intros K vt b v args. split; [|vm_compute; reflexivity].
  unfold vformat_to at 1. cbn [map]. generalize (erase_nested K vt v args b). generalize (erase vt (FArgs, VArgs v args)). intros a E.
  unfold vformat_erased, parse_format. cbn [vs_str vs_plain]. change (S (length (str "{}"))) with 3%nat. rewrite loop_field, E.
  destruct (vformat_to vt b v args) as [[[]|e| |] b']; unfold on_buffer; cbn [sbind]; [rewrite loop_end|..]; reflexivity.
Qed.
Print Assumptions C54_nested.
Example C54_example :
  let s := str "{}-{:x}" in let args := [(str_t, str_v (str "a")); (int_t, int_v 255)] in
  exists v, vstr_from s (map fst args) = Ok v /\ run (str "<{0}|{0}>") [(FArgs, VArgs v args)] = Ok (Ok tt, str "<a-ff|a-ff>").
Proof. exists (mk_vstr false (Ok (str "{}-{:x}"))). split; vm_compute; reflexivity. Qed.

(** ** C51 Standard library types *)

(** What a field with one value prints, and nothing else. *)
Lemma single_shows t v sp : has_type t v -> Forall is_byte sp -> field_spec t sp -> small_numbers sp -> small_strings v -> ~ octal_spec sp -> ~ octal_in v ->
  exists out, shows (plain_style t) t sp v out /\ (forall o, formatted (str "{:" ++ sp) [(t, v)] o <-> o = out) /\ forall o, shows (plain_style t) t sp v o -> o = out.
Proof.
  intros HT HB HF HSm HSs HO HOv.
  destruct (single_format plain_shows t v sp HB HF HSm) as (out & HQ & HFm); auto.
  { intros sp' m _ H. apply plain_writes; [apply all_values_write|intros []|exact HT|exact H]. }
  unfold plain_shows in HQ. cbn [fst snd] in HQ. exists out. split; [exact HQ|]. split.
  - intros o. split; [|now intros ->]. intros (v1 & HV1 & _ & HP1). destruct HFm as (v2 & HV2 & _ & HP2). rewrite HV1 in HV2. injection HV2 as <-. exact (prints_unique _ _ _ HP1 HP2).
  - intros o H. apply (all_one_text v (plain_style t) t sp); auto. split; auto.
Qed.

Theorem C51_optional : forall t v sp out,
  has_type t v -> Forall is_byte sp -> field_spec t sp -> small_numbers sp -> small_strings v -> ~ octal_spec sp -> ~ octal_in v ->
  (formatted (str "{:" ++ sp) [(FOpt t, VOpt (Some v))] out <-> exists o, formatted (str "{:" ++ sp) [(t, v)] o /\ out = str "optional(" ++ o ++ str ")").
Proof.
  intros t v sp out HT HB HF HSm HSs HO HOv. destruct (single_shows t v sp HT HB HF HSm HSs HO HOv) as (o & _ & HI & HU).
  destruct (single_shows (FOpt t) (VOpt (Some v)) sp (ht_some t v HT) HB HF HSm HSs HO HOv) as (o' & HS' & HI' & _).
  inversion HS' as [| | |? ? ? ? o1 H1| | | | | | | |]; subst. rewrite (HU _ H1) in HI'. rewrite HI'. split; [intros ->; exists o; now rewrite HI|]. intros (o2 & H2 & ->). apply HI in H2. now subst.
Qed.
Print Assumptions C51_optional.
Theorem C51_none : forall t sp out,
  Forall is_byte sp -> field_spec t sp -> small_numbers sp -> ~ octal_spec sp -> (formatted (str "{:" ++ sp) [(FOpt t, VOpt None)] out <-> out = str "none").
Proof.
  intros t sp out HB HF HSm HO. destruct (single_shows (FOpt t) (VOpt None) sp (ht_none t) HB HF HSm Logic.I HO ltac:(now intros [])) as (o & HS & HI & _). inversion HS; subst. apply HI.
Qed.
Print Assumptions C51_none.

(** The alternative of a variant: texts and characters quoted and escaped, anything
    else like a field without specification. *)
Lemma no_spec_plain : Forall is_byte [125] /\ small_numbers [125] /\ ~ octal_spec [125].
Proof.
  split; [bytes|]. split; [now apply short_small|]. intros (x & E). assert (H : In 79 (x ++ str "O}")) by (apply in_app_iff; right; now left). rewrite <- E in H. cbn in H. intuition discriminate.
Qed.
Definition quoted_in_variant (v : fval) : Prop := match v with VCore (AChar _) | VCore (AStr _) => True | _ => False end.
Theorem C51_variant : forall t v out, has_type t v -> field_spec t [125] -> small_strings v -> ~ octal_in v -> ~ quoted_in_variant v ->
  (formatted (str "{:}") [(FVariant, VVariant (Some (t, v)))] out <-> exists o, formatted (str "{:}") [(t, v)] o /\ out = str "variant(" ++ o ++ str ")").
Proof.
  intros t v out HT HF HSs HOv HQ. destruct no_spec_plain as (HB & HSm & HO). destruct (single_shows t v [125] HT HB HF HSm HSs HO HOv) as (o & _ & HI & HU).
  destruct (single_shows FVariant (VVariant (Some (t, v))) [125] (ht_variant t v HT) HB eq_refl HSm HSs HO HOv) as (o' & HS' & HI' & _).
  change (str "{:" ++ [125]) with (str "{:}") in *.
  inversion HS' as [| | | | |? ? ? c|? ? ? s|? ? ? ? o1 N1 N2 H1| | | |]; subst; [now contradiction HQ|now contradiction HQ|].
  rewrite (HU _ H1) in HI'. rewrite HI'. split; [intros ->; exists o; now rewrite HI|]. intros (o2 & H2 & ->). apply HI in H2. now subst.
Qed.
Print Assumptions C51_variant.
Theorem C51_variant_text : forall t a out, has_type t (VCore a) -> small_strings (VCore a) ->
  (forall c, a = AChar c -> (formatted (str "{:}") [(FVariant, VVariant (Some (t, VCore a)))] out <-> out = str "variant('" ++ escape c ++ str "')")) /\
  (forall s, a = AStr s -> (formatted (str "{:}") [(FVariant, VVariant (Some (t, VCore a)))] out <-> out = str "variant(""" ++ escape_text s ++ str """)")).
Proof.
  intros t a out HT HSs. destruct no_spec_plain as (HB & HSm & HO).
  destruct (single_shows FVariant (VVariant (Some (t, VCore a))) [125] (ht_variant t _ HT) HB eq_refl HSm HSs HO ltac:(now intros [])) as (o' & HS' & HI' & _).
  change (str "{:" ++ [125]) with (str "{:}") in HI'.
  inversion HS' as [| | | | |? ? ? c|? ? ? s|? ? ? ? o1 N1 N2 H1| | | |]; subst.
  - split; [|discriminate]. intros c' [= <-]. rewrite (HI' out). change (str "variant('") with (str "variant(" ++ [39]). change (str "')") with ([39] ++ str ")"). now rewrite <- !app_assoc.
  - split; [discriminate|]. intros s' [= <-]. rewrite (HI' out). change (str "variant(""") with (str "variant(" ++ [34]). change (str """)") with ([34] ++ str ")"). now rewrite <- !app_assoc.
  - split; intros x ->; [now contradiction (N1 x)|now contradiction (N2 x)].
Qed.
Print Assumptions C51_variant_text.
Theorem C51_states : forall out,
  (formatted (str "{:}") [(FVariant, VVariant None)] out <-> out = str "variant(valueless by exception)") /\
  (formatted (str "{:}") [(FMono, VMono)] out <-> out = str "monostate").
Proof.
  intros out. destruct no_spec_plain as (HB & HSm & HO). split.
  - destruct (single_shows FVariant (VVariant None) [125] ht_valueless HB eq_refl HSm Logic.I HO ltac:(now intros [])) as (o & HS & HI & _). inversion HS; subst. apply HI.
  - destruct (single_shows FMono VMono [125] ht_mono HB eq_refl HSm Logic.I HO ltac:(now intros [])) as (o & HS & HI & _). inversion HS; subst. apply HI.
Qed.
Print Assumptions C51_states.
Example C51_example :
  let v := VOpt (Some (VRange [VOpt (Some (int_v 10)); VOpt None])) in
  run (str "{::x}") [(FOpt (FRange range_list (FOpt int_t)), v)] = Ok (Ok tt, str "optional([optional(a), none])") /\
  run (str "{}") [(FVariant, VVariant (Some (str_t, str_v (str "a\"))))] = Ok (Ok tt, str "variant(""a\\"")") /\
  run (str "{}") [(FVariant, VVariant (Some (FOpt int_t, VOpt None)))] = Ok (Ok tt, str "variant(none)") /\
  has_type (FOpt int_t) (VOpt None) /\ field_spec (FOpt int_t) [125] /\ has_type str_t (str_v (str "a\")).
Proof.
  cbv zeta. split; [vm_compute; reflexivity|]. split; [vm_compute; reflexivity|]. split; [vm_compute; reflexivity|]. split; [constructor|]. split; [exact int_default|]. apply str_typed; [bytes|vm_compute; reflexivity].
Qed.
