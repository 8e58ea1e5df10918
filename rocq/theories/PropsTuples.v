(** Property C59: tuples and pairs of values with user-defined formatters. *)
From Verif Require Import Base Conversion Reader Buffer Writer Bitset Specs FormatArg FloatArg Format Custom Elements Tuples.
From Verif Require Import Lib SpecNum SpecReader SpecEscape SpecWriter SpecFloat SpecFormat SpecDecimal SpecField SpecSpecs SpecString SpecCustom SpecElements SpecTuples.
From Verif Require Import ConversionProofs ReaderProofs SpecsProofs BufferProofs Emits WriterProofs CallProofs FieldProofs StringProofs StringLoop StringEmits StringTop StringTuples PropsFormat CustomProofs PropsCustom ElementsProofs PropsElements TuplesProofs SpecString SpecCustom SpecElements SpecTuples.

(** ** The reader moved to the position *)

(** With the reader moved to where the elements stopped, tuples of formatters that keep
    their promise keep theirs, everywhere. *)
Theorem C59_repaired : forall P (Fs : list (formatter P)) ps o cl sep,
  Forall2 element_ok Fs ps -> keeps_promise (tuple_repaired Fs (mk_rs o cl sep)) (tuple_promise (o, cl, sep) ps).
Proof. intros P Fs ps o cl sep H. exact (repaired_keeps Fs ps (o, cl, sep) H). Qed.
Print Assumptions C59_repaired.

(** ** The code *)

Lemma keeps_pointwise us : forall cs, length us = length cs -> (forall j u c, nth_error us j = Some u -> nth_error cs j = Some c -> keeps u c) -> Forall2 keeps us cs.
Proof.
  induction us as [|u us IH]; intros [|c cs] HL H; try discriminate; [constructor|]. constructor; [exact (H 0%nat u c eq_refl eq_refl)|].
  apply IH; [now injection HL|]. intros j u' c' H1 H2. exact (H (S j) u' c' H1 H2).
Qed.
Lemma replaced (us : list user) u' : forall k u, nth_error us k = Some u -> exists us', length us' = length us /\ nth_error us' k = Some u' /\ forall j, j <> k -> nth_error us j = nth_error us' j.
Proof.
  induction us as [|x us IH]; intros [|k] u H; try discriminate.
  - exists (u' :: us). split; [reflexivity|]. split; [reflexivity|]. intros [|j] N; [congruence|reflexivity].
  - destruct (IH k u H) as (us' & L & E & O). exists (x :: us'). split; [cbn; congruence|]. split; [exact E|]. intros [|j] N; [reflexivity|]. apply O. congruence.
Qed.

(** A string that ends with the only field of a tuple (also of tuples), or of a range
    or optional of tuples, is accepted and formatted as documented; the other arguments are any that
    keep their contracts. *)
Theorem C59_last : forall A (F : formatter A) p v us cs k s its ns,
  tuple_based A F p -> p_value p v ->
  length us = length cs -> (length us <= 128)%nat ->
  nth_error us k = Some (as_user F v) -> nth_error cs k = Some (promise_for p v) ->
  (forall j u c, j <> k -> nth_error us j = Some u -> nth_error cs j = Some c -> keeps u c) ->
  Forall is_byte s -> small_numbers s -> s = text_of its -> user_items cs its ns -> (forall n, (n < length cs)%nat -> In n ns) -> last_field k its ns ->
  exists w, user_string s us = Ok w /\ vs_str w = Ok s /\
  exists out o, user_shows cs its ns out o /\ (o = Ok tt \/ exists e, o = Err e) /\ acts (fun K vt b => user_format_to vt b w us) out o.
Proof.
  intros A F p v us cs k s its ns HF HV HL H128 HU HC HO HB HSm HS HG HA (its1 & index & colon & sp & ns1 & E1 & E2 & NI).
  destruct (proj1 tuple_based_ends A F p HF) as (HEnd & F' & HKp & _). destruct (replaced us (as_user F' v) k _ HU) as (us' & L' & HU' & HO').
  assert (HK : Forall2 keeps us' cs).
  { apply keeps_pointwise; [congruence|]. intros j u c H1 H2. destruct (Nat.eq_dec j k) as [-> |N].
    - rewrite HU' in H1. injection H1 as <-. rewrite HC in H2. injection H2 as <-. apply C58_argument; [exact HKp|exact HV].
    - rewrite <- HO' in H1 by exact N. exact (HO j u c N H1 H2). }
  assert (HT : s = text_of its ++ []) by (rewrite app_nil_r; exact HS).
  assert (U' : uacc us' cs s 0 None 0 its ns []).
  { apply good_user; auto; [congruence|]. apply (small_fields its []). rewrite app_nil_r. now subst. }
  assert (U : uacc us cs s 0 None 0 its ns []).
  { assert (HGood : good_at_end cs k (as_user F v) s).
    { intros c n sp0 Hc HSp HR. rewrite HC in Hc. injection Hc as <-. apply user_ends; auto. apply (small_sub (firstn n s) sp0 []). rewrite app_nil_r, <- HSp, firstn_skipn. exact HSm. }
    apply (swap_last us us' cs k _ _ HU HU' HO' s 0 None 0 its ns [] HGood U' eq_refl its1 (Field index colon sp) ns1 E1); auto. }
  destruct (user_complete us cs s its ns [] HB H128 U) as (w & HW & HWs); [now rewrite HL|].
  exists w. split; [exact HW|]. split; [exact HWs|]. destruct (user_writes us cs s w its ns [] HB HW HWs U) as (out & o' & HOk & HSh & HAc). eauto 8.
Qed.
Print Assumptions C59_last.

(** In a variant: the specification is always empty and ends its text. *)
Definition holds_tuple (u : user) (c : contract) : Prop :=
  exists A (F : formatter A) p v, tuple_based A F p /\ p_value p v /\ u = as_user F v /\ c = promise_for p v.
Theorem C59_variant : forall alternative : user -> contract -> Prop,
  (forall u c, alternative u c -> (keeps u c /\ c_reads c [125]) \/ holds_tuple u c) -> keeps_promise variant_of (variant_promise alternative).
Proof.
  intros alt HA. apply variant_keeps_at. intros u c H. destruct (HA u c H) as [(HK & HR)|(A & F & p & v & HF & HV & -> & ->)]; [now apply brace_formats|].
  destruct (proj1 tuple_based_ends A F p HF) as (HEnd & _). destruct (en_element F p HEnd) as (_ & HR & _).
  apply (user_ends F p v [125] 0 [125] HEnd HV); [constructor; [cbv; split; congruence|constructor]|reflexivity|exact HR|exact brace_small].
Qed.
Print Assumptions C59_variant.

(** Of types of the library it is the tuple of Format.v. *)
Fixpoint lib_elements (i : nat) (ts : list fty) : list (formatter (list fval)) :=
  match ts with [] => [] | t :: ts => derived_of (lib t) (fun vs => nth i vs VMono) :: lib_elements (S i) ts end.
Fixpoint objects_list (ts : list fty) : forall i, objects (lib_elements i ts) -> list fmtr :=
  match ts with [] => fun _ _ => [] | t :: ts => fun i ms => fst ms :: objects_list ts (S i) (snd ms) end.

Lemma lib_new ts : forall i, objects_list ts i (new_objects (lib_elements i ts)) = map new_formatter ts.
Proof. induction ts as [|t ts IH]; intros i; cbn; [reflexivity|]. now rewrite IH. Qed.
Lemma lib_validate ts : forall i r q, validate_each (lib_elements i ts) r q = validate_elements validate_fty ts r q.
Proof.
  induction ts as [|t ts IH]; intros i r q; [reflexivity|]. cbn [lib_elements validate_each validate_elements derived_of lib lib_from f_validate].
  destruct (validate_fty t r) as [[[]|?| |] r']; try reflexivity. cbn [obind]. destruct (q =? 0)%nat; [apply IH|]. destruct (q =? pos r')%nat; [apply IH|reflexivity].
Qed.
Definition listed ts i (x : outcome (objects (lib_elements i ts) * nat)) : outcome (list fmtr * nat) := do y <- x ;; Ok (objects_list ts i (fst y), snd y).
Lemma lib_parse ts r set : forall i ms q, listed ts i (parse_each (lib_elements i ts) ms r set q) = parse_elements (parse_with (Some set)) (objects_list ts i ms) r set q.
Proof.
  induction ts as [|t ts IH]; intros i ms q; [reflexivity|]. cbn [objects_list parse_elements]. unfold listed in *. cbn [lib_elements parse_each].
  change (f_parse (derived_of (lib t) (fun vs => nth i vs VMono)) (set_debug (derived_of (lib t) (fun vs => nth i vs VMono)) (fst ms) set) r)
    with (parse_with None (set_debug (lib t) (fst ms) set) r).
  replace (parse_with None (set_debug (lib t) (fst ms) set) r) with (parse_with (Some set) (fst ms) r) by (destruct ms as [[] ?]; reflexivity).
  destruct (parse_with (Some set) (fst ms) r) as [[m|?| |] r']; try reflexivity. cbn [obind]. rewrite <- (IH (S i) (snd ms) (pos r')).
  assert (G : forall x : outcome (objects (lib_elements (S i) ts) * nat),
    (do y <- (do msp <- x ;; Ok ((m, fst msp) : objects (lib_elements i (t :: ts)), snd msp)) ;; Ok (objects_list (t :: ts) i (fst y), snd y)) =
    (do msp <- (do y <- x ;; Ok (objects_list ts (S i) (fst y), snd y)) ;; Ok (m :: fst msp, snd msp))) by (intros [[]|?| |]; reflexivity).
  exact (G _).
Qed.
Lemma lib_format K (vt : vtable K) sep ts : forall i ms vs1 vs first b, length vs1 = i -> length vs = length ts ->
  format_each vt first sep (lib_elements i ts) ms (vs1 ++ vs) b = format_for_each vt (format_fval vt) first sep (objects_list ts i ms) vs b.
Proof.
  induction ts as [|t ts IH]; intros i ms vs1 [|v vs] first b H1 HL; try discriminate; [reflexivity|]. cbn [objects_list format_for_each lib_elements format_each].
  destruct (if first then (Ok tt, b) else write_str vt b sep) as [[[]|?| |] b1]; try reflexivity. cbn [sbind derived_of lib lib_from f_format].
  replace (nth i (vs1 ++ v :: vs) VMono) with v by (rewrite app_nth2, H1, Nat.sub_diag by lia; reflexivity).
  destruct ms as [m ms]. cbn [fst snd]. destruct (format_fval vt m v b1) as [[[]|?| |] b2]; try reflexivity. cbn [sbind].
  replace (vs1 ++ v :: vs) with ((vs1 ++ [v]) ++ vs) by (rewrite <- app_assoc; reflexivity). apply IH; [rewrite app_length; cbn; lia|now injection HL].
Qed.
Theorem C59_library_same : forall ts vs, length vs = length ts ->
  same_user (as_user (tuple_of (lib_elements 0 ts) tuple_specs) vs) (builtin (FTuple ts, VTuple vs)).
Proof.
  intros ts vs HL. split.
  - intros r. change (validate_tuple_of pop (lib_elements 0 ts) r = validate_fty (FTuple ts) r). cbn [validate_fty]. unfold validate_tuple_of, validate_for_each.
    destruct (read_char r) as [[c|?| |] r1]; try reflexivity. cbn [sbind]. destruct (if c =? 110 then read_char r1 else (Ok c, r1)) as [[c2|?| |] r2]; try reflexivity. cbn [sbind].
    rewrite (lib_validate ts 0 r2 0). destruct ts; reflexivity.
  - intros K vt r b. unfold user_erase. cbn [as_user builtin u_parse u_format fst snd]. unfold parse_fmtr. cbn [new_formatter parse_with]. rewrite <- (lib_new ts 0).
    cbn [tuple_of tuple_with f_parse f_new]. unfold parse_tuple_of. change (mk_rs (str "(") (str ")") (str ", ")) with tuple_specs.
    destruct (assume (peek_s r)) as [[c|?| |] r1]; try reflexivity. cbn [sbind]. cbv zeta.
    set (r2 := if c =? 110 then pop r1 1 else r1). set (rs := if c =? 110 then mk_rs [] [] (rs_sep tuple_specs) else tuple_specs).
    destruct (if c =? 110 then assume (peek_s r2) else (Ok c, r2)) as [[c2|?| |] r3]; try reflexivity. cbn [sbind]. change 125 with ch_rbrace.
    set (set := c2 =? ch_rbrace). set (r4 := if set then r3 else pop r3 1).
    assert (W : forall ms, (sdo (_, b) <- write_str vt b (rs_open rs) ;; sdo (_, b) <- format_each vt true (rs_sep rs) (lib_elements 0 ts) ms vs b ;; write_str vt b (rs_close rs)) = format_fval vt (MTuple rs (objects_list ts 0 ms)) (VTuple vs) b).
    { intros ms. cbn [format_fval]. destruct (write_str vt b (rs_open rs)) as [[[]|?| |] b1]; try reflexivity. cbn [sbind].
      now rewrite <- (lib_format K vt (rs_sep rs) ts 0 ms [] vs true b1 eq_refl HL). }
    destruct ts as [|t ts].
    + destruct set; [|reflexivity]. cbn [lib_elements objects_list sbind on_reader]. f_equal. exact (W tt).
    + assert (X := lib_parse (t :: ts) r4 set 0 (new_objects (lib_elements 0 (t :: ts))) 0). unfold listed in X.
      cbn [lib_elements] in *. cbn [objects_list] in X |- *. rewrite <- X.
      match goal with |- context [parse_each ?a ?b ?c ?d ?e] => destruct (parse_each a b c d e) as [[ms q]|?| |] end; try reflexivity.
      exact (f_equal (on_buffer (pop r4 q)) (W ms)).
Qed.
Print Assumptions C59_library_same.

(** ** Examples *)

(** std::pair<Foo, Bar> with the formatters of test/unit_test/test_formatter.cpp:62-92 *)
Definition foo_pair : list (formatter (Z * Z)) := [derived_of (sign_formatter (str "foo")) fst; derived_of (sign_formatter (str "bar")) snd].
Definition foo_pair_promises : list (promise (Z * Z)) := [derived_promise fst (sign_promise (str "foo")); derived_promise snd (sign_promise (str "bar"))].
Lemma foo_pair_ok : Forall2 element_ok foo_pair foo_pair_promises.
Proof.
  constructor; [|constructor; [|constructor]]; (split; [apply C58_derived; apply C58_sign; [bytes|unfold is_brace; cbn; lia]|split; [discriminate|split; [now left|reflexivity]]]).
Qed.
Lemma plain_elements P (Fs : list (formatter P)) ps : Forall2 element_ok Fs ps -> tuple_elements P Fs ps.
Proof. intros H. induction H; now constructor. Qed.
Definition pair_promise : promise (Z * Z) := tuple_promise (str "(", str ")", str ", ") foo_pair_promises.
Lemma pair_value x y : - 2 ^ 31 < x < 2 ^ 31 -> - 2 ^ 31 < y < 2 ^ 31 -> p_value pair_promise (x, y).
Proof. intros HX HY. constructor; [exact HX|constructor; [exact HY|constructor]]. Qed.

Example C59_example :
  let u := as_user (tuple_of foo_pair tuple_specs) (1, 2) in
  keeps_promise (tuple_repaired foo_pair tuple_specs) pair_promise /\ p_value pair_promise (1, 2) /\
  user_run (str "{}") [u] = Ok (Ok tt, str "(foo: 1, bar: 2)") /\
  user_run (str "a pair: {:n::-}") [u] = Err invalid_format /\
  user_run (str "a pair: {:n:-}") [u] = Ok (Ok tt, str "a pair: foo: -1, bar: -2") /\
  user_run (str "{1} = {0::-}") [u; as_user foos [3]] = Ok (Ok tt, str "[foo: 3] = (foo: -1, bar: -2)") /\
  user_run (str "{} {}") [as_user variant_of (holds u); as_user (optional_of (sign_formatter (str "foo"))) (Some 3)] = Ok (Ok tt, str "variant((foo: 1, bar: 2)) optional(foo: 3)").
Proof.
  intros u. split; [apply (C59_repaired _ _ _ (str "(") (str ")") (str ", ")); exact foo_pair_ok|]. split; [apply pair_value; lia|]. repeat split; vm_compute; reflexivity.
Qed.

(** The hypotheses of [C59_last] for one of them. *)
Example C59_last_example :
  let us := [as_user (tuple_of foo_pair tuple_specs) (1, 2); as_user foos [3]] in
  let cs := [promise_for pair_promise (1, 2); promise_for foos_promise [3]] in
  let its := [Field (str "1") false (str "}"); Field (str "0") true (str ":-}")] in
  let s := str "{1}{0::-}" in
  length us = length cs /\ keeps (as_user foos [3]) (promise_for foos_promise [3]) /\
  Forall is_byte s /\ small_numbers s /\ s = text_of its /\ user_items cs its [1; 0]%nat /\ last_field 0 its [1; 0]%nat.
Proof.
  intros us cs its s. split; [reflexivity|]. split; [apply C58_argument; [exact foos_keeps|repeat constructor; cbn; lia]|]. split; [bytes|]. split; [now apply short_small|].
  split; [reflexivity|]. split.
  - split; [|split].
    + constructor; [|constructor; [|constructor]]; cbn; [split; [right; digs|reflexivity]|split; [right; digs|discriminate]].
    + right. constructor; [split; [digs|reflexivity]|constructor; [split; [digs|reflexivity]|constructor]].
    + constructor; [eexists; split; [reflexivity|]|constructor; [eexists; split; [reflexivity|]|constructor]].
      * exists false, None. split; [reflexivity|exact Logic.I].
      * exists false, (Some (str "-}")). split; [reflexivity|]. split; [discriminate|]. constructor; [now right|constructor; [now right|constructor]].
  - exists [Field (str "1") false (str "}")], (str "0"), true, (str ":-}"), [1%nat]. split; [reflexivity|]. split; [reflexivity|]. cbn. lia.
Qed.

(** A map from numbers to values with a formatter of the user, and an optional pair *)
Definition foo_map : formatter (list (Z * Z)) :=
  range_of (tuple_of [derived_of (lib int_t) (fun p : Z * Z => int_v (fst p)); derived_of (sign_formatter (str "foo")) snd] (mk_rs [] [] (str ": "))) set_specs.
Example C59_map_example :
  (exists p, tuple_based _ foo_map p /\ forall v, Forall (fun xy => - 2 ^ 31 < fst xy < 2 ^ 31 /\ - 2 ^ 31 < snd xy < 2 ^ 31) v -> p_value p v) /\
  tuple_based _ (optional_of (tuple_of foo_pair tuple_specs)) (optional_promise pair_promise) /\
  user_run (str "a map: {}") [as_user foo_map [(1, 2); (3, 4)]] = Ok (Ok tt, str "a map: {1: foo: 2, 3: foo: 4}") /\
  user_run (str "{} {:n}") [as_user foos [5]; as_user foo_map [(1, 2)]] = Ok (Ok tt, str "[foo: 5] 1: foo: 2") /\
  user_run (str "{::}") [as_user (optional_of (tuple_of foo_pair tuple_specs)) (Some (1, 2))] = Ok (Ok tt, str "optional((foo: 1, bar: 2))").
Proof.
  split; [|split; [apply tb_optional, (tb_tuple _ _ _ (str "(") (str ")") (str ", ")), plain_elements, foo_pair_ok|repeat split; vm_compute; reflexivity]].
  pose (ps := [derived_promise (fun p : Z * Z => int_v (fst p)) (lib_promise int_t); derived_promise snd (sign_promise (str "foo"))]).
  exists (range_promise (str "{", str "}", str ", ") (tuple_promise ([], [], str ": ") ps)). split.
  - apply (tb_range _ _ _ (str "{") (str "}") (str ", ")). apply (tb_tuple _ _ ps [] [] (str ": ")), plain_elements.
    constructor; [|constructor; [|constructor]].
    + split; [apply C58_derived; apply C58_library; exact Logic.I|]. split; [discriminate|]. split; [|reflexivity]. exists default_specs. split; [exact default_spec_text|cbn; auto].
    + split; [apply C58_derived; apply C58_sign; [bytes|unfold is_brace; cbn; lia]|]. split; [discriminate|split; [now left|reflexivity]].
  - intros v HV. eapply Forall_impl; [|exact HV]. intros [x y] [HX HY]. constructor; [|constructor; [exact HY|constructor]].
    apply (ht_core (AInt i32 x)); [split; [unfold is_ity; cbn; tauto|unfold in_range; cbn in *; lia]|exact Logic.I].
Qed.

(** std::pair<Foo, std::pair<Foo, Bar>>, and a vector of them *)
Definition nested_pair : formatter (Z * (Z * Z)) := tuple_of [derived_of (sign_formatter (str "foo")) fst; derived_of (tuple_of foo_pair tuple_specs) snd] tuple_specs.
Example C59_nested_example :
  (exists p, tuple_based _ nested_pair p /\ tuple_based _ (range_of nested_pair list_specs) (range_promise (str "[", str "]", str ", ") p) /\
     (forall x y z, - 2 ^ 31 < x < 2 ^ 31 -> - 2 ^ 31 < y < 2 ^ 31 -> - 2 ^ 31 < z < 2 ^ 31 -> p_value p (x, (y, z))) /\
     p_reads p (str "n}") /\ ~ p_reads p (str ":-}") /\ ~ p_reads p (str "::-}")) /\
  user_run (str "nested: {}") [as_user nested_pair (1, (2, 3))] = Ok (Ok tt, str "nested: (foo: 1, (foo: 2, bar: 3))") /\
  user_run (str "{:n}") [as_user nested_pair (1, (2, 3))] = Ok (Ok tt, str "foo: 1, (foo: 2, bar: 3)") /\
  user_run (str "{:n}") [as_user (range_of nested_pair list_specs) [(1, (2, 3)); (4, (5, 6))]] = Ok (Ok tt, str "(foo: 1, (foo: 2, bar: 3)), (foo: 4, (foo: 5, bar: 6))") /\
  user_run (str "{}") [as_user variant_of (holds (as_user nested_pair (1, (2, 3))))] = Ok (Ok tt, str "variant((foo: 1, (foo: 2, bar: 3)))").
Proof.
  split; [|repeat split; vm_compute; reflexivity].
  pose (ps := [derived_promise fst (sign_promise (str "foo")); derived_promise (snd (A := Z) (B := Z * Z)) pair_promise]).
  exists (tuple_promise (str "(", str ")", str ", ") ps).
  assert (T : tuple_based _ nested_pair (tuple_promise (str "(", str ")", str ", ") ps)).
  { apply (tb_tuple _ _ ps (str "(") (str ")") (str ", ")). apply te_formatter; [|apply te_tuple; [|constructor]].
    - split; [apply C58_derived; apply C58_sign; [bytes|unfold is_brace; cbn; lia]|split; [discriminate|split; [now left|reflexivity]]].
    - apply tb_derived. apply (tb_tuple _ _ _ (str "(") (str ")") (str ", ")), plain_elements, foo_pair_ok. }
  split; [exact T|]. split; [exact (tb_range _ _ _ (str "[") (str "]") (str ", ") T)|]. split.
  - intros x y z HX HY HZ. constructor; [exact HX|]. constructor; [|constructor]. now apply (pair_value y z).
  - split; [exists true, None; split; [reflexivity|exact Logic.I]|]. split.
    + intros (n & e & E & H). destruct n, e as [e|]; try discriminate. injection E as <-. destruct H as [_ H]. inversion H as [|? ? _ H2]; subst. inversion H2 as [|? ? H3 _]; subst. cbn [p_reads derived_promise pair_promise tuple_promise] in H3. destruct H3 as (n & e & E & _). destruct n, e; discriminate.
    + intros (n & e & E & H). destruct n, e as [e|]; try discriminate. injection E as <-. destruct H as [_ H]. inversion H as [|? ? H2 _]; subst. destruct H2 as [H2|H2]; discriminate.
Qed.

(** A tuple with an element that fails. *)
Example C59_failing_example :
  let u x y := as_user (tuple_of [derived_of picky_formatter fst; derived_of picky_formatter snd] tuple_specs) (x, y) in
  user_run (str "{}") [u 1 2] = Ok (Ok tt, str "(<>, <>)") /\ user_run (str "{:n}") [u 1 (-2)] = Ok (Err invalid_data, str "<>, <") /\ user_run (str "{}") [u (-1) 2] = Ok (Err invalid_data, str "(<").
Proof. repeat split; vm_compute; reflexivity. Qed.

(** ** Where it fails *)

(** As many characters are skipped as the specification is far from the start.  With
    text behind the field the output lacks its beginning; and a string is accepted
    that is malformed behind the field. *)
Theorem C59_tuple_refuted : exists v s s',
  p_value pair_promise v /\ Forall is_byte s /\ Forall is_byte s' /\
  (forall leave, user_accepted s [as_user (tuple_with leave foo_pair tuple_specs) v]) /\
  user_run s [as_user (tuple_repaired foo_pair tuple_specs) v] = Ok (Ok tt, str "(foo: 1, bar: 2) and more") /\
  user_run s [as_user (tuple_of foo_pair tuple_specs) v] = Ok (Ok tt, str "(foo: 1, bar: 2)and more") /\
  ~ user_accepted s' [as_user (tuple_repaired foo_pair tuple_specs) v] /\
  user_run s' [as_user (tuple_of foo_pair tuple_specs) v] = Ok (Ok tt, str "(foo: -1, bar: -2)").
Proof.
  exists (1, 2), (str "{} and more"), (str "{::-}}{x"). split; [apply pair_value; lia|]. split; [bytes|]. split; [bytes|].
  split; [intros leave; eexists; split; vm_compute; reflexivity|]. split; [vm_compute; reflexivity|]. split; [vm_compute; reflexivity|].
  split; [|vm_compute; reflexivity]. intros (w & H1 & H2). vm_compute in H1. injection H1 as <-. discriminate.
Qed.
Print Assumptions C59_tuple_refuted.
