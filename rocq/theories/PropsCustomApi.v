(** Property C60: the functions of the user, for arguments with user-defined formatters. *)
From Verif Require Import Base Conversion Reader Buffer Writer Bitset Specs FormatArg FloatArg Format FormatApi Custom Elements CustomApi.
From Verif Require Import Lib SpecNum SpecReader SpecEscape SpecWriter SpecFloat SpecFormat SpecDecimal SpecField SpecSpecs SpecString SpecCustom SpecElements SpecCustomApi.
From Verif Require Import ConversionProofs ReaderProofs SpecsProofs BufferProofs TruncProofs Emits WriterProofs CallProofs FieldProofs StringProofs StringLoop StringEmits StringTop PropsFormat PropsApi CustomProofs PropsCustom ElementsProofs PropsElements CustomApiProofs SpecString SpecCustom SpecElements SpecCustomApi.

(** An accepted string: all functions write the characters and what the formatters
    promised, in order, or stop where the formatter that fails does. *)
Theorem C60_accepted : forall s us cs v,
  Forall2 keeps us cs -> Forall is_byte s -> user_string s us = Ok v -> vs_str v = Ok s ->
  exists its ns e out o, s = text_of its ++ e /\ user_items cs its ns /\ (e = [] \/ field_255 e) /\
    user_shows cs its ns out o /\ (o = Ok tt \/ exists e, o = Err e) /\ every_sink (user_call v us) out o.
Proof.
  intros s us cs v HK HB HV HS. destruct (C56_output s us cs v HK HB HV HS) as (its & ns & e & out & o & H1 & H2 & H3 & H4 & H5 & (ops & <- & HA)).
  exists its, ns, e, (ops_data ops), o. do 5 (split; [assumption|]). exact (every_sink_intro (user_call v us) ops o H5 HA).
Qed.
Print Assumptions C60_accepted.

(** A rejected string: all functions fail, and nothing arrives in the sink. *)
Theorem C60_rejected : forall v us, vs_str v = Err invalid_format -> every_sink (user_call v us) [] (Err invalid_format).
Proof.
  intros v us H. apply (every_sink_intro (user_call v us) [] (Err invalid_format)); [eauto|]. intros K vt R cap amax room HL.
  apply (emits_ext _ _ _ _ _ (fun b => (Err invalid_format, b))); [|apply emits_ret]. intros b. unfold user_call, user_format_to, vformat_erased. now rewrite H.
Qed.
Print Assumptions C60_rejected.

(** For arguments of the library's types they are the functions of FormatApi.v. *)
Theorem C60_library_same : forall v args, let call := user_call v (map builtin args) in
  call_size call = vformatted_size v args /\ call_format call = vformat v args /\
  (forall I (put : I -> Z -> I) it n, call_to_it call put it = vformat_to_it put it v args /\ call_to_n_it call put it n = vformat_to_n_it put it n v args) /\
  (forall limit cells, call_to_ptr call limit cells = vformat_to_ptr limit cells v args) /\
  (forall K (vt : vtable K) b n, call_to_n call vt b n = vformat_to_n vt b n v args) /\
  (forall f, call_print call f = vprint f v args /\ call_println call f = vprintln f v args).
Proof.
  intros v args call. assert (E : forall K (vt : vtable K) b, call K vt b = vformat_to vt b v args) by (intros K vt b; apply (proj2 (C56_builtin args))).
  unfold call_size, call_format, call_to_it, call_to_n_it, call_to_ptr, call_to_n, call_print, call_println.
  split; [now rewrite E|]. split; [now rewrite E|]. split; [intros I put it n; now rewrite !E|]. split; [intros limit cells; now rewrite E|]. split; [intros K vt b n; now rewrite E|].
  intros [[out limits]|]; [now rewrite !E|now split].
Qed.
Print Assumptions C60_library_same.

(** ** Examples *)

(** Arguments of C58 with all functions; the limit is 12 characters. *)
Example C60_example :
  let us := [as_user foos [1; 2]; as_user (optional_of (sign_formatter (str "foo"))) (Some 3)] in
  let cs := [promise_for foos_promise [1; 2]; promise_for (optional_promise (sign_promise (str "foo"))) (Some 3)] in
  let s := str "{:n:-} and {}" in let v := mk_vstr false (Ok s) in let call := user_call v us in
  let out := str "foo: -1, foo: -2 and optional(foo: 3)" in
  Forall2 keeps us cs /\ Forall is_byte s /\ user_string s us = Ok v /\
  call_format call = Ok out /\ call_size call = Ok (length out) /\
  call_to_it call sink_put (str "<") = (Ok (str "<" ++ out), str "<" ++ out) /\
  call_to_n_it call sink_put (str "<") 12 = (Ok (str "<foo: -1, foo", Z.of_nat (length out)), str "<foo: -1, foo") /\
  call_to_ptr call 1000 (repeat 0 40) = (Ok (length out), out ++ repeat 0 3) /\
  call_println call (Some (str "<", [])) = (Ok tt, Some (str "<" ++ out ++ [10], [])).
Proof.
  intros us cs s v call out. split; [|split; [bytes|repeat split; vm_compute; reflexivity]].
  constructor; [|constructor; [|constructor]]; (apply C58_argument; [|]).
  - exact foos_keeps.
  - repeat constructor; cbn; lia.
  - apply C58_optional; exact foo_keeps.
  - cbn; lia.
Qed.
(** One that fails: what is in the cache of the sink is lost. *)
Example C60_failing_example :
  let call := user_call (mk_vstr false (Ok (str "{}!"))) [as_user (range_of picky_formatter list_specs) [1; -2; 3]] in
  call_format call = Err invalid_data /\ call_size call = Err invalid_data /\ call_to_it call sink_put (str "<") = (Err invalid_data, str "<") /\
  call_to_ptr call 1000 (repeat 0 10) = (Err invalid_data, str "[<>, <" ++ repeat 0 4) /\ call_print call (Some ([], [])) = (Err invalid_data, Some ([], [])).
Proof. repeat split; vm_compute; reflexivity. Qed.
(** The case of more than 128 characters: a number in one piece, and a long text. *)
Example C60_long_example :
  let call n := user_call (mk_vstr false (Ok (str "{:" ++ n ++ str "}"))) [builtin (FCore TDouble, VCore (ADouble 4609434218613702656))] in
  call_size (call (str ".130f")) = Err eof /\ (exists out, call_format (call (str ".130f")) = Ok out /\ length out = 132%nat) /\
  call_size (call (str "300.3f")) = Ok 300%nat.
Proof. split; [vm_compute; reflexivity|]. split; [eexists; split; vm_compute; reflexivity|vm_compute; reflexivity]. Qed.
