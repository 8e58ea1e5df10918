(** Properties C15, C16, C17: the functions of the user. *)
From Verif Require Import Base Conversion Reader Buffer Writer Bitset Specs FormatArg FloatArg Format FormatApi.
From Verif Require Import Lib SpecNum SpecReader SpecEscape SpecWriter SpecFloat SpecFormat SpecDecimal SpecField SpecSpecs SpecString.
From Verif Require Import ConversionProofs ReaderProofs SpecsProofs BufferProofs TruncProofs Emits WriterProofs CallProofs FieldProofs PropsWriter PropsField StringProofs StringLoop StringEmits StringTop PropsFormat SpecString.

(** The arguments have the values their types promise.  The format string has
    been validated; it may have been rejected.  Tuples are followed by nothing
    (see C46). *)
Definition format_call (v : vstr) (args : list (fty * fval)) : Prop :=
  exists s, Forall is_byte s /\ vstr_from s (map fst args) = Ok v /\
    (vs_str v = Ok s ->
     typed args /\
     (Forall tuple_free (map fst args) \/
      exists its ns, (length args <= 128)%nat /\ s = text_of its /\ good_items (map fst args) its ns /\
        tuples_last (map fst args) its ns /\ Forall small_numbers (field_specs its))).
(** Floating-point numbers are below 10^20 and precisions up to 100. *)
Definition short_call (v : vstr) (args : list (fty * fval)) : Prop :=
  (forall s, vs_str v = Ok s -> short_precisions s) /\ short_values args.

(** What is written does not depend on the buffer. *)
Lemma call_emits v args : format_call v args ->
  exists ops o, (o = Ok tt \/ o = Err invalid_format) /\ (short_call v args -> atoms_within 128 ops) /\
    forall K (vt : vtable K) R cap amax room, lawful vt R cap amax room -> emits R cap amax room (fun b => vformat_to vt b v args) ops o.
Proof.
  intros (s & HB & HV & HC). assert (C : vs_str v = Ok s \/ vs_str v = Err invalid_format).
  { revert HV. unfold vstr_from. destruct (_ && _); [intros [= <-]; now left|]. destruct (validate_string s (map fst args)) as [[|]| | |]; try discriminate; intros [= <-]; auto. }
  destruct C as [C|C].
  - destruct (HC C) as (HT & HTup). assert (A : exists its ns e, acc (map fst args) s 0 None 0 its ns e).
    { destruct HTup as [H|(its & ns & H1 & H2 & H3 & H4 & H5)]; [exact (accepted_acc s _ v HB HV C H)|]. exists its, ns, []. apply good_string; auto; [now rewrite map_length|now rewrite app_nil_r]. }
    destruct A as (its & ns & e & HA).
    assert (HG : short_call v args -> short_precisions s /\ short_values args) by (intros [H1 H2]; auto).
    destruct (format_attempt (short_call v args) args s v its ns e HB HV C HT HA HG) as [(ops & HW & _ & HS)|(_ & ops & HW & HS)]; exists ops; eexists; eauto.
  - exists [], (Err invalid_format). split; [now right|]. split; [constructor|]. intros K vt R cap amax room HL.
    apply (emits_ext _ _ _ _ _ (fun b => (Err invalid_format, b))); [|apply emits_ret]. intros b. unfold vformat_to, vformat_erased. now rewrite C.
Qed.

(** ** The outcome of a call for a sink with a cache *)

(** The call and the computation of the size succeed with what [vformat]
    returns; both fail like [vformat]; or both fail with eof.  The latter is
    only possible for large numbers and precisions and for a long output. *)
Definition prefix_of (v : vstr) (args : list (fty * fval)) (p : list Z) : Prop := forall out, vformat v args = Ok out -> exists q, out = p ++ q.
Inductive outcome_like (v : vstr) (args : list (fty * fval)) (good : list Z -> Prop) (bad : err -> list Z -> Prop) : Prop :=
| like_ok out : vformat v args = Ok out -> vformatted_size v args = Ok (length out) -> good out -> outcome_like v args good bad
| like_err p : vformat v args = Err invalid_format -> vformatted_size v args = Err invalid_format -> bad invalid_format p -> outcome_like v args good bad
| like_eof p : ~ short_call v args -> (forall out, vformat v args = Ok out -> (128 < length out)%nat) ->
    vformatted_size v args = Err eof -> prefix_of v args p -> bad eof p -> outcome_like v args good bad.

Lemma exec_stops m w ops : fst (exec None (Some m) w ops) = false -> (m < length (ops_data ops))%nat.
Proof.
  revert w. induction ops as [|o ops IH]; intros w; cbn [exec]; [discriminate|]. change (ops_data (o :: ops)) with (op_data o ++ ops_data ops). rewrite app_length.
  destruct o as [d|d]; cbn [exec1 op_data oboundb ofirstn fst snd].
  - intros H. apply IH in H. lia.
  - destruct (length d <=? m)%nat eqn:E; cbn.
    + intros H. apply IH in H. lia.
    + intros _. lia.
Qed.

Lemma vformat_run v args ops o : (forall K (vt : vtable K) R cap amax room, lawful vt R cap amax room -> emits R cap amax room (fun b => vformat_to vt b v args) ops o) ->
  vformat v args = (do _ <- o ;; Ok (ops_data ops)).
Proof.
  intros HW. destruct (HW _ _ _ _ _ _ mem_lawful _ _ (memory_buffer_init default_cache_size 0) Logic.I) as (b & R & E). rewrite exec_unlimited in R, E. cbn [fst snd app] in R, E.
  unfold vformat. rewrite E. destruct o; cbn [finish fst bind]; try reflexivity. now rewrite (mem_R_view _ _ R).
Qed.

Lemma cached_run v args : format_call v args -> exists o w,
  (forall K (vt : vtable K) R b, lawful vt R None (Some 128%nat) None -> R [] b -> exists b', R w b' /\ vformat_to vt b v args = (o, b')) /\
  ((o = Ok tt /\ vformat v args = Ok w) \/ (o = Err invalid_format /\ vformat v args = Err invalid_format) \/
   (o = Err eof /\ ~ short_call v args /\ (forall out, vformat v args = Ok out -> (128 < length out)%nat) /\ prefix_of v args w)).
Proof.
  intros HC. destruct (call_emits v args HC) as (ops & o & HO & HA & HW). assert (HF := vformat_run v args ops o HW).
  exists (if fst (exec None (Some 128%nat) [] ops) then o else Err eof), (snd (exec None (Some 128%nat) [] ops)). split.
  { intros K vt R b HL HR. exact (HW _ _ _ _ _ _ HL _ _ HR Logic.I). }
  destruct (fst (exec None (Some 128%nat) [] ops)) eqn:E.
  - destruct HO as [-> | ->]; [left|right; left; auto]. rewrite (exec_ok _ _ _ _ E). auto.
  - right. right. split; [reflexivity|]. split; [|split].
    + intros HS. rewrite (exec_atoms 128 [] ops (HA HS)) in E. discriminate.
    + intros out HE. apply exec_stops in E. destruct HO as [-> | ->]; rewrite HF in HE; [|discriminate]. now injection HE as <-.
    + intros out HE. destruct (exec_prefix None (Some 128%nat) [] ops Logic.I) as (n & ->). exists (skipn n (ops_data ops)). cbn [app]. rewrite firstn_skipn.
      destruct HO as [-> | ->]; rewrite HF in HE; [|discriminate]. now injection HE as <-.
Qed.
Lemma size_run v args o w : (forall K (vt : vtable K) R b, lawful vt R None (Some 128%nat) None -> R [] b -> exists b', R w b' /\ vformat_to vt b v args = (o, b')) ->
  vformatted_size v args = (do _ <- o ;; Ok (length w)).
Proof.
  intros HW. destruct (HW _ _ _ _ (count_lawful 128 ltac:(lia)) (counting_buffer_init 128)) as (b & R & E). unfold vformatted_size, default_cache_size. rewrite E.
  destruct o; cbn [finish fst bind]; try reflexivity. now rewrite (count_R_count _ _ _ R).
Qed.
(** From the end of the call on. *)
Lemma cached_like {K} (vt : vtable K) R b v args (good : list Z -> Prop) (bad : err -> list Z -> Prop) : lawful vt R None (Some 128%nat) None -> R [] b -> format_call v args ->
  (forall w b', R w b' -> vformat_to vt b v args = (Ok tt, b') -> good w) ->
  (forall e w b', R w b' -> vformat_to vt b v args = (Err e, b') -> exists p q, w = p ++ q /\ bad e p) -> outcome_like v args good bad.
Proof.
  intros HL HR HC HG HB. destruct (cached_run v args HC) as (o & w & HW & HO). assert (HS := size_run v args o w HW). destruct (HW K vt R b HL HR) as (b' & HR' & E).
  destruct HO as [(-> & HF)|[(-> & HF)|(-> & H1 & H2 & H3)]].
  - apply (like_ok _ _ _ _ w); [exact HF|exact HS|]. now apply (HG w b').
  - destruct (HB _ _ _ HR' E) as (p & q & _ & H). now apply (like_err _ _ _ _ p).
  - destruct (HB _ _ _ HR' E) as (p & q & -> & H). apply (like_eof _ _ _ _ p); auto. intros out HE. destruct (H3 out HE) as (r & ->). exists (q ++ r). now rewrite app_assoc.
Qed.

(** ** C16 The size of the output *)
Theorem C16_size : forall v args, format_call v args -> short_call v args ->
  vformatted_size v args = (do out <- vformat v args ;; Ok (length out)).
Proof.
  intros v args HC HS. destruct (cached_run v args HC) as (o & w & HW & HO). rewrite (size_run v args o w HW). destruct HO as [(-> & ->)|[(-> & ->)|(_ & H & _)]]; [reflexivity|reflexivity|contradiction].
Qed.
Print Assumptions C16_size.

(** A size is never wrong; up to 128 characters it is always computed. *)
Theorem C16_size_right : forall v args n, format_call v args -> vformatted_size v args = Ok n -> exists out, vformat v args = Ok out /\ n = length out.
Proof.
  intros v args n HC. destruct (cached_run v args HC) as (o & w & HW & HO). rewrite (size_run v args o w HW). destruct HO as [(-> & ->)|[(-> & ->)|(-> & _)]]; intros [= <-]. eauto.
Qed.
Print Assumptions C16_size_right.
Theorem C16_size_up_to_128 : forall v args out, format_call v args -> vformat v args = Ok out -> (length out <= 128)%nat -> vformatted_size v args = Ok (length out).
Proof.
  intros v args out HC HF HL. destruct (cached_run v args HC) as (o & w & HW & HO). rewrite (size_run v args o w HW). destruct HO as [(-> & E)|[(-> & E)|(-> & _ & H & _)]].
  - rewrite E in HF. now injection HF as <-.
  - congruence.
  - apply H in HF. lia.
Qed.
Print Assumptions C16_size_up_to_128.

(** A number with many digits is written in one piece, for which the cache of
    128 characters is too small.  [formatted_size] then ends with an exception
    or std::terminate. *)
Definition double_t := FCore TDouble.
Definition double_v bits := VCore (ADouble bits).
Lemma double_typed bits : 0 <= bits < 2 ^ 64 -> has_type double_t (double_v bits).
Proof. intros H. apply (ht_core (ADouble bits)); [exact H|exact Logic.I]. Qed.
Definition of_string (s : list Z) (args : list (fty * fval)) : vstr := match vstr_from s (map fst args) with Ok v => v | _ => mk_vstr true (Ok []) end.
Theorem C16_size_refuted : exists v args out, format_call v args /\ vformat v args = Ok out /\ format v args = Ok out /\
  vformatted_size v args = Err eof /\ formatted_size v args = Abort.
Proof.
  set (args := [(double_t, double_v 4609434218613702656)]). set (s := str "{:.130f}"). exists (of_string s args), args, (str "1.5" ++ repeat 48 129).
  split; [|split; [|split; [|split]]; vm_compute; reflexivity].
  exists s. split; [bytes|]. split; [vm_compute; reflexivity|]. intros _. split; [|left; repeat constructor].
  constructor; [apply double_typed; vm_compute; intuition discriminate|constructor].
Qed.
Print Assumptions C16_size_refuted.

(** At most two digits after each point. *)
Definition is_digit_b (c : Z) : bool := (48 <=? c) && (c <=? 57).
Fixpoint few_decimals (t : list Z) : bool :=
  match t with
  | [] => true
  | c :: t => negb ((c =? 46) && match t with c1 :: c2 :: c3 :: _ => is_digit_b c1 && is_digit_b c2 && is_digit_b c3 | _ => false end) && few_decimals t
  end.
Lemma few_short t : few_decimals t = true -> short_precisions t.
Proof.
  intros H a d b -> (_ & HD). revert H. induction a as [|c a IH].
  - cbn [app few_decimals]. intros H. apply andb_true_iff in H. destruct H as [H _]. assert (L : (length d <= 2)%nat).
    { destruct d as [|c1 [|c2 [|c3 d]]]; try (cbn; lia). exfalso. cbn [app] in H. inversion_clear HD as [|? ? H1 HD1]. inversion_clear HD1 as [|? ? H2 HD2]. inversion_clear HD2 as [|? ? H3 _].
      unfold is_digit_b in H. lia. }
    assert (X := denotes_bound d HD). assert (10 ^ Z.of_nat (length d) <= 10 ^ 2) by (apply Z.pow_le_mono_r; lia). lia.
  - cbn [app few_decimals]. intros H. apply andb_true_iff in H. destruct H as [_ H]. now apply IH.
Qed.

Example C16_example : let args := [(double_t, double_v 4609434218613702656); (str_t, str_v (str "abc"))] in let s := str "{:.3e}|{:>200}|" in
  let v := of_string s args in
  format_call v args /\ short_call v args /\ vformatted_size v args = Ok 211%nat /\ exists out, vformat v args = Ok out /\ length out = 211%nat.
Proof.
  intros args s v. split; [|split; [|split; [vm_compute; reflexivity|eexists; split; vm_compute; reflexivity]]].
  - exists s. split; [bytes|]. split; [vm_compute; reflexivity|]. intros _. split; [|left; repeat constructor].
    constructor; [apply double_typed; vm_compute; intuition discriminate|]. constructor; [apply str_typed; [bytes|vm_compute; reflexivity]|constructor].
  - split; [|constructor; [right; vm_compute; reflexivity|repeat constructor]].
    intros s' E. assert (s' = s) as -> by (vm_compute in E; now injection E as <-). now apply few_short.
Qed.

(** ** C15 A limited number of characters *)
Theorem C15_iterator : forall (I : Type) (put : I -> Z -> I) it n v args, format_call v args ->
  let r := vformat_to_n_it put it n v args in
  outcome_like v args
    (fun out => let it' := fold_left put (firstn (Z.to_nat n) out) it in r = (Ok (it', Z.of_nat (length out)), it'))
    (fun e p => r = (Err e, fold_left put (firstn (Z.to_nat n) p) it)).
Proof.
  intros I put it n v args HC r.
  assert (T : forall w t, fold_left (trunc_put put) w t =
    mk_trunc_it (fold_left put (firstn (Z.to_nat (t_limit t - t_count t)) w) (t_out t)) (t_limit t) (t_count t + Z.of_nat (length w))).
  { induction w as [|c w IH]; intros [o l k]; cbn [fold_left t_limit t_count t_out].
    - rewrite firstn_nil. cbn. f_equal. lia.
    - rewrite IH. cbn [trunc_put t_limit t_count t_out length]. f_equal; [|lia]. destruct (k <? l) eqn:E.
      + replace (Z.to_nat (l - k)) with (S (Z.to_nat (l - (k + 1)))) by lia. reflexivity.
      + replace (Z.to_nat (l - k)) with O by lia. replace (Z.to_nat (l - (k + 1))) with O by lia. reflexivity. }
  unfold r, vformat_to_n_it, default_cache_size.
  apply (cached_like (iter_vt (trunc_put put)) (iter_R (trunc_put put) (mk_trunc_it it n 0) 128) (iterator_buffer 128 (mk_trunc_it it n 0))); [apply iter_lawful; lia|apply iterator_buffer_init|exact HC| |].
  - intros w b HR ->. cbn [finish]. destruct (iter_R_flush _ _ _ _ _ HR) as (HR1 & _). destruct (iter_R_flush _ _ _ _ _ HR1) as (_ & E & _).
    cbn [iter_out fst]. rewrite E, T. cbn [t_limit t_count t_out]. rewrite Z.sub_0_r. reflexivity.
  - intros e w b HR ->. cbn [finish]. destruct HR as (_ & _ & _ & _ & w0 & Ew & E). exists w0, (firstn (b_used b) (i_cache (b_kind b))). split; [exact Ew|].
    rewrite E, T. cbn [t_limit t_count t_out]. now rewrite Z.sub_0_r.
Qed.
Print Assumptions C15_iterator.

(** The buffer has room for the [n] characters and hands out areas of any size. *)
Lemma trunc_like {K} (vt : vtable K) R cap room p0 b n v args : lawful vt R cap None room -> obound cap (length p0 + n) -> obound room (length p0 + n) -> R p0 b -> format_call v args ->
  outcome_like v args
    (fun out => exists b', vformat_to_n vt b n v args = (Ok (length out), b') /\ R (p0 ++ firstn n out) b')
    (fun e p => exists b', vformat_to_n vt b n v args = (Err e, b') /\ R (p0 ++ firstn n p) b').
Proof.
  intros HL HCap HRoom HR HC. unfold vformat_to_n, default_cache_size.
  assert (H1 : (1 <= 128)%nat) by lia.
  apply (cached_like (trunc_vt vt) (trunc_R R p0 n 128) (truncating_buffer 128 b n)); [now apply (trunc_lawful vt R cap None room HL p0 n 128)|now apply truncating_buffer_init|exact HC| |].
  - intros w t HT ->. cbn [finish]. destruct (trunc_R_flush vt R cap None room HL p0 n 128 HCap HRoom Logic.I H1 w t HT) as (t' & E & HT' & _ & _ & HR' & _). rewrite E. cbn [finish].
    rewrite (trunc_R_count _ _ _ _ H1 _ _ HT'). eauto.
  - intros e w t HT ->. cbn [finish]. destruct HT as (_ & _ & _ & _ & _ & w0 & Ew & _ & _ & HR'). eauto 6.
Qed.

Theorem C15_memory_buffer : forall storage capacity ops n v args, Forall op_ok ops -> format_call v args ->
  let b := mem_after storage capacity ops in
  outcome_like v args
    (fun out => exists b', vformat_to_n mem_vt b n v args = (Ok (length out), b') /\ mem_view b' = mem_view b ++ firstn n out)
    (fun e p => exists b', vformat_to_n mem_vt b n v args = (Err e, b') /\ mem_view b' = mem_view b ++ firstn n p).
Proof.
  intros storage capacity ops n v args HO HC b. destruct (trunc_like mem_vt mem_R None None _ b n v args mem_lawful Logic.I Logic.I (mem_after_R storage capacity ops HO) HC) as [out H1 H2 (b' & E & H3)|p H1 H2 (b' & E & H3)|p H1 H2 H4 H5 (b' & E & H3)].
  - apply (like_ok _ _ _ _ out); auto. exists b'. split; [exact E|]. apply (mem_R_view _ _ H3).
  - apply (like_err _ _ _ _ p); auto. exists b'. split; [exact E|]. apply (mem_R_view _ _ H3).
  - apply (like_eof _ _ _ _ p); auto. exists b'. split; [exact E|]. apply (mem_R_view _ _ H3).
Qed.
Print Assumptions C15_memory_buffer.
Theorem C15_fixed_buffer : forall cells n v args, (n <= length cells)%nat -> format_call v args ->
  let b := span_buffer cells in
  outcome_like v args
    (fun out => exists b', vformat_to_n span_vt b n v args = (Ok (length out), b') /\ span_view b' = firstn n out)
    (fun e p => exists b', vformat_to_n span_vt b n v args = (Err e, b') /\ span_view b' = firstn n p).
Proof.
  intros cells n v args HN HC b. destruct (trunc_like span_vt (span_Rc (length cells)) (Some (length cells)) None [] b n v args (span_lawful _) HN Logic.I (span_buffer_init cells) HC) as [out H1 H2 (b' & E & H3)|p H1 H2 (b' & E & H3)|p H1 H2 H4 H5 (b' & E & H3)].
  - apply (like_ok _ _ _ _ out); auto. exists b'. split; [exact E|]. apply (span_R_view _ _ (proj1 H3)).
  - apply (like_err _ _ _ _ p); auto. exists b'. split; [exact E|]. apply (span_R_view _ _ (proj1 H3)).
  - apply (like_eof _ _ _ _ p); auto. exists b'. split; [exact E|]. apply (span_R_view _ _ (proj1 H3)).
Qed.
Print Assumptions C15_fixed_buffer.

(** Even if almost nothing is to be written. *)
Theorem C15_limit_refuted : exists v args out, format_call v args /\ vformat v args = Ok out /\
  vformat_to_n_it sink_put [] 3 v args = (Err eof, []) /\ fst (vformat_to_n mem_vt (memory_buffer 128 0) 3 v args) = Err eof.
Proof.
  set (args := [(double_t, double_v 4609434218613702656)]). set (s := str "{:.130f}"). exists (of_string s args), args, (str "1.5" ++ repeat 48 129).
  split; [|split; [|split]; vm_compute; reflexivity].
  exists s. split; [bytes|]. split; [vm_compute; reflexivity|]. intros _. split; [|left; repeat constructor].
  constructor; [apply double_typed; vm_compute; intuition discriminate|constructor].
Qed.
Print Assumptions C15_limit_refuted.

Example C15_example : let args := [(double_t, double_v 4609434218613702656); (str_t, str_v (str "abc"))] in let s := str "{:.3e}|{:>200}|" in
  let v := of_string s args in
  format_call v args /\ short_call v args /\ vformat_to_n_it sink_put (str "<") 5 v args = (Ok (str "<1.500", 211), str "<1.500") /\
  vformat_to_n_it sink_put (str "<") (-1) v args = (Ok (str "<", 211), str "<").
Proof. intros args s v. destruct C16_example as (H1 & H2 & _). split; [exact H1|]. split; [exact H2|]. split; vm_compute; reflexivity. Qed.

(** ** C17 All sinks receive the same *)
Theorem C17_iterator : forall (I : Type) (put : I -> Z -> I) it v args, format_call v args ->
  let r := vformat_to_it put it v args in
  outcome_like v args (fun out => r = (Ok (fold_left put out it), fold_left put out it)) (fun e p => r = (Err e, fold_left put p it)).
Proof.
  intros I put it v args HC r. unfold r, vformat_to_it, default_cache_size.
  apply (cached_like (iter_vt put) (iter_R put it 128) (iterator_buffer 128 it)); [apply iter_lawful; lia|apply iterator_buffer_init|exact HC| |].
  - intros w b HR ->. cbn [finish]. destruct (iter_R_flush _ _ _ _ _ HR) as (_ & E & _). cbn [iter_out fst]. now rewrite E.
  - intros e w b HR ->. cbn [finish]. destruct HR as (_ & _ & _ & _ & w0 & Ew & E). rewrite E. eauto.
Qed.
Print Assumptions C17_iterator.

(** A file that accepts everything. *)
Theorem C17_file : forall file v args, format_call v args ->
  let r := vprint (Some (file, [])) v args in
  outcome_like v args (fun out => r = (Ok tt, Some (file ++ out, []))) (fun e p => r = (Err e, Some (file ++ p, []))).
Proof.
  intros file v args HC r. unfold r, vprint, default_cache_size.
  apply (cached_like file_vt (file_R file 128) (file_buffer 128 file [])); [apply file_lawful; lia|apply file_buffer_init|exact HC| |].
  - intros w b HR ->. cbn [finish]. destruct (file_R_flush _ _ _ _ HR) as (b' & -> & HR' & E & _). unfold file_of. rewrite E. destruct HR' as (_ & _ & _ & _ & -> & _). reflexivity.
  - intros e w b HR ->. cbn [finish]. destruct HR as (_ & _ & _ & _ & EL & w0 & Ew & E). exists w0. eexists. split; [exact Ew|]. unfold file_of. now rewrite EL, E.
Qed.
Print Assumptions C17_file.
Theorem C17_file_line : forall file v args, format_call v args ->
  let r := vprintln (Some (file, [])) v args in
  outcome_like v args (fun out => r = (Ok tt, Some (file ++ out ++ [10], []))) (fun e p => r = (Err e, Some (file ++ p, []))).
Proof.
  intros file v args HC r. unfold r, vprintln, default_cache_size.
  assert (HL : lawful file_vt (file_R file 128) None (Some 128%nat) None) by (apply file_lawful; lia).
  apply (cached_like file_vt (file_R file 128) (file_buffer 128 file [])); [exact HL|apply file_buffer_init|exact HC| |].
  - intros w b HR ->. cbn [finish]. destruct (write_char_emits file_vt (file_R file 128) None (Some 128%nat) None HL 10 w b HR Logic.I) as (b1 & HR1 & E1).
    rewrite exec_atoms in HR1, E1 by (repeat constructor; cbn; lia). cbn [fst snd ops_data flat_map op_data app] in HR1, E1. unfold write_char in E1. rewrite E1. cbn [finish].
    destruct (file_R_flush _ _ _ _ HR1) as (b' & -> & HR' & E & _). unfold file_of. rewrite E. destruct HR' as (_ & _ & _ & _ & -> & _). reflexivity.
  - intros e w b HR ->. cbn [finish]. destruct HR as (_ & _ & _ & _ & EL & w0 & Ew & E). exists w0. eexists. split; [exact Ew|]. unfold file_of. now rewrite EL, E.
Qed.
Print Assumptions C17_file_line.
Theorem C17_no_file : forall v args, vprint None v args = (Err invalid_data, None) /\ vprintln None v args = (Err invalid_data, None).
Proof. intros v args. split; reflexivity. Qed.
Print Assumptions C17_no_file.

(** Buffers without a cache. *)
Theorem C17_memory_buffer : forall storage capacity ops v args, Forall op_ok ops -> format_call v args ->
  let b := mem_after storage capacity ops in
  let (o, b') := vformat_to mem_vt b v args in
  o = (do _ <- vformat v args ;; Ok tt) /\ forall out, vformat v args = Ok out -> mem_view b' = mem_view b ++ out.
Proof.
  intros storage capacity ops v args HO HC b. destruct (call_emits v args HC) as (w & o & HO' & _ & HW). rewrite (vformat_run v args w o HW).
  destruct (HW _ _ _ _ _ _ mem_lawful _ _ (mem_after_R storage capacity ops HO) Logic.I) as (b' & HR & E). rewrite exec_unlimited in HR, E. cbn [fst snd] in HR, E. unfold b. rewrite E.
  destruct HO' as [-> | ->]; cbn [bind]; (split; [reflexivity|]); [|discriminate]. intros out [= <-]. apply (mem_R_view _ _ HR).
Qed.
Print Assumptions C17_memory_buffer.
Theorem C17_fixed_buffer : forall cells v args, format_call v args ->
  let b := span_buffer cells in
  let (o, b') := vformat_to span_vt b v args in
  (forall out, vformat v args = Ok out -> (o = Ok tt /\ (length out <= length cells)%nat /\ span_view b' = out) \/ (o = Err eof /\ (length cells < length out)%nat /\ exists q, out = span_view b' ++ q)) /\
  (forall e, vformat v args = Err e -> o = Err e \/ o = Err eof).
Proof.
  intros cells v args HC b. destruct (call_emits v args HC) as (w & o & HO' & _ & HW). rewrite (vformat_run v args w o HW).
  destruct (HW _ _ _ _ _ _ (span_lawful (length cells)) _ _ (span_buffer_init cells) Logic.I) as (b' & HR & E). assert (HE := exec_cap_only (length cells) [] w (Nat.le_0_l _)).
  destruct (exec_prefix (Some (length cells)) None [] w (Nat.le_0_l _)) as (n & HP). assert (HK := exec_ok (Some (length cells)) None [] w). unfold b. rewrite E.
  destruct (exec (Some (length cells)) None [] w) as [k d]. cbn [fst snd app length] in *. apply proj1, span_R_view in HR. rewrite HR.
  destruct HO' as [-> | ->]; cbn [bind]; (split; [intros out|intros e]); intros [= <-].
  - destruct k; [left|right]; (split; [reflexivity|]); (split; [lia|]); [now apply HK|]. exists (skipn n (ops_data w)). now rewrite HP, firstn_skipn.
  - destruct k; auto.
Qed.
Print Assumptions C17_fixed_buffer.
(** A pointer to enough memory; behind the text nothing is changed. *)
Theorem C17_pointer : forall limit cells v args, (length cells <= limit)%nat -> format_call v args -> forall out, vformat v args = Ok out -> (length out <= length cells)%nat ->
  vformat_to_ptr limit cells v args = (Ok (length out), out ++ skipn (length out) cells).
Proof.
  intros limit cells v args HLim HC out HF HLen. destruct (call_emits v args HC) as (w & o & HO' & _ & HW). rewrite (vformat_run v args w o HW) in HF.
  assert (o = Ok tt) as -> by (destruct HO' as [-> | ->]; [reflexivity|discriminate]). injection HF as <-.
  destruct (HW _ _ _ _ _ _ (ptr_lawful limit (length cells) cells) _ _ (pointer_buffer_init limit cells HLim) HLen) as (b' & HR & E). rewrite exec_unlimited in HR, E. cbn [fst snd app] in HR, E.
  unfold vformat_to_ptr. rewrite E. cbn [finish]. destruct HR as (_ & _ & _ & _ & H1 & _ & H2 & _). unfold ptr_out, get_used_count. now rewrite H1, H2.
Qed.
Print Assumptions C17_pointer.
(** An empty container whose capacity suffices (see C13). *)
Theorem C17_container_partial : forall min_capacity capacity v args, format_call v args -> forall out, vformat v args = Ok out -> (length out <= Nat.min capacity min_capacity)%nat ->
  vformat_to_back min_capacity capacity [] v args = (Ok tt, out).
Proof.
  intros mc c v args HC out HF HLen. destruct (call_emits v args HC) as (w & o & HO' & _ & HW). rewrite (vformat_run v args w o HW) in HF.
  assert (o = Ok tt) as -> by (destruct HO' as [-> | ->]; [reflexivity|discriminate]). injection HF as <-.
  destruct (HW _ _ _ _ _ _ (back_lawful (Nat.min c mc)) _ _ (back_buffer_init mc c) HLen) as (b' & HR & E). rewrite exec_unlimited in HR, E. cbn [fst snd app] in HR, E.
  unfold vformat_to_back. rewrite E. cbn [finish]. now rewrite (back_flush_view _ _ _ HR).
Qed.
Print Assumptions C17_container_partial.

(** A string grows by [format], but printing and writing to an iterator fail. *)
Theorem C17_sinks_refuted : exists v args out, format_call v args /\ vformat v args = Ok out /\
  vprint (Some ([], [])) v args = (Err eof, Some ([], [])) /\ print (Some ([], [])) v args = (Abort, Some ([], [])) /\ vformat_to_it sink_put [] v args = (Err eof, []).
Proof.
  set (args := [(double_t, double_v 4609434218613702656)]). set (s := str "{:.130f}"). exists (of_string s args), args, (str "1.5" ++ repeat 48 129).
  split; [|split; [|split; [|split]]; vm_compute; reflexivity].
  exists s. split; [bytes|]. split; [vm_compute; reflexivity|]. intros _. split; [|left; repeat constructor].
  constructor; [apply double_typed; vm_compute; intuition discriminate|constructor].
Qed.
Print Assumptions C17_sinks_refuted.
Theorem C17_container_refuted : exists v args out r, format_call v args /\ vformat v args = Ok out /\ vformat_to_back 128 15 (str "ab") v args = (Ok tt, r) /\ r <> str "ab" ++ out.
Proof.
  set (args := [(int_t, int_v 7)]). set (s := str "{}"). exists (of_string s args), args, (str "7"). eexists.
  split; [|split; [vm_compute; reflexivity|split; [vm_compute; reflexivity|discriminate]]].
  exists s. split; [bytes|]. split; [vm_compute; reflexivity|]. intros _. split; [|left; repeat constructor].
  constructor; [apply int_typed; vm_compute; intuition discriminate|constructor].
Qed.
Print Assumptions C17_container_refuted.

Example C17_example : let args := [(double_t, double_v 4609434218613702656); (str_t, str_v (str "abc"))] in let s := str "{:.3e}|{:>200}|" in
  let v := of_string s args in
  format_call v args /\ short_call v args /\ exists out, vformat v args = Ok out /\ length out = 211%nat /\
  vprintln (Some (str "<", [])) v args = (Ok tt, Some (str "<" ++ out ++ [10], [])) /\ fst (vformat_to span_vt (span_buffer (repeat 0 211)) v args) = Ok tt /\
  fst (vformat_to span_vt (span_buffer (repeat 0 210)) v args) = Err eof.
Proof.
  intros args s v. destruct C16_example as (H1 & H2 & _). split; [exact H1|]. split; [exact H2|]. eexists. split; [vm_compute; reflexivity|]. split; [|split; [|split]]; vm_compute; reflexivity.
Qed.
