(** Properties C09, C10, C12 - C14: the buffers under any history of writer
    calls. *)
From Verif Require Import Base Conversion Reader Buffer Writer Lib SpecNum SpecEscape SpecWriter.
From Verif Require Import BufferProofs Emits WriterProofs TruncProofs CallProofs.

(** ** C09 memory_buffer holds exactly what was written

    For any storage size, initial capacity and history of writer calls and
    resets: every call succeeds (in particular no store is outside the
    allocation, which would be [Undef]) and the view is the text written since
    the last reset. *)
Theorem C09_memory_buffer : forall storage capacity ops,
  Forall op_ok ops ->
  let '(log, b) := run_bops mem_vt mem_reset (memory_buffer storage capacity) ops in
  Forall (fun p => snd p = Ok tt) log /\ history_text ops (mem_view b).
Proof.
  intros storage capacity ops HF.
  destruct (run_bops_mem mem_vt mem_R None None mem_lawful mem_reset (memory_buffer storage capacity)) with (ops := ops)
    as (t & HT & HR & HA); auto using memory_buffer_init.
  - intros w b HR. eapply mem_reset_init. exact HR.
  - destruct (run_bops _ _ _ _) as [log b]. cbn [fst snd] in *. split; [exact HA|]. now rewrite (mem_R_view _ _ HR).
Qed.
Print Assumptions C09_memory_buffer.

(** The text of a history is unique. *)
Theorem C09_text_unique : forall ops t u, Forall op_ok ops -> history_text ops t -> history_text ops u -> t = u.
Proof. intros ops t u H. now apply history_text_unique. Qed.
Print Assumptions C09_text_unique.

Example C09_case :
  let '(log, b) := run_bops mem_vt mem_reset (memory_buffer 3 0)
    [Do (WStr (str "lost")); Sync; Do (WStr (str "abcdefghij")); Do (WCharN 46 20); Do (WInt i32 (-7) 2 false)] in
  mem_view b = str "abcdefghij....................-111" /\ length (m_cells (b_kind b)) = 41%nat.
Proof. vm_compute. split; reflexivity. Qed.

(** ** C10 Fixed buffers never overflow and fail exactly when full

    [cells] is the memory given to the buffer; nothing else exists, and a store
    outside it would be [Undef]. *)
Theorem C10_fixed_buffer : forall cells ops c text,
  Forall op_ok ops -> call_ok c -> call_text c text ->
  let b := snd (run_bops span_vt span_reset (span_buffer cells) ops) in
  let (o, b') := run_wcall span_vt b c in
  (length (span_view b) <= length cells)%nat /\
  if (length text <=? length cells - length (span_view b))%nat
  then o = Ok tt /\ span_view b' = span_view b ++ text
  else o = Err eof /\ (exists n, span_view b' = span_view b ++ firstn n text) /\
       (needs_one_area c = true -> span_view b' = span_view b) /\
       (length (span_view b') <= length cells)%nat.
Proof.
  intros cells ops c text HF Hc HT b. apply call_text_iff in HT; [|assumption]. subst text.
  destruct (run_bops_inv span_vt (span_Rc (length cells)) (Some (length cells)) None (span_lawful _) span_reset (span_buffer cells))
    with (ops := ops) as (w & HR); auto.
  - intros w b0 HR. exists []. eapply span_reset_init. exact HR.
  - exists []. apply span_buffer_init.
  - fold b in HR. assert (V := span_R_view _ _ (proj1 HR)). rewrite V.
    assert (C := l_cap _ _ _ _ _ (span_lawful (length cells)) _ _ HR). cbn in C.
    destruct (run_wcall_ok span_vt _ _ _ _ (span_lawful (length cells)) c w b Hc HR Logic.I) as (b' & HR' & E).
    rewrite E. split; [exact C|].
    assert (V' := span_R_view _ _ (proj1 HR')). rewrite V'.
    assert (EO := exec1_ok (Some (length cells)) None w (call_op c)).
    assert (EP := exec1_prefix (Some (length cells)) None w (call_op c) C).
    assert (EC := exec1_cap (Some (length cells)) None w (call_op c) C).
    assert (EF : fst (exec1 (Some (length cells)) None w (call_op c)) = (length (text_of c) <=? length cells - length w)%nat).
    { unfold call_op. destruct (needs_one_area c); cbn.
      - destruct (length w + length (text_of c) <=? length cells)%nat eqn:?; cbn; lia.
      - lia. }
    rewrite call_op_data in *. rewrite EF in *.
    destruct (length (text_of c) <=? length cells - length w)%nat eqn:EL.
    + split; [reflexivity|auto].
    + split; [reflexivity|]. split; [exact EP|]. split; [|exact EC].
      intros HN. unfold call_op in *. rewrite HN in *. cbn in *.
      replace (length w + length (text_of c) <=? length cells)%nat with false by lia. reflexivity.
Qed.
Print Assumptions C10_fixed_buffer.

(** A copy of a static_buffer holds the same text and is a buffer of the same
    capacity that can be written on. *)
Theorem C10_static_copy : forall n ops1 ops2 c text,
  Forall op_ok ops1 -> Forall op_ok ops2 -> call_ok c -> call_text c text ->
  let fresh := span_buffer (repeat uninit n) in
  let this := snd (run_bops span_vt span_reset fresh ops1) in
  let other := snd (run_bops span_vt span_reset fresh ops2) in
  exists b, static_copy this other = Ok b /\ span_view b = span_view other /\ length (b_kind b) = n /\
    ((length (span_view b) + length text <= n)%nat ->
      exists b', run_wcall span_vt b c = (Ok tt, b') /\ span_view b' = span_view other ++ text).
Proof.
  intros n ops1 ops2 c text H1 H2 Hc HT fresh this other. apply call_text_iff in HT; [|assumption]. subst text.
  assert (HI : forall ops, Forall op_ok ops -> exists w, span_Rc n w (snd (run_bops span_vt span_reset fresh ops))).
  { intros ops HF. destruct (run_bops_inv span_vt (span_Rc n) (Some n) None (span_lawful _) span_reset fresh) with (ops := ops) as (w & HR); eauto.
    - intros w b0 HR. exists []. eapply span_reset_init. exact HR.
    - exists []. rewrite <- (repeat_length uninit n) at 1. apply span_buffer_init. }
  destruct (HI ops1 H1) as (w1 & HR1). destruct (HI ops2 H2) as (w2 & HR2). fold this in HR1. fold other in HR2.
  assert (V2 := span_R_view _ _ (proj1 HR2)).
  assert (HR0 : span_Rc n [] (set_write_area this (mk_span 0 (length (b_kind this))))) by (eapply span_reset_init; exact HR1).
  destruct HR2 as ((A1 & A2 & A3 & A4 & A5) & A6).
  assert (AO := area_of span_vt (span_Rc n) (Some n) None None (span_lawful n) [] _ (length w2) HR0 Logic.I).
  cbn in AO. replace (length w2 <=? n)%nat with true in AO by lia. cbn in AO.
  destruct AO as (a & b1 & E1 & L & B & P).
  unfold static_copy. unfold get_used_count at 1. rewrite A3, E1, L.
  rewrite A5. rewrite (store_area_ok span_vt) by (cbn in *; lia).
  assert (HRb := P w2 eq_refl). cbn in HRb.
  eexists. split; [reflexivity|]. assert (Vb := span_R_view _ _ (proj1 HRb)). cbn [app] in Vb. rewrite Vb, V2.
  split; [reflexivity|]. split; [apply HRb|]. intros HL.
  destruct (run_wcall_ok span_vt _ _ _ _ (span_lawful n) c w2 _ Hc HRb Logic.I) as (b' & HR' & E).
  rewrite E. exists b'.
  assert (EF : exec1 (Some n) None w2 (call_op c) = (true, w2 ++ text_of c)).
  { unfold call_op. destruct (needs_one_area c); cbn; replace (length w2 + length (text_of c) <=? n)%nat with true by lia; cbn; [reflexivity|].
    f_equal. apply firstn_all2. rewrite app_length. lia. }
  rewrite EF in *. cbn [fst snd] in *. split; [reflexivity|]. apply (span_R_view _ _ (proj1 HR')).
Qed.
Print Assumptions C10_static_copy.

Example C10_case :
  let b := snd (run_bops span_vt span_reset (span_buffer (str "........")) [Do (WStr (str "abcde"))]) in
  run_wcall span_vt b (WStr (str "xyz")) = (Ok tt, mk_bst true 8 (mk_span 0 8) (str "abcdexyz")) /\
  run_wcall span_vt b (WStr (str "xyz!")) = (Err eof, mk_bst true 8 (mk_span 0 8) (str "abcdexyz")) /\
  run_wcall span_vt b (WInt u8 200 2 false) = (Err eof, b).
Proof. vm_compute. repeat split. Qed.

(** ** C12 Cached sinks deliver everything exactly once in order

    For every output iterator ([put] is the effect of [*it++ = c]) and cache of
    at least one character: after any history of calls and flushes, a final
    flush has passed exactly the texts of the successful calls to the iterator.
    A call fails only if it needs one area larger than the cache. *)
Theorem C12_iterator_buffer : forall (I : Type) (put : I -> Z -> I) it cache_size ops,
  (1 <= cache_size)%nat -> Forall op_ok ops ->
  let '(log, b) := run_bops (iter_vt put) (iter_flush put) (iterator_buffer cache_size it) ops in
  exists text, log_text log text /\
    fst (iter_out put b) = fold_left put text it /\
    Forall (fun p => snd p = Ok tt \/
                     snd p = Err eof /\ needs_one_area (fst p) = true /\
                     forall u, call_text (fst p) u -> call_ok (fst p) -> (cache_size < length u)%nat) log.
Proof.
  intros I put it cs ops Hc HF.
  destruct (run_bops_cached (iter_vt put) (iter_R put it cs) None (Some cs) (iter_lawful put it cs Hc) (iter_flush put) (iterator_buffer cs it))
    with (ops := ops) as (t & LT & HR & HA); auto using iterator_buffer_init.
  - intros w b HR. apply (iter_R_flush put it cs w b HR).
  - destruct (run_bops _ _ _ _) as [log b]. cbn [fst snd] in *. exists t. split; [exact LT|].
    destruct (iter_R_flush put it cs t b HR) as (_ & E & _). split; [exact E|].
    eapply Forall_impl; [|exact HA]. intros [c o] [H|(H1 & H2 & H3)]; [auto|right]. cbn in *. repeat split; auto.
    intros u HU HO. apply call_text_iff in HU; [|assumption]. subst. lia.
Qed.
Print Assumptions C12_iterator_buffer.

(** The same for a file_buffer whose stream accepts everything. *)
Theorem C12_file_buffer_partial : forall out cache_size ops,
  (1 <= cache_size)%nat -> Forall op_ok ops ->
  let '(log, b) := run_bops file_vt (fun b => snd (file_flush b)) (file_buffer cache_size out []) ops in
  exists text b', log_text log text /\
    file_flush b = (Ok tt, b') /\ f_out (b_kind b') = out ++ text /\
    Forall (fun p => snd p = Ok tt \/
                     snd p = Err eof /\ needs_one_area (fst p) = true /\
                     forall u, call_text (fst p) u -> call_ok (fst p) -> (cache_size < length u)%nat) log.
Proof.
  intros out cs ops Hc HF.
  destruct (run_bops_cached file_vt (file_R out cs) None (Some cs) (file_lawful out cs Hc) (fun b => snd (file_flush b)) (file_buffer cs out []))
    with (ops := ops) as (t & LT & HR & HA); auto using file_buffer_init.
  - intros w b HR. destruct (file_R_flush out cs w b HR) as (b' & -> & HR' & _). exact HR'.
  - destruct (run_bops _ _ _ _) as [log b]. cbn [fst snd] in *. 
    destruct (file_R_flush out cs t b HR) as (b' & E1 & HR' & E2 & _). exists t, b'. split; [exact LT|]. split; [exact E1|]. split; [exact E2|].
    eapply Forall_impl; [|exact HA]. intros [c o] [H|(H1 & H2 & H3)]; [auto|right]. cbn in *. repeat split; auto.
    intros u HU HO. apply call_text_iff in HU; [|assumption]. subst. lia.
Qed.
Print Assumptions C12_file_buffer_partial.

Example C12_case :
  let '(log, b) := run_bops (iter_vt sink_put) (iter_flush sink_put) (iterator_buffer 3 (str ">"))
    [Do (WStr (str "abcd")); Do (WInt u8 12 10 false); Sync; Do (WInt i32 1000 10 false); Do (WStr (str "!"))] in
  fst (iter_out sink_put b) = str ">abcd12!" /\ map snd log = [Ok tt; Ok tt; Err eof; Ok tt].
Proof. vm_compute. split; reflexivity. Qed.

(** Missing: streams that accept only a part of the data. There the property is
    false: after a short write the flush fails and keeps the whole cache, so
    the next successful flush sends the accepted part again. *)
Theorem C12_file_short_write_refuted :
  exists ops limits, let '(log, b) := run_bops file_vt (fun b => snd (file_flush b)) (file_buffer 8 [] limits) ops in
    log_text log (str "abc") /\
    exists b', file_flush b = (Ok tt, b') /\ f_out (b_kind b') = str "ababc".
Proof.
  exists [Do (WStr (str "abc")); Sync], [2%nat]. cbn. split.
  - change [97; 98; 99] with ([] ++ str "abc"). apply (lt_ok [] [] (WStr (str "abc")) (str "abc")); constructor.
  - eexists. split; reflexivity.
Qed.
Print Assumptions C12_file_short_write_refuted.

(** ** C13 Appending through std::back_inserter appends

    Full statement: for every container content [cont] and history, after a
    flush the container holds [cont] followed by the text. Proved for an empty
    container when the text fits into the first area (the smaller of the
    container's capacity and the internal default); false otherwise. *)
Theorem C13_back_insert_partial : forall min_capacity capacity calls texts,
  Forall call_ok calls -> Forall2 call_text calls texts ->
  (length (concat texts) <= Nat.min capacity min_capacity)%nat ->
  let '(log, b) := run_bops back_vt (fun b => b) (back_buffer min_capacity capacity []) (map Do calls) in
  Forall (fun p => snd p = Ok tt) log /\ k_cont (b_kind (back_flush b)) = concat texts.
Proof.
  intros mc cap calls texts HF HT HL. set (m := Nat.min cap mc) in *.
  assert (ET : texts = map text_of calls).
  { clear HL. revert HF. induction HT as [|c t calls texts Hc _ IH]; intros HF; [reflexivity|]. inversion HF; subst.
    cbn. f_equal; [now apply call_text_iff|now apply IH]. }
  subst texts. clear HT.
  enough (G : forall calls, Forall call_ok calls -> (length (concat (map text_of calls)) <= m)%nat ->
    let st := run_bops back_vt (fun b => b) (back_buffer mc cap []) (map Do calls) in
    Forall (fun p => snd p = Ok tt) (fst st) /\ back_R m (concat (map text_of calls)) (snd st)).
  { specialize (G calls HF HL). cbv zeta in G. destruct (run_bops _ _ _ _) as [log b]. destruct G as (G1 & G2). split; [exact G1|].
    cbn [snd] in G2. eapply back_flush_view. exact G2. }
  clear. intros calls HF HL. induction calls as [|c calls IH] using rev_ind; cbv zeta in *.
  - cbn. split; [constructor|]. apply back_buffer_init.
  - apply Forall_app in HF as (HF & HFc). inversion HFc as [|? ? Hc _]; subst.
    rewrite (map_app text_of), concat_app in HL |- *. cbn [map concat] in *. rewrite app_nil_r in *. rewrite app_length in HL.
    destruct (IH HF ltac:(lia)) as (IH1 & IH2). rewrite map_app. cbn [map]. rewrite run_bops_snoc.
    destruct (run_bops back_vt (fun b => b) (back_buffer mc cap []) (map Do calls)) as [log b]. cbn [fst snd] in *.
    destruct (run_wcall_ok back_vt _ _ _ _ (back_lawful m) c _ _ Hc IH2 HL) as (b' & HR' & E).
    assert (EX : exec1 None None (concat (map text_of calls)) (call_op c) = (true, concat (map text_of calls) ++ text_of c)).
    { unfold call_op. now destruct (needs_one_area c). }
    rewrite EX in *. cbn [step_bop fst snd] in *. rewrite E. cbn [fst snd]. split; [|exact HR'].
    apply Forall_app. split; [exact IH1|]. repeat constructor.
Qed.
Print Assumptions C13_back_insert_partial.

Example C13_case :
  let '(log, b) := run_bops back_vt (fun b => b) (back_buffer 128 15 []) (map Do [WStr (str "hello "); WInt i32 2024 10 false]) in
  k_cont (b_kind (back_flush b)) = str "hello 2024".
Proof. reflexivity. Qed.

(** Existing content is overwritten, and a longer text is stored outside the
    container (undefined behaviour): an empty std::string of capacity 15,
    written 10, 10 and 8 characters. *)
Theorem C13_back_insert_refuted :
  (exists cont text, let '(log, b) := run_bops back_vt (fun b => b) (back_buffer 128 15 cont) [Do (WStr text)] in
     cont = str "hello" /\ text = str "abc" /\ k_cont (b_kind (back_flush b)) = str "abc") /\
  (exists calls, let '(log, b) := run_bops back_vt (fun b => b) (back_buffer 128 15 []) (map Do calls) in
     Forall call_ok calls /\ map snd log = [Ok tt; Ok tt; Undef]).
Proof.
  split.
  - exists (str "hello"), (str "abc"). vm_compute. repeat split.
  - exists [WStr (repeat 97 10); WStr (repeat 98 10); WStr (repeat 99 8)]. split; [|reflexivity].
    repeat constructor; unfold is_byte; lia.
Qed.
Print Assumptions C13_back_insert_refuted.

(** ** C14 truncating_buffer passes on exactly the first limit characters

    Over a memory_buffer (after any history of its own), with any cache. *)
Theorem C14_truncating_memory_buffer : forall storage capacity ops1 limit cache_size ops,
  (1 <= cache_size)%nat -> Forall op_ok ops1 -> Forall op_ok ops ->
  let primary := snd (run_bops mem_vt mem_reset (memory_buffer storage capacity) ops1) in
  let '(log, b) := run_bops (trunc_vt mem_vt) (fun b => snd (trunc_flush mem_vt b)) (truncating_buffer cache_size primary limit) ops in
  exists text b', log_text log text /\ trunc_flush mem_vt b = (Ok tt, b') /\
    mem_view (tr_primary (b_kind b')) = mem_view primary ++ firstn limit text /\
    trunc_count b' = length text /\ trunc_count b = length text.
Proof.
  intros storage capacity ops1 limit cs ops Hc HF1 HF primary.
  destruct (run_bops_mem mem_vt mem_R None None mem_lawful mem_reset (memory_buffer storage capacity)) with (ops := ops1)
    as (p0 & HT & HP & _); auto using memory_buffer_init.
  { intros w b HR. eapply mem_reset_init. exact HR. }
  fold primary in HP. clearbody primary. rewrite (mem_R_view _ _ HP).
  set (TR := trunc_R mem_R p0 limit cs).
  assert (TL : lawful (trunc_vt mem_vt) TR None (Some cs) None).
  { apply (trunc_lawful mem_vt mem_R None None None mem_lawful); auto; exact Logic.I. }
  assert (FL : forall w b, TR w b -> exists b', trunc_flush mem_vt b = (Ok tt, b') /\ TR w b' /\
     mem_R (p0 ++ firstn limit w) (tr_primary (b_kind b'))).
  { intros w b HR. destruct (trunc_R_flush mem_vt mem_R None None None mem_lawful p0 limit cs Logic.I Logic.I Logic.I Hc w b HR)
      as (b' & E & HR' & _ & _ & HP' & _). eauto. }
  destruct (run_bops_cached (trunc_vt mem_vt) TR None (Some cs) TL (fun b => snd (trunc_flush mem_vt b)) (truncating_buffer cs primary limit))
    with (ops := ops) as (t & LT & HR & HA); auto.
  - intros w b HR. destruct (FL w b HR) as (b' & -> & HR' & _). exact HR'.
  - now apply truncating_buffer_init.
  - destruct (run_bops _ _ _ _) as [log b]. cbn [fst snd] in *. destruct (FL t b HR) as (b' & E & HR' & HP').
    exists t, b'. split; [exact LT|]. split; [exact E|]. split; [apply (mem_R_view _ _ HP')|].
    split; eapply trunc_R_count; eassumption.
Qed.
Print Assumptions C14_truncating_memory_buffer.

(** Over a fixed buffer with room for the limit. *)
Theorem C14_truncating_fixed_buffer : forall cells limit cache_size ops,
  (1 <= cache_size)%nat -> (limit <= length cells)%nat -> Forall op_ok ops ->
  let '(log, b) := run_bops (trunc_vt span_vt) (fun b => snd (trunc_flush span_vt b)) (truncating_buffer cache_size (span_buffer cells) limit) ops in
  exists text b', log_text log text /\ trunc_flush span_vt b = (Ok tt, b') /\
    span_view (tr_primary (b_kind b')) = firstn limit text /\ trunc_count b' = length text.
Proof.
  intros cells limit cs ops Hc HLim HF.
  set (m := length cells) in *. set (TR := trunc_R (span_Rc m) [] limit cs).
  assert (HS := span_lawful m).
  assert (TL : lawful (trunc_vt span_vt) TR None (Some cs) None).
  { apply (trunc_lawful span_vt (span_Rc m) (Some m) None None HS); auto; exact Logic.I. }
  assert (FL : forall w b, TR w b -> exists b', trunc_flush span_vt b = (Ok tt, b') /\ TR w b' /\
     span_Rc m (firstn limit w) (tr_primary (b_kind b'))).
  { intros w b HR. destruct (trunc_R_flush span_vt (span_Rc m) (Some m) None None HS [] limit cs HLim Logic.I Logic.I Hc w b HR)
      as (b' & E & HR' & _ & _ & HP' & _). eauto. }
  destruct (run_bops_cached (trunc_vt span_vt) TR None (Some cs) TL (fun b => snd (trunc_flush span_vt b)) (truncating_buffer cs (span_buffer cells) limit))
    with (ops := ops) as (t & LT & HR & HA); auto.
  - intros w b HR. destruct (FL w b HR) as (b' & -> & HR' & _). exact HR'.
  - apply truncating_buffer_init; [exact Hc|apply span_buffer_init].
  - destruct (run_bops _ _ _ _) as [log b]. cbn [fst snd] in *. destruct (FL t b HR) as (b' & E & HR' & HP').
    exists t, b'. split; [exact LT|]. split; [exact E|]. split; [apply (span_R_view _ _ (proj1 HP'))|].
    eapply trunc_R_count; eassumption.
Qed.
Print Assumptions C14_truncating_fixed_buffer.

Example C14_case :
  let '(log, b) := run_bops (trunc_vt mem_vt) (fun b => snd (trunc_flush mem_vt b))
     (truncating_buffer 4 (memory_buffer 0 0) 6) [Do (WStr (str "abc")); Do (WStr (str "defghi")); Do (WInt i32 12 10 false)] in
  let b' := snd (trunc_flush mem_vt b) in
  mem_view (tr_primary (b_kind b')) = str "abcdef" /\ trunc_count b' = 11%nat.
Proof. vm_compute. split; reflexivity. Qed.

(** The property is false over a primary buffer that grants less than asked:
    each piece is copied from the start of the cache. Here the primary is an
    iterator_buffer with a cache of 3 under a truncating_buffer with one of 8. *)
Theorem C14_truncating_refuted :
  exists text limit, let p := iterator_buffer 3 [] in
    let '(log, b) := run_bops (trunc_vt (iter_vt sink_put)) (fun b => b) (truncating_buffer 8 p limit) [Do (WStr text)] in
    let '(o, b') := trunc_flush (iter_vt sink_put) b in
    text = str "abcdef" /\ limit = 10%nat /\ map snd log = [Ok tt] /\ o = Ok tt /\
    fst (iter_out sink_put (tr_primary (b_kind b'))) = str "abcabc".
Proof. exists (str "abcdef"), 10%nat. vm_compute. repeat split. Qed.
Print Assumptions C14_truncating_refuted.
