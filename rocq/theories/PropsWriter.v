(** Properties C03, C04, C18, C19: the writer. *)
From Verif Require Import Base Conversion Reader Buffer Writer Lib SpecNum SpecReader SpecEscape SpecWriter.
From Verif Require Import ReaderProofs BufferProofs Emits WriterProofs CallProofs RoundTrip Pieces.

(** A memory_buffer after any history of writer calls and resets. *)
Definition mem_after (storage capacity : nat) (ops : list bop) : bst mem_k :=
  snd (run_bops mem_vt mem_reset (memory_buffer storage capacity) ops).

Lemma mem_after_R storage capacity ops : Forall op_ok ops -> mem_R (mem_view (mem_after storage capacity ops)) (mem_after storage capacity ops).
Proof.
  intros H. destruct (run_bops_inv mem_vt mem_R None None mem_lawful mem_reset (memory_buffer storage capacity)) with (ops := ops) as (w & HR).
  - intros w b HR. eauto using mem_reset_init.
  - eauto using memory_buffer_init.
  - assumption.
  - fold (mem_after storage capacity ops) in HR. now rewrite (mem_R_view _ _ HR).
Qed.

(** ** C04 write_int emits the canonical numeral *)
Theorem C04_write_int_canonical : forall storage capacity ops t v base upper,
  Forall op_ok ops -> is_ity t -> in_range t v ->
  let b := mem_after storage capacity ops in
  (2 <= base <= 36 ->
   exists text b', integer_text v base upper text /\
     write_int mem_vt b t v base upper = (Ok tt, b') /\ mem_view b' = mem_view b ++ text) /\
  (~ (2 <= base <= 36) -> write_int mem_vt b t v base upper = (Err invalid_argument, b)).
Proof.
  intros storage capacity ops t v base upper HF Ht Hv b. assert (HR := mem_after_R storage capacity ops HF). fold b in HR.
  split; intros Hb.
  - destruct (write_int_emits mem_vt mem_R None None None mem_lawful t v base upper Ht Hv Hb _ _ HR Logic.I) as (b' & HR' & E).
    cbn in *. exists (int_text v base upper), b'. split; [now apply integer_text_iff|]. split; [exact E|].
    now rewrite (mem_R_view _ _ HR').
  - unfold write_int, write_int_impl. replace (is_valid_number_base base) with false by (unfold is_valid_number_base; lia).
    reflexivity.
Qed.
Print Assumptions C04_write_int_canonical.

(** The numeral is determined by the specification. *)
Theorem C04_numeral_unique : forall v base upper t u,
  2 <= base <= 36 -> integer_text v base upper t -> integer_text v base upper u -> t = u.
Proof. intros v base upper t u Hb H1 H2. apply integer_text_iff in H1, H2; auto. congruence. Qed.
Print Assumptions C04_numeral_unique.

(** In a fixed buffer exactly the bytes of the text change; one byte less of
    space and nothing is written. *)
Theorem C04_exact_bytes : forall cells t v base upper text,
  is_ity t -> in_range t v -> 2 <= base <= 36 -> integer_text v base upper text ->
  ((length text <= length cells)%nat ->
     exists b', write_int span_vt (span_buffer cells) t v base upper = (Ok tt, b') /\
                b_kind b' = text ++ skipn (length text) cells /\ get_used_count b' = length text) /\
  ((length cells < length text)%nat ->
     write_int span_vt (span_buffer cells) t v base upper = (Err eof, span_buffer cells)).
Proof.
  intros cells t v base upper text Ht Hv Hb HT. apply integer_text_iff in HT; [|assumption]. subst text.
  assert (W : exists f, (forall b, write_int span_vt b t v base upper =
     sbind (get_write_area_of span_vt b (length (int_text v base upper))) (fun a b => fill_area span_vt b a f)) /\
     forall cells, length cells = length (int_text v base upper) -> f cells = Some (int_text v base upper)).
  { apply write_int_as_fill; assumption. }
  destruct W as (f & W & Hf). rewrite W. unfold get_write_area_of, get_write_area_of_max, span_buffer.
  cbn [b_fixed b_area b_used s_len s_off]. rewrite orb_true_r, Nat.sub_0_r.
  assert (N : (0 < length (int_text v base upper))%nat).
  { unfold int_text. rewrite app_length. assert (P := ConversionProofs.numeral_nonempty base upper (Z.abs v) Hb ltac:(lia)). lia. }
  split; intros HL.
  - replace (length cells =? 0)%nat with false by lia. cbn [andb sbind s_len].
    replace (Nat.min (length cells) (length (int_text v base upper))) with (length (int_text v base upper)) by lia.
    rewrite Nat.ltb_irrefl. cbn [sbind]. rewrite (fill_area_ok span_vt _ _ f (int_text v base upper)) by (auto; cbn; lia).
    eexists. split; [reflexivity|]. cbn. split; reflexivity.
  - replace (Nat.min (length cells) (length (int_text v base upper))) with (length cells) by lia.
    replace (length (int_text v base upper) =? 0)%nat with false by lia.
    destruct (length cells =? 0)%nat; cbn [andb negb]; [reflexivity|]. cbn [sbind s_len].
    replace (length cells <? length (int_text v base upper))%nat with true by lia. cbn [sbind set_used b_used].
    rewrite Nat.sub_diag. reflexivity.
Qed.
Print Assumptions C04_exact_bytes.

Example C04_case :
  let b := mem_after 2 0 [Do (WStr (str "x="))] in
  mem_view (snd (write_int mem_vt b i16 (-32768) 16 true)) = str "x=-8000" /\
  mem_view (snd (write_int mem_vt b u64 18446744073709551615 36 true)) = str "x=3W5E11264SGSF".
Proof. vm_compute. split; reflexivity. Qed.

(** ** C03 Integer text round trip

    Also when other text follows, if it does not continue the number. *)
Theorem C03_integer_round_trip : forall m storage capacity ops t v base upper rest,
  Forall op_ok ops -> is_ity t -> in_range t v -> 2 <= base <= 36 ->
  Forall is_byte rest -> number_ends base rest ->
  let b := mem_after storage capacity ops in
  exists b' text, write_int mem_vt b t v base upper = (Ok tt, b') /\
    mem_view b' = mem_view b ++ text /\
    let r := mk_reader (mem_view b' ++ rest) (length (mem_view b)) in
    parse_int m t base r = (Ok v, mk_reader (mem_view b' ++ rest) (length (mem_view b'))).
Proof.
  intros m storage capacity ops t v base upper rest HF Ht Hv Hb HB HN b. assert (HR := mem_after_R storage capacity ops HF). fold b in HR.
  destruct (write_int_emits mem_vt mem_R None None None mem_lawful t v base upper Ht Hv Hb _ _ HR Logic.I) as (b' & HR' & E).
  cbn in E, HR'. exists b', (int_text v base upper). split; [exact E|]. apply mem_R_view in HR'. split; [exact HR'|].
  cbv zeta. rewrite HR'. rewrite (parse_int_text m t v base upper _ rest); auto.
  - unfold set_pos. cbn. now rewrite app_length.
  - unfold rwf. cbn. rewrite !app_length. lia.
  - unfold view_remaining. cbn. rewrite <- app_assoc. rewrite skipn_app, skipn_all, Nat.sub_diag. reflexivity.
Qed.
Print Assumptions C03_integer_round_trip.

Example C03_case :
  mem_view (snd (write_int mem_vt (memory_buffer 0 0) i64 (-9223372036854775808) 7 false)) = str "-22341010611245052052301" /\
  parse_int iso i64 7 (reader_of (str "-22341010611245052052301:1")) = (Ok (-9223372036854775808), mk_reader (str "-22341010611245052052301:1") 24) /\
  number_ends 7 (str ":1").
Proof. split; [reflexivity|]. split; [reflexivity|]. split; [reflexivity|left; lia]. Qed.

(** The condition on what follows is needed: hexadecimal followed by ':'. *)
Theorem C03_followed_by_colon_refuted :
  exists v rest, let text := str "ab" in
    integer_text v 16 false text /\ Forall (fun c => is_digit 16 c = false) rest /\
    fst (parse_int iso i32 16 (reader_of (text ++ rest))) <> Ok v.
Proof.
  exists 171, (str ":"). cbv zeta. split; [apply integer_text_iff; [lia|reflexivity]|]. split; [repeat constructor|]. vm_compute. discriminate.
Qed.
Print Assumptions C03_followed_by_colon_refuted.

(** ** C18 Escaping is exact and reversible *)
Theorem C18_escaped_output : forall storage capacity ops,
  Forall op_ok ops ->
  let b := mem_after storage capacity ops in
  (forall s, Forall is_byte s -> exists b' out,
     write_str_escaped mem_vt b s = (Ok tt, b') /\ mem_view b' = mem_view b ++ [ch_quote] ++ out ++ [ch_quote] /\
     out = escape_text s /\ Forall (fun c => printable c = true) out /\
     length out = count_size_when_escaped s /\ unescape_text out = Some s) /\
  (forall c, is_byte c -> exists b' out,
     write_char_escaped mem_vt b c = (Ok tt, b') /\ mem_view b' = mem_view b ++ [ch_apos] ++ out ++ [ch_apos] /\
     out = escape c /\ Forall (fun c => printable c = true) out /\ unescape_text out = Some [c]).
Proof.
  intros storage capacity ops HF b. assert (HR := mem_after_R storage capacity ops HF). fold b in HR.
  assert (HK := lawful_chunky _ _ _ _ _ mem_lawful). split.
  - intros s Hs. destruct (write_str_escaped_emits mem_vt mem_R None None None HK s Hs _ _ HR Logic.I) as (b' & HR' & E).
    cbn in E, HR'. exists b', (escape_text s). apply mem_R_view in HR'. repeat split; auto.
    + now apply escape_text_printable.
    + symmetry. now apply count_escaped.
    + unfold unescape_text. apply unescape_escape; auto.
  - intros c Hc. destruct (write_char_escaped_emits mem_vt mem_R None None None HK c Hc _ _ HR Logic.I) as (b' & HR' & E).
    cbn in E, HR'. exists b', (escape c). apply mem_R_view in HR'. repeat split; auto.
    + rewrite <- (app_nil_r (escape c)). change (escape c ++ []) with (escape_text [c]). apply escape_text_printable. constructor; [exact Hc|constructor].
    + rewrite <- (app_nil_r (escape c)). change (escape c ++ []) with (escape_text [c]). unfold unescape_text. apply unescape_escape; auto.
Qed.
Print Assumptions C18_escaped_output.

(** Two different texts never give the same output. *)
Theorem C18_escape_injective : forall s t,
  Forall is_byte s -> Forall is_byte t -> escape_text s = escape_text t -> s = t.
Proof.
  intros s t Hs Ht E. assert (U1 := unescape_escape s Hs _ (le_n _)). assert (U2 := unescape_escape t Ht _ (le_n _)).
  rewrite E in U1. congruence.
Qed.
Print Assumptions C18_escape_injective.

(** An end quote cannot be mistaken: an unescaped quote never occurs inside. *)
Theorem C18_quote_delimits : forall s t r1 r2,
  Forall is_byte s -> Forall is_byte t ->
  [ch_quote] ++ escape_text s ++ [ch_quote] ++ r1 = [ch_quote] ++ escape_text t ++ [ch_quote] ++ r2 -> s = t /\ r1 = r2.
Proof.
  intros s t r1 r2 Hs Ht E. cbn [app] in E. inversion E as [E']. clear E. revert t Ht E'.
  induction Hs as [|c s Hc Hs IH]; intros t Ht E; destruct Ht as [|d t Hd Ht].
  - cbn in E. inversion E. auto.
  - exfalso. cbn in E. assert (U := unescape1_escape d (escape_text t ++ ch_quote :: r2) Hd).
    fold (escape_text t) in E. rewrite <- app_assoc in E. rewrite <- E in U. cbn in U.
    inversion U as [[E1 E2]]. subst d. cbn in E. discriminate.
  - exfalso. cbn in E. assert (U := unescape1_escape c (escape_text s ++ ch_quote :: r1) Hc).
    fold (escape_text s) in E. rewrite <- app_assoc in E. rewrite E in U. cbn in U.
    inversion U as [[E1 E2]]. subst c. cbn in E. discriminate.
  - cbn in E. fold (escape_text t) (escape_text s) in E. rewrite <- !app_assoc in E.
    assert (U := unescape1_escape c (escape_text s ++ ch_quote :: r1) Hc). rewrite E, unescape1_escape in U by assumption.
    inversion U as [[E1 E2]]. subst d. destruct (IH t Ht) as (-> & ->); auto.
Qed.
Print Assumptions C18_quote_delimits.

Example C18_case :
  let s := [97; 10; ch_quote; 0; 255; ch_backslash] in
  mem_view (snd (write_str_escaped mem_vt (memory_buffer 0 0) s)) =
  [ch_quote] ++ str "a\n\" ++ [ch_quote] ++ str "\x00\xff\\" ++ [ch_quote].
Proof. reflexivity. Qed.

(** ** C19 Writer emits exactly what was requested whatever the chunking

    The buffer hands out its space in pieces of sizes chosen by an oracle. All
    calls that need no contiguous area end, succeed, and write their text. *)
Theorem C19_any_chunking : forall sizes calls,
  Forall call_ok calls -> Forall (fun c => needs_one_area c = false \/ exists x, c = WChar x) calls ->
  let '(log, b) := run_bops piece_vt (fun b => b) (piece_buffer sizes) (map Do calls) in
  Forall (fun p => snd p = Ok tt) log /\
  exists texts, Forall2 call_text calls texts /\ p_mem (b_kind b) = concat texts.
Proof.
  intros sizes calls HF HN.
  enough (G : forall calls, Forall call_ok calls -> Forall (fun c => needs_one_area c = false \/ exists x, c = WChar x) calls ->
    let st := run_bops piece_vt (fun b => b) (piece_buffer sizes) (map Do calls) in
    Forall (fun p => snd p = Ok tt) (fst st) /\ piece_R (concat (map text_of calls)) (snd st)).
  { specialize (G calls HF HN). cbv zeta in G. destruct (run_bops _ _ _ _) as [log b]. destruct G as (G1 & G2). split; [exact G1|].
    exists (map text_of calls). split.
    - clear -HF. induction HF; cbn; constructor; auto. now apply call_text_of.
    - apply G2. }
  clear. intros calls HF HN. induction calls as [|c calls IH] using rev_ind; cbv zeta in *.
  - cbn. split; [constructor|apply piece_buffer_init].
  - apply Forall_app in HF as (HF & HFc). apply Forall_app in HN as (HN & HNc).
    inversion HFc as [|? ? Hc _]; inversion HNc as [|? ? Hn _]; subst.
    destruct (IH HF HN) as (IH1 & IH2). rewrite map_app. cbn [map]. rewrite run_bops_snoc.
    destruct (run_bops piece_vt (fun b => b) (piece_buffer sizes) (map Do calls)) as [log b]. cbn [fst snd] in *.
    rewrite map_app, concat_app. cbn [map concat]. rewrite app_nil_r.
    assert (E : emits piece_R None None None (fun b => run_wcall piece_vt b c) [Chunk (text_of c)] (Ok tt)).
    { destruct c; cbn [run_wcall]; cbn in Hc.
      - apply write_char_chunky. apply piece_chunky.
      - apply write_char_n_emits. apply piece_chunky.
      - apply write_str_emits. apply piece_chunky.
      - apply write_char_escaped_emits; [apply piece_chunky|assumption].
      - apply write_str_escaped_emits; [apply piece_chunky|assumption].
      - destruct Hn as [Hn|(x & Hn)]; discriminate. }
    destruct (E _ _ IH2 Logic.I) as (b' & HR & E'). cbn in HR, E'. cbn [step_bop snd fst]. rewrite E'. cbn [fst snd].
    split; [|exact HR]. apply Forall_app. split; [exact IH1|]. repeat constructor.
Qed.
Print Assumptions C19_any_chunking.

Example C19_case :
  let '(log, b) := run_bops piece_vt (fun b => b) (piece_buffer (fun n => Nat.modulo n 2))
    (map Do [WStr (str "hello"); WCharN 42 4; WStrEscaped [1; 97]; WChar 33]) in
  p_mem (b_kind b) = str "hello****" ++ [ch_quote] ++ str "\x01a" ++ [ch_quote; 33] /\ p_count (b_kind b) = 13%nat.
Proof. vm_compute. split; reflexivity. Qed.
