(** Reading back what was written. *)
From Verif Require Import Base Lib Conversion SpecNum SpecReader ConversionProofs Reader ReaderProofs Buffer Writer SpecEscape SpecWriter BufferProofs Emits WriterProofs CallProofs.

Lemma digit_run_app base d rest : Forall (fun c => is_digit base c = true) d ->
  match rest with [] => True | c :: _ => is_digit base c = false end -> digit_run base (d ++ rest) = d.
Proof.
  intros H HR. induction H as [|c d Hc Hd IH]; cbn.
  - destruct rest as [|c r]; [reflexivity|]. cbn. now rewrite HR.
  - now rewrite Hc, IH.
Qed.

Lemma numeral_digits base up n : 2 <= base <= 36 -> 0 <= n -> Forall (fun c => is_digit base c = true) (numeral base up n).
Proof.
  intros Hb Hn. destruct (numeral_canonical base up n Hb Hn) as (H & _). eapply Forall_impl; [|exact H]. intros c (Hc & _). exact Hc.
Qed.

Lemma numeral_denotes base up n : 2 <= base <= 36 -> 0 <= n -> denotes base (numeral base up n) = n.
Proof. intros Hb Hn. now destruct (numeral_canonical base up n Hb Hn) as (_ & H & _). Qed.

Lemma split_sign_other s : match s with c :: _ => c <> 43 /\ c <> 45 | [] => True end -> split_sign s = (false, s).
Proof.
  destruct s as [|c s]; [reflexivity|]. intros (N1 & N2). unfold split_sign.
  destruct c as [|p|p]; try reflexivity. do 6 (destruct p as [p|p|]; try reflexivity; try lia).
Qed.

Lemma is_digit_range base c : is_digit base c = true -> 48 <= c.
Proof.
  unfold is_digit, digit_value. intros H.
  repeat match type of H with context [if ?b then _ else _] => destruct b eqn:? end; try discriminate; lia.
Qed.

Lemma split_sign_int v base up rest : 2 <= base <= 36 ->
  split_sign (int_text v base up ++ rest) = (v <? 0, numeral base up (Z.abs v) ++ rest).
Proof.
  intros Hb. unfold int_text. destruct (v <? 0) eqn:E; [reflexivity|]. cbn [app].
  assert (D := numeral_digits base up (Z.abs v) Hb ltac:(lia)).
  assert (N := numeral_nonempty base up (Z.abs v) Hb ltac:(lia)).
  destruct (numeral base up (Z.abs v)) as [|c r]; [cbn in N; lia|].
  apply split_sign_other. cbn. inversion D as [|? ? Dc _]; subst. apply is_digit_range in Dc. lia.
Qed.

Lemma read_int_text t v base up rest : 2 <= base <= 36 -> in_range t v -> is_ity t ->
  match rest with [] => True | c :: _ => is_digit base c = false end ->
  read_int_spec (imin t) (imax t) base (int_text v base up ++ rest) = (Ok v, length (int_text v base up)) /\
  literal_value base (int_text v base up ++ rest) = v.
Proof.
  intros Hb Hv Ht HR. unfold read_int_spec, literal_value. rewrite split_sign_int by assumption.
  assert (DR := digit_run_app base (numeral base up (Z.abs v)) rest (numeral_digits base up (Z.abs v) Hb ltac:(lia)) HR).
  assert (ND := numeral_denotes base up (Z.abs v) Hb ltac:(lia)).
  assert (N := numeral_nonempty base up (Z.abs v) Hb ltac:(lia)).
  assert (L : length (int_text v base up) = ((if (v <? 0)%Z then 1 else 0) + length (numeral base up (Z.abs v)))%nat).
  { unfold int_text. rewrite app_length. now destruct (v <? 0). }
  assert (V : (if v <? 0 then - Z.abs v else Z.abs v) = v) by (destruct (v <? 0) eqn:?; lia).
  rewrite DR, ND, V. split; [|reflexivity].
  assert (Q : (imin t <=? v) && (v <=? imax t) && negb ((v <? 0) && (0 <=? imin t)) = true) by (unfold in_range in Hv; lia).
  rewrite app_length, L.
  destruct (numeral base up (Z.abs v)) as [|c r]; [cbn in N; lia|]. cbn [app] in *. rewrite DR, ND, V, Q. f_equal.
  cbn [length]. rewrite app_length. lia.
Qed.

Lemma int_text_bytes v base up : 2 <= base <= 36 -> Forall is_byte (int_text v base up).
Proof.
  intros Hb. unfold int_text. apply Forall_app. split; [|apply numeral_bytes; [assumption|lia]].
  destruct (v <? 0); repeat constructor; unfold is_byte; lia.
Qed.

(** Reading back an integer, followed by anything that is not a digit. *)
Lemma parse_int_text m t v base up r rest :
  is_ity t -> 2 <= base <= 36 -> in_range t v -> rwf r -> Forall is_byte rest -> number_ends base rest ->
  view_remaining r = int_text v base up ++ rest ->
  parse_int m t base r = (Ok v, set_pos r (rpos r + length (int_text v base up))).
Proof.
  intros Ht Hb Hv W HB HN EV.
  assert (HR : match rest with [] => True | c :: _ => is_digit base c = false end) by (destruct rest; [auto|apply HN]).
  destruct (read_int_text t v base up rest Hb Hv Ht HR) as (E1 & E2).
  assert (P := parse_int_char m t base r Ht Hb W). rewrite EV in P.
  destruct P as (P & _).
  - apply Forall_app. split; [now apply int_text_bytes|assumption].
  - destruct (Z_le_gt_dec base 10) as [|G]; [auto|right]. rewrite split_sign_int by assumption. cbn [snd].
    unfold stops_clean. rewrite (digit_run_app base (numeral base up (Z.abs v)) rest (numeral_digits base up (Z.abs v) Hb ltac:(lia)) HR).
    rewrite skipn_app, skipn_all, Nat.sub_diag. cbn. destruct rest as [|c rest]; [exact Logic.I|]. destruct HN as (_ & [|]); [lia|assumption].
  - rewrite P; [now rewrite E1|]. left. rewrite E2. unfold in_range in *. unfold is_ity in Ht. cbn in Ht.
    decompose [or] Ht; subst; try contradiction; unfold upcasted, imin, imax in *; cbn in *; zlit; lia.
Qed.
