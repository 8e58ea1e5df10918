(** Properties C25, C26, C27, C28, C36, C37, C38, C48: fields of arguments. *)
From Verif Require Import Base Conversion Reader Buffer Writer Specs FormatArg Dragon FloatArg Lib SpecNum SpecEscape SpecWriter SpecFloat SpecFormat SpecDecimal SpecField.
From Verif Require Import ReaderProofs BufferProofs Emits WriterProofs CallProofs FormatArgProofs DoubleProofs FloatTextProofs DecimalProofs FieldUnique FieldProofs PropsWriter SpecField.

(** In every reachable state of a memory_buffer the call succeeds and appends [out]. *)
Definition prints (m : bst mem_k -> outcome unit * bst mem_k) (out : list Z) : Prop :=
  forall storage capacity ops, Forall op_ok ops ->
  let b := mem_after storage capacity ops in
  exists b', m b = (Ok tt, b') /\ mem_view b' = mem_view b ++ out.

Lemma prints_of_emits m ops : emits mem_R None None None m ops (Ok tt) -> prints m (ops_data ops).
Proof.
  intros H storage capacity ops' HO b. assert (HR := mem_after_R storage capacity ops' HO). fold b in HR.
  destruct (H _ _ HR Logic.I) as (b' & HR' & E). rewrite exec_unlimited in HR', E. cbn in HR', E. exists b'. split; [exact E|].
  now rewrite (mem_R_view _ _ HR').
Qed.

Lemma prints_unique m out out' : prints m out -> prints m out' -> out = out'.
Proof.
  intros H H'. destruct (H O O [] ltac:(constructor)) as (b & E & V), (H' O O [] ltac:(constructor)) as (b' & E' & V').
  rewrite E in E'. injection E' as <-. rewrite V in V'. now apply app_inv_head in V'.
Qed.

Lemma write_arg_prints a s : arg_specs a s -> arg_outcome s a = Ok tt -> prints (fun b => write_arg mem_vt b s a) (ops_data (arg_ops s a)).
Proof. intros H HO. apply prints_of_emits. rewrite <- HO. now apply (write_arg_emits mem_vt mem_R None None None mem_lawful). Qed.

(** ** C25 Integers *)
Theorem C25_integer_layout_partial : forall t v s,
  arg_specs (AInt t v) s -> sp_type s <> 79 ->
  exists out, any_int_field s v out /\ prints (fun b => write_arg mem_vt b s (AInt t v)) out.
Proof.
  intros t v s H HT. assert (HO := arg_outcome_ok _ _ H). replace (sp_type s =? 79) with false in HO by lia. rewrite andb_false_r in HO.
  exists (ops_data (arg_ops s (AInt t v))). split; [|now apply write_arg_prints]. apply (arg_ops_field (AInt t v) s H HO). tauto.
Qed.
Print Assumptions C25_integer_layout_partial.

(** The field leaves nothing open. *)
Lemma is_padded_unique fill a w body o1 o2 : is_padded fill a w body o1 -> is_padded fill a w body o2 -> o1 = o2.
Proof.
  intros (l1 & r1 & -> & L1 & A1) (l2 & r2 & -> & L2 & A2). rewrite !app_length, !repeat_length in L1, L2.
  assert (l1 = l2 /\ r1 = r2) as [-> ->]; [|reflexivity]. destruct a; lia.
Qed.
Lemma number_field_unique s head rest o1 o2 : number_field s head rest o1 -> number_field s head rest o2 -> o1 = o2.
Proof.
  unfold number_field. destruct (sp_zero_flag s); [|apply is_padded_unique].
  intros (n1 & -> & L1) (n2 & -> & L2). rewrite !app_length, !repeat_length in L1, L2. assert (n1 = n2) as -> by lia. reflexivity.
Qed.
Theorem C25_field_unique : forall s v o1 o2, any_int_field s v o1 -> any_int_field s v o2 -> o1 = o2.
Proof.
  intros s v o1 o2. unfold any_int_field, integer_field, code_field. destruct (sp_type s =? 99).
  - intros (c1 & B1 & (k1 & E1) & H1) (c2 & B2 & (k2 & E2) & H2). unfold is_byte in *. assert (c1 = c2) as -> by lia. eapply is_padded_unique; eauto.
  - intros (p1 & b1 & u1 & d1 & I1 & N1 & F1) (p2 & b2 & u2 & d2 & I2 & N2 & F2).
    assert ((p1, b1, u1) = (p2, b2, u2) /\ 2 <= b2 <= 36) as (E & HB).
    { unfold int_types in I1, I2. cbn [In] in I1, I2. decompose [or] I1; decompose [or] I2; try contradiction; split; try congruence;
        repeat match goal with H : (_, _, _, _) = (_, _, _, _) |- _ => injection H as ? ? ? ?; subst end; lia. }
    injection E as -> -> ->. apply canonical_unique in N1, N2; try assumption. subst. eapply number_field_unique; eauto.
Qed.
Print Assumptions C25_field_unique.

(** Type O passes the check, but no integer can be formatted with it. *)
Theorem C25_upper_octal_refuted : exists t v s,
  arg_specs (AInt t v) s /\ fst (write_arg mem_vt (memory_buffer 8 8) s (AInt t v)) = Err invalid_format.
Proof.
  exists i32, 8, (set_type default_specs 79). split; [|reflexivity].
  split; [split; [cbn; tauto|vm_compute; split; congruence]|]. split; [exact Logic.I|]. split; [|reflexivity].
  unfold specs_ok. cbn. unfold is_byte. repeat split; try lia; try discriminate.
Qed.
Print Assumptions C25_upper_octal_refuted.
Theorem C25_upper_octal_fails : forall a s b, arg_specs a s -> takes_int a = true -> sp_type s = 79 -> write_arg mem_vt b s a = (Err invalid_format, b).
Proof.
  intros a s b H HA HT. destruct a; try discriminate; cbn [write_arg]; unfold write_arg_bool, write_arg_char, write_arg_int; rewrite HT; reflexivity.
Qed.
Print Assumptions C25_upper_octal_fails.

Definition shown (s : format_specs) (a : carg) : outcome unit * list Z :=
  let (o, b) := write_arg mem_vt (memory_buffer 4 4) s a in (o, mem_view b).
Lemma specs_ok_intro s : is_byte (sp_fill s) -> 0 <= sp_width s < 2 ^ 31 -> -1 <= sp_precision s < 2 ^ 31 -> In (sp_sign s) [no_sign; 43; 45; 32] ->
  (sp_zero_flag s = true -> sp_fill s = 48 /\ sp_align s = align_right) -> specs_ok s.
Proof. unfold specs_ok. auto. Qed.
Ltac specs := apply specs_ok_intro; [unfold is_byte; cbn; lia|cbn; lia|cbn; lia|cbn; tauto|cbn; intros; try discriminate; auto].

(** "{:+#010x}" of 48879, "{:*^9}" of -7, "{:#o}" of 0 *)
Example C25_example :
  let s1 := mk_specs 48 align_right 43 true true 10 (-1) 120 in
  let s2 := mk_specs 42 align_center 0 false false 9 (-1) 0 in
  let s3 := mk_specs 32 align_none 0 true false 0 (-1) 111 in
  arg_specs (AInt i32 48879) s1 /\ arg_specs (AInt i64 (-7)) s2 /\ arg_specs (AInt u64 0) s3 /\
  shown s1 (AInt i32 48879) = (Ok tt, str "+0x000beef") /\
  shown s2 (AInt i64 (-7)) = (Ok tt, str "***-7****") /\
  shown s3 (AInt u64 0) = (Ok tt, str "0").
Proof.
  cbv zeta. unfold arg_specs.
  split; [split; [cbn; split; [tauto|vm_compute; split; congruence]|]; split; [exact Logic.I|]; split; [specs|reflexivity]|].
  split; [split; [cbn; split; [tauto|vm_compute; split; congruence]|]; split; [exact Logic.I|]; split; [specs|reflexivity]|].
  split; [split; [cbn; split; [tauto|vm_compute; split; congruence]|]; split; [exact Logic.I|]; split; [specs|reflexivity]|].
  repeat split; vm_compute; reflexivity.
Qed.

(** ** C27 Strings *)
Theorem C27_string_field : forall t s,
  arg_specs (AStr t) s ->
  exists out, string_field s t out /\ prints (fun b => write_arg mem_vt b s (AStr t)) out.
Proof.
  intros t s H. exists (ops_data (arg_ops s (AStr t))). split; [|now apply write_arg_prints].
  apply (arg_ops_field (AStr t) s H eq_refl). tauto.
Qed.
Print Assumptions C27_string_field.
Theorem C27_field_unique : forall s t o1 o2, string_field s t o1 -> string_field s t o2 -> o1 = o2.
Proof.
  intros s t o1 o2 (b1 & B1 & F1) (b2 & B2 & F2). assert (b1 = b2) as ->; [|eapply is_padded_unique; eauto].
  unfold string_body in *. destruct (sp_type s =? ch_question); [congruence|]. destruct (sp_precision s =? -1); [congruence|].
  destruct B1 as (r1 & -> & L1), B2 as (r2 & E & L2). assert (L : length b1 = length b2) by lia.
  apply (f_equal (firstn (length b1))) in E. rewrite firstn_app_exact, L, firstn_app_exact in E. exact E.
Qed.
Print Assumptions C27_field_unique.

(** "{:->8.3}" of abcdef, "{:?}" of a text with a quote and a newline *)
Example C27_example :
  let s1 := mk_specs 45 align_right 0 false false 8 3 0 in
  let s2 := mk_specs 32 align_none 0 false false 10 (-1) 63 in
  arg_specs (AStr (str "abcdef")) s1 /\ arg_specs (AStr [97; 34; 10]) s2 /\
  shown s1 (AStr (str "abcdef")) = (Ok tt, str "-----abc") /\
  shown s2 (AStr [97; 34; 10]) = (Ok tt, [34; 97; 92; 34; 92; 110; 34; 32; 32; 32]).
Proof.
  cbv zeta. unfold arg_specs.
  split; [split; [cbn; repeat constructor; unfold is_byte; lia|]; split; [vm_compute; reflexivity|]; split; [specs|reflexivity]|].
  split; [split; [cbn; repeat constructor; unfold is_byte; lia|]; split; [vm_compute; reflexivity|]; split; [specs|reflexivity]|].
  split; vm_compute; reflexivity.
Qed.

(** ** C28 Bools, characters and pointers *)
Theorem C28_bool_field_partial : forall v s,
  arg_specs (ABool v) s -> sp_type s <> 79 ->
  exists out, bool_field s v out /\ prints (fun b => write_arg mem_vt b s (ABool v)) out.
Proof.
  intros v s H HT. assert (HO := arg_outcome_ok _ _ H). replace (sp_type s =? 79) with false in HO by lia. rewrite andb_false_r in HO.
  exists (ops_data (arg_ops s (ABool v))). split; [|now apply write_arg_prints]. apply (arg_ops_field (ABool v) s H HO). tauto.
Qed.
Print Assumptions C28_bool_field_partial.
Theorem C28_pointer_field : forall p s,
  arg_specs (APtr p) s ->
  exists out, pointer_field s p out /\ prints (fun b => write_arg mem_vt b s (APtr p)) out.
Proof.
  intros p s H. exists (ops_data (arg_ops s (APtr p))). split; [|now apply write_arg_prints].
  apply (arg_ops_field (APtr p) s H eq_refl). tauto.
Qed.
Print Assumptions C28_pointer_field.

(** Characters; those escaped with several characters only without width. *)
Theorem C28_char_field_partial : forall c s,
  arg_specs (AChar c) s -> sp_type s <> 79 ->
  (sp_type s = 63 -> length (escape c) <> 1%nat -> sp_width s = 0) ->
  exists out, char_field s c out /\ prints (fun b => write_arg mem_vt b s (AChar c)) out.
Proof.
  intros c s H HT HW. assert (HO := arg_outcome_ok _ _ H). replace (sp_type s =? 79) with false in HO by lia. rewrite andb_false_r in HO.
  exists (ops_data (arg_ops s (AChar c))). split; [|now apply write_arg_prints].
  destruct (Z.eq_dec (sp_type s) 63) as [E|E]; [destruct (Nat.eq_dec (length (escape c)) 1) as [L|L]|].
  - apply (arg_ops_field (AChar c) s H HO). cbn. tauto.
  - specialize (HW E L). unfold char_field, char_body. cbn [arg_ops]. unfold char_ops. replace (sp_type s =? ch_question) with true by (change ch_question with 63; lia).
    rewrite orb_true_r. unfold field, is_padded, pad_ops, pads. rewrite HW. exists O, O.
    replace (Z.max 0 (0 - Z.of_nat 3)) with 0 by lia. destruct (field_align align_left s) eqn:EA;
      cbn [ops_data flat_map op_data repeat Z.to_nat Z.div Z.sub Z.opp Z.add Z.div_eucl fst app]; rewrite !app_nil_r; split; try reflexivity; split; auto; try lia.
    unfold field_align in EA. destruct (sp_align s); discriminate.
  - apply (arg_ops_field (AChar c) s H HO). cbn. tauto.
Qed.
Print Assumptions C28_char_field_partial.
(** "{:6?}" of a newline: three characters of padding instead of two *)
Theorem C28_char_escape_refuted : exists c s,
  arg_specs (AChar c) s /\ sp_type s <> 79 /\ forall out, char_field s c out -> ~ prints (fun b => write_arg mem_vt b s (AChar c)) out.
Proof.
  exists 10, (mk_specs 32 align_none 0 false false 6 (-1) 63). split; [|split; [discriminate|]].
  - split; [cbn; unfold is_byte; lia|]. split; [exact Logic.I|]. split; [specs|reflexivity].
  - intros out (l & r & E & L & _) P. destruct (P 4%nat 4%nat [] ltac:(constructor)) as (b' & E' & V).
    vm_compute in E'. injection E' as <-. apply (f_equal (fun l => Z.of_nat (length l))) in V. rewrite app_length, Nat2Z.inj_add, L in V.
    vm_compute in V. discriminate.
Qed.
Print Assumptions C28_char_escape_refuted.

Example C28_example :
  let s0 := default_specs in
  let s1 := mk_specs 46 align_right 0 false false 8 (-1) 115 in
  let s2 := mk_specs 32 align_none 0 true false 0 (-1) 120 in
  let s3 := mk_specs 32 align_none 0 false false 5 (-1) 63 in
  arg_specs (ABool true) s1 /\ arg_specs (AChar 65) s2 /\ arg_specs (AChar 65) s3 /\ arg_specs (APtr 48879) s0 /\
  shown s1 (ABool true) = (Ok tt, str "....true") /\ shown s2 (AChar 65) = (Ok tt, str "0x41") /\
  shown s3 (AChar 65) = (Ok tt, str "'A'  ") /\ shown s0 (APtr 48879) = (Ok tt, str "0xbeef").
Proof.
  cbv zeta. unfold arg_specs.
  split; [split; [exact Logic.I|]; split; [exact Logic.I|]; split; [specs|reflexivity]|].
  split; [split; [cbn; unfold is_byte; lia|]; split; [exact Logic.I|]; split; [specs|reflexivity]|].
  split; [split; [cbn; unfold is_byte; lia|]; split; [exact Logic.I|]; split; [specs|reflexivity]|].
  split; [split; [cbn; lia|]; split; [exact Logic.I|]; split; [specs|reflexivity]|].
  repeat split; vm_compute; reflexivity.
Qed.

(** ** C26 The width *)
Lemma natural_ok a s : arg_specs a s -> arg_specs a (natural s) /\ same_but_width s (natural s) /\ arg_outcome (natural s) a = arg_outcome s a.
Proof.
  intros (HA & HF & HS & HC). destruct HS as (S1 & S2 & S3 & S4 & S5). split; [|split].
  - split; [assumption|]. split; [assumption|]. split.
    + apply specs_ok_intro; cbn; auto; try lia; discriminate.
    + destruct a as [v|c|t v|bits|p|t]; cbn [type_of check_specs] in *; unfold check_bool_specs, check_char_specs, check_integral_specs, check_unsigned_specs, check_floating_point_specs, check_pointer_specs, check_string_specs in *; cbn [natural set_zero set_width sp_type sp_precision sp_sign sp_alternate_form sp_zero_flag] in *; try exact HC.
      * destruct (negb (sp_type s =? 0) && negb (sp_type s =? 99) && negb (sp_type s =? ch_question)); [exact HC|].
        destruct (sp_alternate_form s), (sp_sign s =? 0), (sp_zero_flag s); cbn [orb negb] in HC |- *; congruence.
      * destruct (negb (sp_type s =? 0) && negb (sp_type s =? 112)); [exact HC|].
        destruct (sp_alternate_form s), (sp_sign s =? 0), (sp_zero_flag s); cbn [orb negb] in HC |- *; congruence.
      * destruct (sp_alternate_form s), (sp_sign s =? 0), (sp_zero_flag s); cbn [orb negb] in HC |- *; congruence.
  - unfold same_but_width. cbn. auto 10.
  - destruct a; reflexivity.
Qed.

(** [n] is the output without width. *)
Theorem C26_width_exact_partial : forall a s,
  arg_specs a s -> ~ (takes_int a = true /\ sp_type s = 79) ->
  (forall c, a = AChar c -> sp_type s = 63 -> length (escape c) = 1%nat) ->
  exists n out,
    prints (fun b => write_arg mem_vt b (natural s) a) n /\ prints (fun b => write_arg mem_vt b s a) out /\
    Z.of_nat (length out) = Z.max (sp_width s) (Z.of_nat (length n)) /\
    if number_like a s && sp_zero_flag s
    then exists head rest k, n = head ++ rest /\ out = head ++ repeat 48 k ++ rest
    else is_padded (field_fill a s) (field_align (default_align_of a s) s) (sp_width s) n out.
Proof.
  intros a s H HO HQ. destruct (natural_ok a s H) as (HN & HSB & HON).
  assert (HO' : arg_outcome s a = Ok tt).
  { rewrite (arg_outcome_ok _ _ H). destruct (takes_int a); [|reflexivity]. replace (sp_type s =? 79) with false by lia. reflexivity. }
  exists (ops_data (arg_ops (natural s) a)), (ops_data (arg_ops s a)).
  split; [apply write_arg_prints; [exact HN|now rewrite HON]|]. split; [now apply write_arg_prints|].
  destruct (arg_layout a s H HO' HQ) as [L1 L2]. unfold default_align_of. destruct (number_like a s) eqn:NL; cbn [andb].
  - clear L2. destruct (L1 eq_refl) as (head & rest & L). assert (LN := L (natural s) HSB ltac:(apply HN) ltac:(apply HN)).
    assert (LS := L s ltac:(unfold same_but_width; auto 10) ltac:(apply H) ltac:(apply H)). clear L L1.
    unfold number_field, field in LN. cbn [natural set_zero set_width sp_zero_flag sp_width] in LN. destruct LN as (l & r & EN & LL & _).
    assert (EL := f_equal (@length Z) EN). rewrite !app_length, !repeat_length in EL. rewrite !app_length in LL. assert (l = O) by lia. assert (r = O) by lia. subst l r.
    cbn [repeat] in EN. rewrite app_nil_r in EN. cbn [app] in EN. rewrite EN. unfold number_field in LS. destruct (sp_zero_flag s) eqn:EZ.
    + destruct LS as (k & E & LE). split; [exact LE|]. exists head, rest, k. auto.
    + assert (LS' := LS). unfold field in LS'. destruct LS' as (l & r & E & LE & _). split; [exact LE|].
      unfold field in LS. unfold field_fill. rewrite EZ, andb_false_r. exact LS.
  - clear L1. destruct (L2 eq_refl) as (body & L). assert (LN := L (natural s) HSB ltac:(apply HN) ltac:(apply HN)).
    assert (LS := L s ltac:(unfold same_but_width; auto 10) ltac:(apply H) ltac:(apply H)). clear L L2.
    destruct LN as (l & r & EN & LL & _). cbn [natural set_zero set_width sp_width] in LL.
    assert (EL := f_equal (@length Z) EN). rewrite !app_length, !repeat_length in EL. assert (l = O) by lia. assert (r = O) by lia. subst l r.
    cbn [repeat] in EN. rewrite app_nil_r in EN. cbn [app] in EN. rewrite EN. split; [|exact LS]. destruct LS as (l & r & _ & LE & _). exact LE.
Qed.
Print Assumptions C26_width_exact_partial.

(** "{:4?}" of the character 10 with width 4 has 4 characters already, but is
    padded. *)
Theorem C26_width_refuted : exists a s n out,
  arg_specs a s /\ shown (natural s) a = (Ok tt, n) /\ shown s a = (Ok tt, out) /\ Z.of_nat (length out) <> Z.max (sp_width s) (Z.of_nat (length n)).
Proof.
  exists (AChar 10), (mk_specs 32 align_none 0 false false 4 (-1) 63), [39; 92; 110; 39], [39; 92; 110; 39; 32]. split.
  - split; [cbn; unfold is_byte; lia|]. split; [exact Logic.I|]. split; [specs|reflexivity].
  - split; [vm_compute; reflexivity|]. split; [vm_compute; reflexivity|]. discriminate.
Qed.
Print Assumptions C26_width_refuted.

(** "{:*^7}" of -2.5 *)
Example C26_example :
  let s := mk_specs 42 align_center 0 false false 7 (-1) 0 in
  let a := ADouble (2 ^ 63 + 1024 * 2 ^ 52 + 2 ^ 50) in
  arg_specs a s /\ ~ (takes_int a = true /\ sp_type s = 79) /\ (forall c, a = AChar c -> sp_type s = 63 -> length (escape c) = 1%nat) /\
  shown (natural s) a = (Ok tt, str "-2.5") /\ shown s a = (Ok tt, str "*-2.5**").
Proof.
  cbv zeta. split; [|split; [|split]].
  - split; [cbn; lia|]. split; [exact Logic.I|]. split; [specs|reflexivity].
  - intros [H _]. discriminate H.
  - discriminate.
  - split; vm_compute; reflexivity.
Qed.

(** ** C36, C37, C38 Floating-point numbers *)

(** All presentations with their sign and padding. *)
Theorem C37_double_field : forall bits s,
  arg_specs (ADouble bits) s -> ~ deviates s (ADouble bits) ->
  exists out, double_field s bits out /\ prints (fun b => write_arg mem_vt b s (ADouble bits)) out.
Proof.
  intros bits s H HD. exists (ops_data (arg_ops s (ADouble bits))). split; [|now apply write_arg_prints].
  now apply (arg_ops_field (ADouble bits) s H eq_refl).
Qed.
Print Assumptions C37_double_field.

(** The field leaves nothing open, whatever the presentation. *)
Theorem C37_field_unique : forall s bits o1 o2, is_double bits -> double_field s bits o1 -> double_field s bits o2 -> o1 = o2.
Proof.
  intros s bits o1 o2 HD. unfold double_field, double_body. destruct (Z.eqb_spec (bits_exponent bits) 2047) as [G|G].
  - intros (t1 & T1 & P1) (t2 & T2 & P2). rewrite (special_text_unique _ _ _ _ T1 T2) in P1. eapply is_padded_unique; eauto.
  - intros (b1 & B1 & N1) (b2 & B2 & N2). assert (b1 = b2) as ->; [|eapply number_field_unique; eauto].
    destruct ((sp_type s =? 101) || (sp_type s =? 69)); [eapply exp_body_unique; eauto|].
    destruct ((sp_type s =? 102) || (sp_type s =? 70)); [eapply fixed_body_unique; eauto|].
    destruct ((sp_type s =? 0) && (sp_precision s =? -1)); [eapply shortest_body_unique; eauto; now split|eapply general_body_unique; eauto].
Qed.
Print Assumptions C37_field_unique.

Lemma char_field_unique s c o1 o2 : char_field s c o1 -> char_field s c o2 -> o1 = o2.
Proof. unfold char_field, SpecFormat.field. destruct (_ || _ || _); [apply is_padded_unique|apply C25_field_unique]. Qed.
Lemma bool_field_unique s v o1 o2 : bool_field s v o1 -> bool_field s v o2 -> o1 = o2.
Proof. unfold bool_field, SpecFormat.field. destruct (_ || _); [apply is_padded_unique|apply C25_field_unique]. Qed.
Lemma pointer_field_unique s p o1 o2 : pointer_field s p o1 -> pointer_field s p o2 -> o1 = o2.
Proof.
  intros (d1 & C1 & F1) (d2 & C2 & F2). apply canonical_unique in C1, C2; try lia. subst. eapply is_padded_unique; eauto.
Qed.
Lemma core_field_unique s a o1 o2 : carg_ok a -> core_field s a o1 -> core_field s a o2 -> o1 = o2.
Proof.
  destruct a; cbn [core_field carg_ok]; intros HA; [apply bool_field_unique|apply char_field_unique|apply C25_field_unique|now apply C37_field_unique|apply pointer_field_unique|apply C27_field_unique].
Qed.

(** 1234.5 in all notations, with a precision *)
Example C37_example :
  let a := ADouble 4653144203864309760 in
  let s0 := default_specs in
  let se := mk_specs 32 align_none 43 false false 14 2 101 in
  let sg := mk_specs 32 align_none 0 true false 0 (-1) 103 in
  let s2 := mk_specs 32 align_none 0 false false 0 2 0 in
  arg_specs a s0 /\ arg_specs a se /\ arg_specs a sg /\ arg_specs a s2 /\
  ~ deviates s0 a /\ ~ deviates se a /\ ~ deviates sg a /\ ~ deviates s2 a /\
  shown s0 a = (Ok tt, str "1234.5") /\ shown se a = (Ok tt, str "     +1.23e+03") /\
  shown sg a = (Ok tt, str "1234.50") /\ shown s2 a = (Ok tt, str "1.2e+03").
Proof.
  cbv zeta.
  split; [split; [cbn; lia|]; split; [exact Logic.I|]; split; [specs|reflexivity]|].
  split; [split; [cbn; lia|]; split; [exact Logic.I|]; split; [specs|reflexivity]|].
  split; [split; [cbn; lia|]; split; [exact Logic.I|]; split; [specs|reflexivity]|].
  split; [split; [cbn; lia|]; split; [exact Logic.I|]; split; [specs|reflexivity]|].
  split; [cbn; lia|]. split; [cbn; lia|]. split; [cbn; lia|]. split; [cbn; lia|].
  repeat split; vm_compute; reflexivity.
Qed.

(** Fixed notation: the demanded number of decimals unless the number is rounded
    up to a power of ten below 1. *)
Theorem C36_fixed_decimals_partial : forall bits s,
  arg_specs (ADouble bits) s -> is_finite_double bits -> sp_type s = 102 \/ sp_type s = 70 ->
  ~ rounds_up_to_power bits (if sp_precision s =? -1 then 6 else sp_precision s) ->
  exists body out, fixed_body s bits body /\ number_field s (sign_text s (bits_negative bits)) body out /\
    prints (fun b => write_arg mem_vt b s (ADouble bits)) out.
Proof.
  intros bits s H HF HT HR. destruct (C37_double_field bits s H) as (out & F & P); [cbn; tauto|].
  unfold double_field in F. replace (bits_exponent bits =? 2047) with false in F by (destruct HF; lia).
  destruct F as (body & HB & HN). exists body, out. split; [|auto]. unfold double_body in HB.
  replace ((sp_type s =? 101) || (sp_type s =? 69)) with false in HB by lia.
  replace ((sp_type s =? 102) || (sp_type s =? 70)) with true in HB by lia. exact HB.
Qed.
Print Assumptions C36_fixed_decimals_partial.
(** In that case a decimal is missing; the value is right. *)
Theorem C36_fixed_decimal_missing : forall bits s,
  arg_specs (ADouble bits) s -> is_finite_double bits -> sp_type s = 102 \/ sp_type s = 70 ->
  rounds_up_to_power bits (if sp_precision s =? -1 then 6 else sp_precision s) ->
  exists body out, fixed_body_short s bits body /\ number_field s (sign_text s (bits_negative bits)) body out /\
    prints (fun b => write_arg mem_vt b s (ADouble bits)) out.
Proof.
  intros bits s H HF HT HR. assert (HS : specs_ok s) by apply H. destruct (float_check s HS ltac:(apply H)) as (_ & HP & _).
  destruct (fixed_format s bits HF HT HP) as (body & i & f & HB & R1 & R2). exists body, (ops_data (arg_ops s (ADouble bits))).
  split; [|split; [|now apply write_arg_prints]].
  - exists i, f. split; [exact R1|]. destruct R2 as [(R2 & _)|(_ & R2)]; [contradiction|exact R2].
  - now apply double_finite_field.
Qed.
Print Assumptions C36_fixed_decimal_missing.
(** "{:.2f}" of 0.0999 is 0.1 *)
Theorem C36_fixed_decimals_refuted : exists bits s,
  arg_specs (ADouble bits) s /\ is_finite_double bits /\ sp_type s = 102 /\ sp_precision s = 2 /\
  shown s (ADouble bits) = (Ok tt, str "0.1").
Proof.
  exists 4591862974138937655, (mk_specs 32 align_none 0 false false 0 2 102).
  split; [split; [cbn; lia|]; split; [exact Logic.I|]; split; [specs|reflexivity]|].
  split; [split; [unfold is_double; lia|vm_compute; discriminate]|].
  repeat split; vm_compute; reflexivity.
Qed.
Print Assumptions C36_fixed_decimals_refuted.
(** "{:012.3f}" of -1234.5; "{:.0f}" of 2.5 *)
Example C36_example :
  let s1 := mk_specs 48 align_right 0 false true 12 3 102 in
  let s2 := mk_specs 32 align_none 0 false false 0 0 102 in
  let a1 := 13876516240719085568 in let a2 := 4612811918334230528 in
  arg_specs (ADouble a1) s1 /\ is_finite_double a1 /\ arg_specs (ADouble a2) s2 /\ is_finite_double a2 /\
  ~ rounds_up_to_power a1 3 /\ ~ rounds_up_to_power a2 0 /\
  shown s1 (ADouble a1) = (Ok tt, str "-0001234.500") /\ shown s2 (ADouble a2) = (Ok tt, str "2").
Proof.
  cbv zeta.
  split; [split; [cbn; lia|]; split; [exact Logic.I|]; split; [specs|reflexivity]|].
  split; [split; [unfold is_double; lia|vm_compute; discriminate]|].
  split; [split; [cbn; lia|]; split; [exact Logic.I|]; split; [specs|reflexivity]|].
  split; [split; [unfold is_double; lia|vm_compute; discriminate]|].
  split; [intros (j & Hj & L & _)|].
  { assert (j = 1 \/ j = 2) as [-> | ->] by lia; vm_compute in L; discriminate. }
  split; [intros (j & Hj & _); lia|]. split; vm_compute; reflexivity.
Qed.

(** Negative numbers, zeros, infinities and nans have a minus sign, others what
    the sign option demands; special values are padded with spaces. *)
Theorem C38_sign_and_special_values : forall bits s,
  arg_specs (ADouble bits) s ->
  exists body out, prints (fun b => write_arg mem_vt b s (ADouble bits)) out /\
    let sign := if bits_negative bits then [45] else if sp_sign s =? 43 then [43] else if sp_sign s =? 32 then [32] else [] in
    (is_finite_double bits -> (exists c t, body = c :: t /\ 48 <= c <= 57) /\ number_field s sign body out) /\
    (is_infinity bits -> body = (if upper_type s then str "INF" else str "inf")) /\
    (is_nan bits -> body = (if upper_type s then str "NAN" else str "nan")) /\
    (~ is_finite_double bits ->
       is_padded (if sp_zero_flag s then 32 else sp_fill s) (field_align align_left s) (sp_width s) (sign ++ body) out).
Proof.
  intros bits s H. assert (HS : specs_ok s) by apply H. assert (HA : is_double bits) by apply H. destruct (float_check s HS ltac:(apply H)) as (HT & HP & _).
  cbv zeta. change (if bits_negative bits then _ else _) with (sign_text s (bits_negative bits)).
  destruct (Z.eq_dec (bits_exponent bits) 2047) as [E|E].
  - assert (HN : ~ is_finite_double bits) by (intros [_ X]; contradiction).
    destruct (double_special_field s bits HS HA HN) as (text & ST & P). exists text, (ops_data (arg_ops s (ADouble bits))).
    split; [now apply write_arg_prints|]. split; [contradiction|].
    unfold special_text, is_infinity, is_nan in *. split; [|split; [|intros _; exact P]]; intros X; destruct ST as [[Y ->]|[Y ->]]; tauto.
  - assert (HF : is_finite_double bits) by (split; assumption).
    assert (B : exists body, float_text s bits body /\ exists c t, body = c :: t /\ 48 <= c <= 57).
    { assert (Q : forall p u sci i f body, decimal_text p u sci i f body -> exists c t, body = c :: t /\ 48 <= c <= 57).
      { intros p u sci i f body ((D & NE & _) & _ & M). destruct i as [|c i]; [congruence|].
        inversion D as [|? ? Dc]; subst. destruct sci as [x|].
        - destruct M as (_ & t & _ & ->). unfold mantissa_text. cbn [app]. eauto.
        - subst body. unfold mantissa_text. cbn [app]. eauto. }
      unfold float_types in HT. cbn in HT. assert (C : (sp_type s = 101 \/ sp_type s = 69) \/ (sp_type s = 102 \/ sp_type s = 70) \/ (sp_type s = 0 /\ sp_precision s = -1) \/
         ((sp_type s = 0 /\ sp_precision s <> -1) \/ sp_type s = 103 \/ sp_type s = 71)) by lia.
      destruct C as [C|[C|[C|C]]].
      - destruct (exp_format s bits HF C HP) as (body & i & f & x & HB & D & _). eauto.
      - destruct (fixed_format s bits HF C HP) as (body & i & f & HB & D & _). eauto.
      - destruct (shortest_format s bits HF (proj1 C) (proj2 C)) as (body & i & f & x & sig & a & z & HB & D & _). eauto.
      - destruct (general_format s bits HF HP C) as (body & i & f & x & HB & D & _). eauto. }
    destruct B as (body & HB & HD). exists body, (ops_data (arg_ops s (ADouble bits))). split; [now apply write_arg_prints|].
    split; [intros _; split; [exact HD|now apply double_finite_field]|].
    unfold is_infinity, is_nan. split; [tauto|]. split; [tauto|]. tauto.
Qed.
Print Assumptions C38_sign_and_special_values.

(** "{:08}" of minus infinity, "{:+F}" of a nan, "{: }" of -0 *)
Example C38_example :
  let s1 := mk_specs 48 align_right 0 false true 8 (-1) 0 in
  let s2 := mk_specs 32 align_none 43 false false 0 (-1) 70 in
  let s3 := mk_specs 32 align_none 32 false false 0 (-1) 0 in
  arg_specs (ADouble (2 ^ 63 + 2047 * 2 ^ 52)) s1 /\ arg_specs (ADouble (2047 * 2 ^ 52 + 1)) s2 /\ arg_specs (ADouble (2 ^ 63)) s3 /\
  shown s1 (ADouble (2 ^ 63 + 2047 * 2 ^ 52)) = (Ok tt, str "    -inf") /\
  shown s2 (ADouble (2047 * 2 ^ 52 + 1)) = (Ok tt, str "+NAN") /\
  shown s3 (ADouble (2 ^ 63)) = (Ok tt, str "-0").
Proof.
  cbv zeta.
  split; [split; [cbn; lia|]; split; [exact Logic.I|]; split; [specs|reflexivity]|].
  split; [split; [cbn; lia|]; split; [exact Logic.I|]; split; [specs|reflexivity]|].
  split; [split; [cbn; lia|]; split; [exact Logic.I|]; split; [specs|reflexivity]|].
  repeat split; vm_compute; reflexivity.
Qed.

(** ** C48 Padding of large texts *)

(** Correct for texts below 2^31 - 2 characters. *)
Theorem C48_padding_partial : forall t s,
  Forall is_byte t -> Z.of_nat (length (escape_text t)) + 2 < 2 ^ 31 -> specs_ok s -> check_string_specs s = Ok tt ->
  exists body out, string_body s t body /\ prints (fun b => write_arg mem_vt b s (AStr t)) out /\
    Z.of_nat (length out) = Z.max (sp_width s) (Z.of_nat (length body)).
Proof.
  intros t s H1 H2 H3 H4. destruct (C27_string_field t s) as (out & (body & HB & HF) & P); [now split; [|split; [|split]]|].
  exists body, out. split; [exact HB|]. split; [exact P|]. destruct HF as (l & r & _ & L & _). exact L.
Qed.
Print Assumptions C48_padding_partial.

Lemma long_text (n : Z) : 0 <= n -> exists t, Forall is_byte t /\ Z.of_nat (length t) = n.
Proof.
  intros H. exists (repeat 120 (Z.to_nat n)). split; [|rewrite repeat_length; lia].
  apply Forall_forall. intros x HX. apply repeat_spec in HX. subst. unfold is_byte. lia.
Qed.

(** A text of 2^32 characters is padded to the width 5. *)
Theorem C48_padding_refuted : exists t s,
  Forall is_byte t /\ specs_ok s /\ check_string_specs s = Ok tt /\ sp_precision s = -1 /\
  sp_width s < Z.of_nat (length t) /\ prints (fun b => write_arg mem_vt b s (AStr t)) (t ++ repeat 32 5).
Proof.
  destruct (long_text (2 ^ 32) ltac:(lia)) as (t & HB & HL). exists t, (set_width default_specs 5).
  split; [exact HB|]. split; [specs|]. split; [reflexivity|]. split; [reflexivity|]. split; [cbn [set_width sp_width]; lia|].
  replace (t ++ repeat 32 5) with (ops_data ([Chunk t] ++ [Chunk (repeat 32 5)])) by (cbn [ops_data flat_map op_data app]; now rewrite app_nil_r).
  apply prints_of_emits. cbn [write_arg]. unfold write_arg_str. cbn [set_width default_specs sp_type sp_precision negb].
  change (negb (0 =? ch_question)) with true. change (0 <=? -1) with false. cbv iota zeta. unfold write_padded, default_align.
  cbn [set_width default_specs sp_align set_align]. unfold write_padding_left. rewrite HL. cbn [set_align sp_width sp_align sp_fill sp_sign sp_alternate_form sp_zero_flag sp_precision sp_type set_width default_specs].
  change (wrap i32 (2 ^ 32)) with 0. change ((5 =? 0) || (5 <? 0)) with false. cbv iota. change (arith iso i32 (5 - 0)) with (Ok 5). cbv iota.
  eapply emits_ext; [intros b; reflexivity|].
  apply (emits_bind mem_R None None None (fun b => write_str mem_vt b t) _ [Chunk t] [Chunk (repeat 32 5)] tt (Ok tt)).
  - apply (write_str_emits mem_vt mem_R None None None). exact (lawful_chunky _ _ _ _ _ mem_lawful).
  - apply (write_char_n_emits mem_vt mem_R None None None). exact (lawful_chunky _ _ _ _ _ mem_lawful).
Qed.
Print Assumptions C48_padding_refuted.

(** A text of 2^31 characters with a width: the width of the padding overflows. *)
Theorem C48_overflow_refuted : exists t s,
  Forall is_byte t /\ specs_ok s /\ check_string_specs s = Ok tt /\ forall b, write_arg mem_vt b s (AStr t) = (Undef, b).
Proof.
  destruct (long_text (2 ^ 31) ltac:(lia)) as (t & HB & HL). exists t, (set_width default_specs 5).
  split; [exact HB|]. split; [specs|]. split; [reflexivity|]. intros b. cbn [write_arg]. unfold write_arg_str.
  cbn [set_width default_specs sp_type sp_precision negb]. change (negb (0 =? ch_question)) with true. change (0 <=? -1) with false. cbv iota zeta.
  unfold write_padded, write_padding_left. rewrite HL. reflexivity.
Qed.
Print Assumptions C48_overflow_refuted.
