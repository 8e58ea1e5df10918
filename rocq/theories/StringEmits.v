(** Proofs about Format.v: what formatting writes. *)
From Verif Require Import Base Conversion Reader Buffer Writer Bitset Specs FormatArg FloatArg Format.
From Verif Require Import Lib SpecNum SpecReader SpecEscape SpecFloat SpecFormat SpecDecimal SpecField SpecSpecs SpecString.
From Verif Require Import ConversionProofs ReaderProofs SpecsProofs BufferProofs Emits WriterProofs FormatArgProofs FloatArgProofs DoubleProofs FloatTextProofs FieldProofs AtomProofs StringProofs StringLoop.

Lemma fval_ind' (P : fval -> Prop) :
  (forall a, P (VCore a)) -> P VMono -> P (VOpt None) -> (forall v, P v -> P (VOpt (Some v))) ->
  P (VVariant None) -> (forall t v, P v -> P (VVariant (Some (t, v)))) ->
  (forall vs, Forall P vs -> P (VRange vs)) -> (forall vs, Forall P vs -> P (VTuple vs)) ->
  (forall w p v, P v -> P (VDyn w p v)) -> (forall s args, Forall (fun tv => P (snd tv)) args -> P (VArgs s args)) -> forall v, P v.
Proof.
  intros H1 H2 H3 H4 H5 H6 H7 H8 H9 H10. fix F 1. intros [a| |[v|]|[[t v]|]|vs|vs|w p v|s args]; [apply H1|exact H2|apply H4, F|exact H3|apply H6, F|exact H5| | |apply H9, F|].
  - apply H7. induction vs as [|v vs IH]; constructor; [apply F|exact IH].
  - apply H8. induction vs as [|v vs IH]; constructor; [apply F|exact IH].
  - apply H10. induction args as [|[t v] args IH]; constructor; [apply F|exact IH].
Qed.

(** The writes are the same for every buffer. *)
Definition writes (m : forall K, vtable K -> bst K -> outcome unit * bst K) (ops : list op) : Prop :=
  forall K vt R cap amax room, lawful vt R cap amax room -> emits R cap amax room (m K vt) ops (Ok tt).
Definition fails (m : forall K, vtable K -> bst K -> outcome unit * bst K) (ops : list op) : Prop :=
  forall K vt R cap amax room, lawful vt R cap amax room -> emits R cap amax room (m K vt) ops (Err invalid_format).
(** The call writes a text like [Q]; or it fails, which requires [F].  Given [G],
    it writes in small pieces. *)
Definition attempt (G : Prop) (m : forall K, vtable K -> bst K -> outcome unit * bst K) (Q : list Z -> Prop) (F : Prop) : Prop :=
  (exists ops, writes m ops /\ Q (ops_data ops) /\ (G -> atoms_within 128 ops)) \/ (F /\ exists ops, fails m ops /\ (G -> atoms_within 128 ops)).

(** ** The precision of arguments that have none *)
Lemma padding_precision {K} (vt : vtable K) b s p n :
  write_padding_left vt b (set_precision s p) n = sbind (write_padding_left vt b s n) (fun s b => (Ok (set_precision s p), b)).
Proof.
  unfold write_padding_left. destruct s as [fi al si af ze wi pr ty]. unfold set_precision, set_width.
  cbn [sp_fill sp_align sp_sign sp_alternate_form sp_zero_flag sp_width sp_precision sp_type].
  destruct ((wi =? 0) || _); [reflexivity|]. destruct (arith iso i32 (wi - _)); try reflexivity.
  destruct al; try reflexivity; destruct (bind _ _); try reflexivity; destruct (write_char_n _ _ _ _) as [[]]; reflexivity.
Qed.
Lemma padded_precision {K} (vt : vtable K) a b s p n f : write_padded vt a b (set_precision s p) n f = write_padded vt a b s n f.
Proof.
  unfold write_padded. replace (default_align a (set_precision s p)) with (set_precision (default_align a s) p) by (destruct s as [? [] ? ? ? ? ? ?]; reflexivity).
  rewrite padding_precision. destruct (write_padding_left vt b _ n) as [[s'| | |] b']; cbn [sbind]; try reflexivity.
Qed.
Lemma int_precision {K} (vt : vtable K) b s p t v : write_arg_int vt b (set_precision s p) t v = write_arg_int vt b s t v.
Proof.
  unfold write_arg_int. replace (sp_type (set_precision s p)) with (sp_type s) by (now destruct s).
  destruct (sp_type s =? 99); [apply padded_precision|].
  destruct (make_write_int_options (sp_type s)) as [[[prefix base] upper]| | |]; [|now destruct s..]. cbv zeta.
  destruct (get_number_of_digits _ _) as [d|]; [|now destruct s].
  replace (try_write_sign vt b (set_precision s p)) with (try_write_sign vt b s) by (now destruct s).
  destruct (try_write_sign vt b s _) as [[sign| | |] b1]; cbn [sbind]; try reflexivity.
  replace (try_write_prefix vt b1 (set_precision s p)) with (try_write_prefix vt b1 s) by (now destruct s).
  destruct (try_write_prefix vt b1 s _) as [[pre| | |] b2]; cbn [sbind]; try reflexivity.
  rewrite padded_precision. now destruct s.
Qed.
Lemma arg_precision {K} (vt : vtable K) b s p a :
  match a with ADouble _ => False | AStr _ => sp_type s = 63 | _ => True end -> write_arg vt b (set_precision s p) a = write_arg vt b s a.
Proof.
  destruct a as [v|c|t v|bits|q|t]; intros H; cbn [write_arg]; try contradiction.
  - unfold write_arg_bool. rewrite int_precision, !padded_precision. now destruct s.
  - unfold write_arg_char. rewrite int_precision, !padded_precision. now destruct s.
  - apply int_precision.
  - unfold write_arg_ptr. change (set_type (set_alternate (set_precision s p) true) 120) with (set_precision (set_type (set_alternate s true) 120) p). apply int_precision.
  - unfold write_arg_str. replace (sp_type (set_precision s p)) with (sp_type s) by (now destruct s). rewrite H. change (63 =? ch_question) with true. cbn [negb]. apply padded_precision.
Qed.

(** ** Fields of the core types *)
Lemma spec_octal sp s : spec_text sp s -> sp_type s = 79 -> octal_spec sp.
Proof.
  intros (fa & sg & al & ze & wd & pr & ty & fill & align & sign & alt & zero & w & p & type & -> & H1 & H2 & H3 & H4 & H5 & H6 & H7 & ->) HT.
  cbn in HT. destruct zero, align; cbn in HT; subst type; destruct H7 as [(_ & X)|(-> & _)]; try lia;
    (exists (fa ++ sg ++ al ++ ze ++ wd ++ pr)); rewrite <- !app_assoc; reflexivity.
Qed.

Lemma arg_field a s : arg_specs a s -> arg_outcome s a = Ok tt -> actual_field s a (ops_data (arg_ops s a)).
Proof.
  intros H HO. destruct a as [v|c|t v|bits|p|t].
  1,3,5,6: left; split; [cbn; tauto|]; apply arg_ops_field; auto; cbn; tauto.
  - destruct (Z.eq_dec (sp_type s) 63) as [E|E]; [destruct (Nat.eq_dec (length (escape c)) 1) as [L|L]|].
    + left. assert (ND : ~ deviates s (AChar c)) by (cbn; tauto). split; [exact ND|]. now apply arg_ops_field.
    + right. split; [cbn; auto|]. cbn [arg_ops deviant_field]. unfold char_ops. rewrite E. change (63 =? ch_question) with true. cbv iota.
      unfold pad_ops. destruct (pads _ _ _) as [l r] eqn:EP. exists l, r. rewrite !ops_data_app. cbn [ops_data flat_map op_data]. rewrite !app_nil_r. split; [reflexivity|].
      assert (HW : 0 <= sp_width s) by apply H. unfold pads in EP. unfold field_align in *. destruct (sp_align s); injection EP as <- <-; split; lia.
    + left. assert (ND : ~ deviates s (AChar c)) by (cbn; tauto). split; [exact ND|]. now apply arg_ops_field.
  - assert (NN : forall P : Prop, ~ P -> ~ (is_finite_double bits /\ (sp_type s = 102 \/ sp_type s = 70) /\ P)) by tauto.
    destruct (Z.eq_dec (bits_exponent bits) 2047) as [E|E].
    { left. assert (ND : ~ deviates s (ADouble bits)) by (cbn; intros ((_ & X) & _); contradiction). split; [exact ND|]. now apply arg_ops_field. }
    assert (HF : is_finite_double bits) by (split; [apply H|exact E]).
    assert (HT : {sp_type s = 102 \/ sp_type s = 70} + {~ (sp_type s = 102 \/ sp_type s = 70)}) by (destruct (Z.eq_dec (sp_type s) 102), (Z.eq_dec (sp_type s) 70); (left; lia) || (right; lia)).
    destruct HT as [HT|HT].
    2: { left. assert (ND : ~ deviates s (ADouble bits)) by (cbn; tauto). split; [exact ND|]. now apply arg_ops_field. }
    assert (HS : specs_ok s) by apply H. destruct (float_check s HS ltac:(apply H)) as (_ & HP & _).
    destruct (fixed_format s bits HF HT HP) as (body & i & f & HB & R1 & R2). destruct R2 as [(R2 & _)|(R3 & R2)].
    + left. assert (ND : ~ deviates s (ADouble bits)) by (cbn; tauto). split; [exact ND|]. now apply arg_ops_field.
    + right. split; [cbn; auto|]. exists body. split; [exists i, f; split; [exact R1|exact R2]|]. now apply double_finite_field.
Qed.

Lemma overwrite_nothing m : overwrite_spec m spec_not_defined spec_not_defined = m.
Proof. induction m; cbn [overwrite_spec]; rewrite ?Z.eqb_refl; congruence. Qed.

(** The specs a core formatter has in the end. *)
Definition final_specs (st : style) (c : cty) (s : format_specs) : format_specs :=
  let s := if st_debug st then maybe_set_debug_format (Some true) c s else s in
  let s := if st_width st =? spec_not_defined then s else set_width s (Z.max 0 (st_width st)) in
  if st_precision st =? spec_not_defined then s else set_precision s (Z.max 0 (st_precision st)).

Lemma final_styled {K} (vt : vtable K) b st a s : write_arg vt b (final_specs st (type_of a) s) a = write_arg vt b (styled st a s) a.
Proof.
  unfold final_specs, styled. cbv zeta.
  replace (if st_debug st then maybe_set_debug_format (Some true) (type_of a) s else s) with
    (match st_debug st, a with true, (AChar _ | AStr _) => set_type s 63 | _, _ => s end) by (destruct (st_debug st), a; reflexivity).
  set (s1 := if st_width st =? spec_not_defined then _ else _). clearbody s1. destruct (st_precision st =? spec_not_defined); [reflexivity|].
  destruct a; try reflexivity; try (now apply arg_precision). destruct (sp_type s1 =? 63) eqn:E; [|reflexivity]. apply arg_precision. lia.
Qed.

Definition dyn_ok (st : style) (t : fty) : Prop :=
  in_range i32 (st_width st) /\ in_range i32 (st_precision st) /\ (inner_core t = Some TDouble -> st_precision st <= 1100).

Lemma specs_ok_precision s p : specs_ok s -> 0 <= p < 2 ^ 31 -> specs_ok (set_precision s p).
Proof.
  destruct s. unfold specs_ok. cbn [Specs.sp_fill Specs.sp_width Specs.sp_precision Specs.sp_sign Specs.sp_zero_flag Specs.sp_align set_precision]. intros (H1 & H2 & H3 & H4 & H5) HP.
  split; [exact H1|]. split; [exact H2|]. split; [lia|]. auto.
Qed.
Lemma styled_ok st a s : carg_ok a -> arg_fits a -> dyn_ok st (FCore (type_of a)) -> specs_ok s -> check_specs (type_of a) s = Ok tt -> (st_debug st = true -> s = default_specs) ->
  arg_specs a (styled st a s) /\ (sp_type s <> 79 -> sp_type (styled st a s) <> 79).
Proof.
  intros HA HF (HW & HP & HD) HS HC HDb.
  assert (IW : forall z, in_range i32 z -> 0 <= Z.max 0 z < 2 ^ 31) by (unfold in_range, imin, imax, i32; cbn [Base.bits signed]; intros z; zlit; lia).
  unfold styled. cbv zeta.
  set (s1 := match st_debug st, a with true, (AChar _ | AStr _) => set_type s 63 | _, _ => s end).
  assert (Q1 : specs_ok s1 /\ check_specs (type_of a) s1 = Ok tt /\ (sp_type s <> 79 -> sp_type s1 <> 79)).
  { unfold s1. destruct (st_debug st); [|auto]. rewrite (HDb eq_refl) in *. destruct a; auto; (split; [exact HS|]; split; [reflexivity|discriminate]). }
  clearbody s1. destruct Q1 as (HS1 & HC1 & HT1).
  set (s2 := if st_width st =? spec_not_defined then s1 else set_width s1 (Z.max 0 (st_width st))).
  assert (Q2 : specs_ok s2 /\ check_specs (type_of a) s2 = Ok tt /\ sp_type s2 = sp_type s1).
  { unfold s2. destruct (st_width st =? spec_not_defined); [auto|]. specialize (IW _ HW). destruct s1; cbn in *. unfold specs_ok in *. cbn in *. split; [tauto|]. split; [exact HC1|reflexivity]. }
  clearbody s2. destruct Q2 as (HS2 & HC2 & HT2).
  assert (D : arg_specs a s2 /\ (sp_type s <> 79 -> sp_type s2 <> 79)) by (split; [split; [|split; [|split]]; assumption|rewrite HT2; exact HT1]).
  destruct (st_precision st =? spec_not_defined); [exact D|]. specialize (IW _ HP). destruct a as [v|c|t v|bits|q|t]; try exact D.
  - destruct D as [D1 D2]. split; [|destruct s2; exact D2]. split; [exact HA|]. split; [exact HF|]. split.
    + now apply specs_ok_precision.
    + cbn [type_of check_specs] in *. unfold check_floating_point_specs in *. replace (sp_type (set_precision s2 _)) with (sp_type s2) by (now destruct s2).
      replace (1100 <? sp_precision (set_precision s2 (Z.max 0 (st_precision st)))) with false; [destruct (1100 <? sp_precision s2); [discriminate|exact HC2]|].
      specialize (HD eq_refl). destruct s2; cbn. lia.
  - destruct (sp_type s2 =? 63) eqn:E; [exact D|]. destruct D as [D1 D2]. split; [|destruct s2; exact D2]. split; [exact HA|]. split; [exact HF|]. split.
    + now apply specs_ok_precision.
    + cbn [type_of check_specs] in *. unfold check_string_specs in *. destruct s2; cbn in *. change ch_question with 63 in *. rewrite E in *. rewrite andb_false_r in *. exact HC2.
Qed.

(** *** Precisions *)
Lemma short_infix a t b : short_precisions (a ++ t ++ b) -> short_precisions t.
Proof. intros H x d y -> HD. apply (H (a ++ x) d (y ++ b)); [|exact HD]. now rewrite <- !app_assoc. Qed.
Lemma short_spec sp s : spec_text sp s -> short_precisions sp -> sp_precision s <= 100.
Proof.
  intros (fa & sg & al & ze & wd & pr & ty & fill & align & sign & alt & zero & w & p & type & -> & H1 & H2 & H3 & H4 & H5 & H6 & H7 & ->) HS.
  assert (p <= 100).
  { destruct H6 as [(_ & ->)|(n & -> & (HD & _ & HN))]; [lia|].
    assert (X : denotes 10 n <= 100) by (apply (HS (fa ++ sg ++ al ++ ze ++ wd) n (ty ++ [125])); [rewrite <- !app_assoc; reflexivity|exact HD]). lia. }
  destruct zero, align; exact H.
Qed.
Lemma short_element sp n e : range_spec sp n e -> short_precisions sp -> short_precisions (element_spec e).
Proof.
  intros -> H. destruct e as [e|]; cbn [element_spec].
  - apply (short_infix ((if n then [110] else []) ++ [58]) e []). rewrite app_nil_r, <- app_assoc. exact H.
  - intros a d b E. destruct a as [|c [|]]; discriminate.
Qed.
Lemma short_brace : short_precisions [125].
Proof. intros a d b E. destruct a as [|c [|]]; discriminate. Qed.
Lemma short_styled st a s sp : spec_text sp s -> (short_value (VCore a) /\ short_precisions sp /\ st_precision st <= 100) -> short_arg (styled st a s) a.
Proof.
  intros HSp (HV & HP & HQ). destruct a; cbn [short_arg]; auto. split; [|exact HV]. unfold styled. cbv zeta. assert (X := short_spec _ _ HSp HP).
  destruct (st_debug st), (st_width st =? spec_not_defined), (st_precision st =? spec_not_defined); destruct s; cbn in *; lia.
Qed.

Section Guarantee.
Context (G : Prop).
Notation attempt := (attempt G).

Lemma core_writes st a sp m : has_type (FCore (type_of a)) (VCore a) -> (G -> short_value (VCore a) /\ short_precisions sp /\ st_precision st <= 100) -> dyn_ok st (FCore (type_of a)) -> fmtr_for (st_debug st) (st_brackets st) (FCore (type_of a)) sp m ->
  attempt (fun K vt b => format_fval vt (overwrite_spec m (st_width st) (st_precision st)) (VCore a) b) (shows st (FCore (type_of a)) sp (VCore a)) (octal_spec sp).
Proof.
  intros HT HG HD (s & HSp & HS & HC & HDb & ->). inversion HT; subst.
  destruct (styled_ok st a s) as [HA HO]; auto.
  assert (W : forall o, arg_outcome (styled st a s) a = o -> forall K vt R cap amax room, lawful (K := K) vt R cap amax room ->
    emits R cap amax room (fun b => format_fval vt (overwrite_spec (MCore (type_of a) (if st_debug st then maybe_set_debug_format (Some true) (type_of a) s else s)) (st_width st) (st_precision st)) (VCore a) b)
      (arg_ops (styled st a s) a) o).
  { intros o <- K vt R cap amax room HL. apply (emits_ext _ _ _ _ _ (fun b => write_arg vt b (styled st a s) a)).
    + intros b. cbn [overwrite_spec format_fval]. rewrite <- final_styled. reflexivity.
    + now apply (write_arg_emits vt R cap amax room HL). }
  assert (HSh : G -> atoms_within 128 (arg_ops (styled st a s) a)) by (intros HG'; apply atoms_arg; [exact HA|]; now apply (short_styled st a s sp HSp), HG).
  assert (HOk := arg_outcome_ok _ _ HA). destruct (takes_int a && (sp_type (styled st a s) =? 79)) eqn:E.
  - right. split; [|exists (arg_ops (styled st a s) a); split; [exact (W _ HOk)|exact HSh]]. apply (spec_octal _ _ HSp). destruct (Z.eq_dec (sp_type s) 79); [assumption|]. specialize (HO n). lia.
  - left. exists (arg_ops (styled st a s) a). split; [exact (W _ HOk)|]. split; [|exact HSh]. apply (shows_core st _ sp s); [exact HSp|]. now apply arg_field.
Qed.

(** ** Text *)
Fixpoint text_ops (pending : list Z) (lits : list item) : list op :=
  match lits with
  | Literal c :: lits => text_ops (pending ++ [c]) lits
  | Brace c :: lits => Chunk (pending ++ [c]) :: text_ops [] lits
  | _ => match pending with [] => [] | _ => [Chunk pending] end
  end.
Definition item_char (i : item) : list Z := match i with Literal c | Brace c => [c] | _ => [] end.
Lemma text_ops_data lits : Forall plain_item lits -> forall pending, ops_data (text_ops pending lits) = pending ++ flat_map item_char lits.
Proof.
  induction 1 as [|i lits Hi HF IH]; intros pending; [cbn; destruct pending; cbn; now rewrite ?app_nil_r|].
  destruct i as [c|c|]; [| |contradiction]; cbn [text_ops flat_map item_char app].
  - rewrite IH, <- app_assoc. reflexivity.
  - change (ops_data (Chunk (pending ++ [c]) :: text_ops [] lits)) with ((pending ++ [c]) ++ ops_data (text_ops [] lits)). rewrite IH, <- app_assoc. reflexivity.
Qed.

Lemma atoms_text m lits : forall pending, atoms_within m (text_ops pending lits).
Proof.
  induction lits as [|[c|c|] lits IH]; intros pending; cbn [text_ops]; [destruct pending; repeat constructor|apply IH|constructor; [exact I|apply IH]|destruct pending; repeat constructor].
Qed.

Section P.
  Context {K : Type} (vt : vtable K) (R : list Z -> bst K -> Prop) (cap amax room : option nat).
  Context (HL : lawful vt R cap amax room).
  Let HK : chunky vt R cap room := lawful_chunky _ _ _ _ _ HL.

  (** Like [emits] for functions that move the reader. *)
  Definition pemits {A} (m : bst K -> outcome A * (reader * bst K)) (ops : list op) (o : outcome A) (r' : reader) : Prop :=
    forall w b, R w b -> obound room (length w + length (ops_data ops)) ->
    exists r b', R (snd (exec cap amax w ops)) b' /\
      m b = (if fst (exec cap amax w ops) then o else Err eof, (r, b')) /\ (fst (exec cap amax w ops) = true -> r = r').

  Lemma pemits_bind {A B} (m : bst K -> outcome A * (reader * bst K)) (f : A -> reader * bst K -> outcome B * (reader * bst K)) ops1 ops2 a r1 o r2 :
    pemits m ops1 (Ok a) r1 -> pemits (fun b => f a (r1, b)) ops2 o r2 -> pemits (fun b => sbind (m b) f) (ops1 ++ ops2) o r2.
  Proof.
    intros H1 H2 w b HR HO. rewrite ops_data_app, app_length in HO.
    destruct (H1 w b HR) as (r & b1 & HR1 & E1 & F1); [eapply obound_le; [|exact HO]; lia|].
    rewrite exec_app. assert (EO := exec_ok cap amax w ops1).
    destruct (exec cap amax w ops1) as [[|] w1]; cbn [fst snd] in *.
    - rewrite F1 in E1 by reflexivity. destruct (H2 w1 b1 HR1) as (r' & b2 & HR2 & E2 & F2).
      { rewrite EO by reflexivity. rewrite app_length, <- Nat.add_assoc. exact HO. }
      exists r', b2. split; [exact HR2|]. split; [rewrite E1; exact E2|exact F2].
    - exists r, b1. split; [exact HR1|]. split; [rewrite E1; reflexivity|discriminate].
  Qed.
  Lemma pemits_bind_err {A B} (m : bst K -> outcome A * (reader * bst K)) (f : A -> reader * bst K -> outcome B * (reader * bst K)) ops e r :
    pemits m ops (Err e) r -> pemits (fun b => sbind (m b) f) ops (Err e) r.
  Proof.
    intros H w b HR HO. destruct (H w b HR HO) as (r1 & b1 & HR1 & E1 & F1). exists r1, b1. split; [exact HR1|]. split; [|exact F1].
    rewrite E1. destruct (fst (exec cap amax w ops)); reflexivity.
  Qed.
  Lemma pemits_ext {A} (m m' : bst K -> outcome A * (reader * bst K)) ops o r : (forall b, m b = m' b) -> pemits m' ops o r -> pemits m ops o r.
  Proof. intros E H w b HR HO. rewrite E. now apply H. Qed.
  Lemma pemits_ret {A} (a : A) r : pemits (fun b => (Ok a, (r, b))) [] (Ok a) r.
  Proof. intros w b HR _. exists r, b. cbn. auto. Qed.
  Lemma pemits_buffer r (m : bst K -> outcome unit * bst K) ops o : emits R cap amax room m ops o -> pemits (fun b => on_buffer r (m b)) ops o r.
  Proof.
    intros H w b HR HO. destruct (H w b HR HO) as (b' & HR' & E). exists r, b'. split; [exact HR'|]. rewrite E. unfold on_buffer.
    destruct (fst (exec cap amax w ops)); auto.
  Qed.

  Lemma process_pemits r begin it text : firstn (it - begin) (skipn begin (rtext r)) = text -> pemits (fun b => process vt (r, b) begin it) [Chunk text] (Ok tt) r.
  Proof. intros <-. unfold process. apply pemits_buffer, (write_str_emits vt R cap amax room HK). Qed.

  Lemma section_snoc (T : list Z) begin n c l pending : (begin <= n)%nat -> firstn (n - begin) (skipn begin T) = pending -> skipn n T = c :: l ->
    firstn (S n - begin) (skipn begin T) = pending ++ [c].
  Proof.
    intros HB <- HS. replace (S n - begin)%nat with (n - begin + 1)%nat by lia. rewrite <- (firstn_skipn (n - begin) (skipn begin T)) at 1.
    assert (HX : skipn (n - begin) (skipn begin T) = c :: l) by (rewrite skipn_skipn_nat; replace (begin + (n - begin))%nat with n by lia; exact HS).
    rewrite HX. assert (LF : length (firstn (n - begin) (skipn begin T)) = (n - begin)%nat).
    { rewrite firstn_length, skipn_length. apply skip_bound in HS. lia. }
    rewrite firstn_app, LF. replace (n - begin + 1 - (n - begin))%nat with 1%nat by lia. cbn [firstn]. rewrite firstn_all2 by lia. reflexivity.
  Qed.

  Lemma parse_text_pemits lits : forall fuel T n begin pending rest, Forall plain_item lits -> skipn n T = text_of lits ++ rest ->
    (rest = [] \/ exists c l, rest = 123 :: c :: l /\ c <> 123) -> (begin <= n)%nat -> (n <= length T)%nat -> firstn (n - begin) (skipn begin T) = pending -> (length lits < fuel)%nat ->
    pemits (fun b => parse_text vt fuel (mk_reader T n, b) begin) (text_ops pending lits) (Ok (match rest with [] => false | _ => true end))
      (mk_reader T (n + length (text_of lits) + match rest with [] => 0 | _ => 1 end)).
  Proof.
    induction lits as [|i lits IH]; intros fuel T n begin pending rest HF HS HR HB HN HP HFu; (destruct fuel as [|fuel]; [lia|]).
    - cbn [text_of flat_map app length] in *. rewrite Nat.add_0_r. cbn [parse_text rtext rpos text_ops].
      assert (PE : forall it, (begin =? it)%nat = true -> it = n -> pending = []) by (intros it E ->; replace (n - begin)%nat with O in HP by lia; now subst).
      assert (PN : (begin =? n)%nat = false -> pending <> []).
      { intros E X. subst pending. apply (f_equal (@length Z)) in X. rewrite firstn_length, skipn_length in X. cbn in X. lia. }
      destruct HR as [-> |(c & l & -> & HC)]; rewrite nth_skip, HS.
      + rewrite Nat.add_0_r. replace (match pending with [] => [] | _ :: _ => [Chunk pending] end) with ((if (begin =? n)%nat then [] else [Chunk pending]) ++ []).
        2: { destruct (begin =? n)%nat eqn:E; [now rewrite (PE n E eq_refl)|]. specialize (PN eq_refl). destruct pending; [congruence|reflexivity]. }
        eapply pemits_bind; [|cbn beta; apply pemits_ret]. destruct (begin =? n)%nat; [apply pemits_ret|]. now apply process_pemits.
      + change (123 =? ch_lbrace) with true. cbv iota. rewrite nth_skip, (skip_succ _ _ _ _ HS). change ch_lbrace with 123. replace (c =? 123) with false by lia.
        replace (S n - 1)%nat with n by lia. rewrite Nat.add_1_r. change (set_pos (mk_reader T n) (S n)) with (mk_reader T (S n)).
        replace (match pending with [] => [] | _ :: _ => [Chunk pending] end) with ((if (begin =? n)%nat then [] else [Chunk pending]) ++ []).
        2: { destruct (begin =? n)%nat eqn:E; [now rewrite (PE n E eq_refl)|]. specialize (PN eq_refl). destruct pending; [congruence|reflexivity]. }
        eapply pemits_bind; [|cbn beta; apply pemits_ret]. destruct (begin =? n)%nat; [apply pemits_ret|]. now apply process_pemits.
    - assert (Hi := Forall_inv HF). assert (HF' := Forall_inv_tail HF). cbn [length] in HFu. destruct i as [c|c|]; [| |contradiction]; cbn [plain_item item_ok] in Hi.
      + cbn [text_of flat_map item_text app] in HS. fold (text_of lits) in HS. assert (HS1 := skip_succ _ _ _ _ HS). assert (LB := skip_bound _ _ _ _ HS).
        assert (X := IH fuel T (S n) begin (pending ++ [c]) rest HF' HS1 HR ltac:(lia) ltac:(lia) (section_snoc T begin n c _ pending HB HP HS) ltac:(lia)).
        cbn [text_ops]. replace (n + length (text_of (Literal c :: lits)))%nat with (S n + length (text_of lits))%nat by (cbn [text_of flat_map item_text app length]; fold (text_of lits); lia).
        eapply pemits_ext; [|exact X]. intros b. cbn [parse_text rtext rpos]. rewrite nth_skip, HS. unfold is_brace in Hi. change ch_lbrace with 123. change ch_rbrace with 125.
        replace (c =? 123) with false by lia. replace (c =? 125) with false by lia. reflexivity.
      + cbn [text_of flat_map item_text app] in HS. fold (text_of lits) in HS. assert (HS1 := skip_succ _ _ _ _ HS). assert (HS2 := skip_succ _ _ _ _ HS1). assert (LB := skip_bound _ _ _ _ HS1).
        assert (X := IH fuel T (S (S n)) (S (S n)) [] rest HF' HS2 HR ltac:(lia) ltac:(lia) ltac:(now rewrite Nat.sub_diag) ltac:(lia)).
        assert (Y := process_pemits (mk_reader T (S n)) begin (S n) (pending ++ [c]) (section_snoc T begin n c _ pending HB HP HS)).
        cbn [text_ops]. replace (n + length (text_of (Brace c :: lits)))%nat with (S (S n) + length (text_of lits))%nat by (cbn [text_of flat_map item_text app length]; fold (text_of lits); lia).
        change (Chunk (pending ++ [c]) :: text_ops [] lits) with ([Chunk (pending ++ [c])] ++ text_ops [] lits).
        eapply pemits_ext; [|eapply (pemits_bind _ (fun _ st => parse_text vt fuel (mk_reader T (S (S n)), snd st) (S (S n)))); [exact Y|exact X]].
        intros b. cbn [parse_text rtext rpos]. rewrite nth_skip, HS. change ch_lbrace with 123. change ch_rbrace with 125.
        destruct Hi as [-> | ->].
        * change (123 =? 123) with true. cbv iota. rewrite nth_skip, HS1. change (123 =? 123) with true. cbv iota. reflexivity.
        * change (125 =? 123) with false. change (125 =? 125) with true. cbv iota. replace (S n <? length T)%nat with true by lia. reflexivity.
  Qed.
End P.

(** ** Format strings *)
Lemma formats_plain show lits its ns out : Forall plain_item lits -> formats show its ns out -> formats show (lits ++ its) ns (flat_map item_char lits ++ out).
Proof. intros HF H. induction HF as [|i lits Hi HF IH]; [exact H|]. destruct i; [| |contradiction]; cbn; constructor; exact IH. Qed.

(** How the fields of the arguments are shown. *)
Definition fields_by (Q : fty * fval -> list Z -> list Z -> Prop) (args : list (fty * fval)) : nat -> list Z -> list Z -> Prop :=
  fun n spec o => exists tv, nth_error args n = Some tv /\ Q tv spec o.
Definition arg_writes (Q : fty * fval -> list Z -> list Z -> Prop) (tv : fty * fval) : Prop :=
  forall sp m, (G -> short_precisions sp) -> fmtr_for false (default_brackets (fst tv)) (fst tv) sp m -> attempt (fun K vt b => format_fval vt m (snd tv) b) (Q tv sp) (octal_spec sp \/ octal_in (snd tv)).

Theorem loop_writes Q args T : Forall is_byte T -> Forall (arg_writes Q) args -> forall n use inc its ns e, pacc (map fst args) T n use inc its ns e ->
  (G -> Forall short_precisions (field_specs its)) -> (inc <= 128)%nat -> (n <= length T)%nat ->
  exists ops o, (G -> atoms_within 128 ops) /\ (forall K (vt : vtable K) R cap amax room, lawful vt R cap amax room -> forall fuel, (length T - n < fuel)%nat ->
      exists r', pemits R cap amax room (fun b => parse_loop vt fuel (map (erase vt) args) (Z.of_nat inc) (mk_reader T n, b)) ops o r') /\
    ((o = Ok tt /\ formats (fields_by Q args) its ns (ops_data ops)) \/
     (o = Err invalid_format /\ (Exists octal_spec (field_specs its) \/ Exists (fun tv => octal_in (snd tv)) args))).
Proof.
  intros HB HArgs n use inc its ns e HA.
  assert (PF : forall lits r, Forall plain_item lits -> field_specs (lits ++ r) = field_specs r).
  { intros lits r HF. unfold field_specs. rewrite flat_map_app. replace (flat_map _ lits) with (@nil (list Z)); [reflexivity|]. induction HF as [|[]]; [reflexivity|assumption|assumption|contradiction]. }
  induction HA as [n use inc its e HF HS HE|n use inc lits index colon sp rest its k ns e use' inc' t p q HF HS HC HP HK HN HFS Hp HSP HPar HQ HA IH]; intros HG HI HLn.
  - exists (text_ops [] its), (Ok tt). split; [intros _; apply atoms_text|]. split.
    2: { left. split; [reflexivity|]. rewrite text_ops_data by exact HF. cbn [app]. rewrite <- (app_nil_r (flat_map item_char its)), <- (app_nil_r its) at 1. apply formats_plain; [exact HF|constructor]. }
    intros K vt R cap amax room HL fuel HFu. destruct fuel as [|fuel]; [lia|]. cbn [parse_loop fst rtext rpos].
    assert (L1 : (length its < S (length T))%nat).
    { assert (X := text_of_length its HF). assert (Y := f_equal (@length Z) HS). rewrite skipn_length, app_length in Y. lia. }
    assert (HR : e = [] \/ exists c l, e = 123 :: c :: l /\ c <> 123).
    { destruct HE as [-> |(_ & index & c & r & -> & (HD1 & HD2) & _)]; [now left|right]. destruct index as [|d index]; [congruence|]. cbn [app]. do 2 eexists. split; [reflexivity|]. inversion HD2; lia. }
    assert (X := parse_text_pemits vt R cap amax room HL its (S (length T)) T n n [] e HF HS HR (Nat.le_refl _) HLn ltac:(now rewrite Nat.sub_diag) L1).
    destruct HE as [-> |(HU & index & c & r & -> & HD & H255 & HC)].
    + eexists. rewrite <- (app_nil_r (text_ops [] its)). eapply pemits_bind; [exact X|]. cbn beta. cbn [negb]. apply pemits_ret.
    + eexists. rewrite <- (app_nil_r (text_ops [] its)). eapply pemits_bind; [exact X|]. cbn beta. cbn [negb fst snd]. set (p0 := (n + length (text_of its))%nat).
      assert (HP0 : skipn (p0 + 1) T = index ++ colon_text (c =? 58) ++ (if c =? 58 then r else 125 :: r)).
      { rewrite Nat.add_1_r, (skip_succ p0 T 123 (index ++ c :: r)) by apply (skip_part _ _ _ _ HS). f_equal. destruct HC as [-> | ->]; reflexivity. }
      assert (HI2 : (inc <= 254)%nat) by lia. assert (H255' : 255 <= 255) by lia. assert (HPk : picks use inc index 255 (Some true) inc) by (right; auto 6).
      eapply pemits_ext; [|apply pemits_ret]. intros b. rewrite (parse_field_fwd T (p0 + 1) use inc 255 (Some true) inc index (c =? 58) r HB HI2 HP0 HPk H255').
      cbn [on_reader sbind]. change (255 =? no_more_args) with true. cbv iota. reflexivity.
  - assert (HIX : index = [] \/ digits_text index) by (destruct HP; tauto). rewrite PF in HG by exact HF. rewrite PF by exact HF. change (field_specs (Field index colon sp :: its)) with (sp :: field_specs its) in HG. change (field_specs (Field index colon sp :: its)) with (sp :: field_specs its).
    subst p. set (p := (n + length (text_of lits) + 1 + length index + length (colon_text colon))%nat) in *.
    destruct (field_spec_cons t sp HFS) as (c1 & l1 & ESP).
    assert (LP : (p < length T)%nat) by (rewrite ESP in HSP; apply (skip_bound _ _ _ _ HSP)).
    assert (LP2 : (q <= length T)%nat) by lia.
    assert (HI' : (inc' <= 128)%nat) by (destruct HP as [(_ & _ & Y & _ & ->)|(_ & _ & _ & _ & ->)]; lia).
    assert (HNA : exists tv, nth_error args k = Some tv /\ fst tv = t).
    { rewrite nth_error_map in HN. destruct (nth_error args k) as [tv|]; [|discriminate]. exists tv. cbn in HN. split; [reflexivity|congruence]. }
    destruct HNA as (tv & HNA & HTV). assert (HAW : arg_writes Q tv) by (rewrite Forall_forall in HArgs; apply HArgs; eapply nth_error_In; eauto).
    destruct (HPar None (default_brackets t)) as (m & HPW & HFm); [discriminate|]. cbv iota in HFm. rewrite fresh_default in HPW.
    assert (STEP : forall ops o,
      (forall K (vt : vtable K) R cap amax room, lawful vt R cap amax room -> forall fuel, (length T - q < fuel)%nat ->
        exists r', pemits R cap amax room (fun b => sbind (on_buffer (mk_reader T q) (format_fval vt m (snd tv) b)) (fun _ st => parse_loop vt fuel (map (erase vt) args) (Z.of_nat inc') st)) ops o r') ->
      forall K (vt : vtable K) R cap amax room, lawful vt R cap amax room -> forall fuel, (length T - n < fuel)%nat ->
        exists r', pemits R cap amax room (fun b => parse_loop vt fuel (map (erase vt) args) (Z.of_nat inc) (mk_reader T n, b)) (text_ops [] lits ++ ops) o r').
    { rewrite field_text in HS. cbn [app] in HS. rewrite <- !app_assoc in HS.
      destruct (not_open index colon sp rest HIX HC) as (c & l & EO & NO).
      intros ops o HW K vt R cap amax room HL fuel HFu. destruct fuel as [|fuel]; [lia|]. cbn [parse_loop fst rtext rpos].
      assert (L1 : (length lits < S (length T))%nat).
      { assert (X := text_of_length lits HF). assert (Y := f_equal (@length Z) HS). rewrite skipn_length, app_length in Y. lia. }
      assert (HSX : skipn n T = text_of lits ++ 123 :: c :: l) by (rewrite HS, EO; reflexivity).
      assert (X := parse_text_pemits vt R cap amax room HL lits (S (length T)) T n n [] (123 :: c :: l) HF HSX ltac:(right; eauto) (Nat.le_refl _) HLn ltac:(now rewrite Nat.sub_diag) L1).
      assert (LN : (n < p)%nat) by (unfold p; lia).
      destruct (HW K vt R cap amax room HL fuel ltac:(lia)) as (r' & HW').
      exists r'. eapply pemits_bind; [exact X|]. cbn beta. cbn [negb fst snd].
      assert (HP0 : skipn (n + length (text_of lits) + 1) T = index ++ colon_text colon ++ (if colon then (if colon then sp ++ rest else rest) else 125 :: (if colon then sp ++ rest else rest))).
      { rewrite Nat.add_1_r, (skip_succ _ T 123 (index ++ colon_text colon ++ sp ++ rest)) by apply (skip_part _ _ _ _ HS). f_equal. f_equal. destruct colon; [reflexivity|]. now rewrite HC by reflexivity. }
      assert (KB : (k < length (map fst args))%nat) by (apply nth_error_Some; congruence).
      assert (HI2 : (inc <= 254)%nat) by lia. assert (HK2 : Z.of_nat k <= 255) by lia.
      eapply pemits_ext; [|exact HW']. intros b. rewrite (parse_field_fwd T _ use inc (Z.of_nat k) use' inc' index colon _ HB HI2 HP0 HP HK2). cbn [on_reader sbind]. change no_more_args with 255. replace (Z.of_nat k =? 255) with false by lia.
      rewrite Nat2Z.id, nth_error_map, HNA. cbn [option_map fst snd]. fold p. 
      unfold erase at 1. destruct tv as [t' v]. cbn [fst snd] in *. subst t'. unfold parse_fmtr. rewrite HPW. cbn [on_reader sbind fst snd]. reflexivity. }
    destruct (HAW sp m) as [(ops1 & HW1 & HS1 & HG1)|(HO1 & ops1 & HW1 & HG1)]; [intros g; exact (Forall_inv (HG g))|rewrite HTV; exact HFm| |].
    + destruct (IH (fun g => Forall_inv_tail (HG g)) HI' LP2) as (ops2 & o & HG2 & HW2 & HF2). exists (text_ops [] lits ++ ops1 ++ ops2), o.
      split; [intros g; rewrite !atoms_within_app; split; [apply atoms_text|]; auto|]. split.
      * apply STEP. intros K vt R cap amax room HL fuel HFu. destruct (HW2 K vt R cap amax room HL fuel HFu) as (r' & HW2'). exists r'.
        eapply pemits_bind; [|exact HW2']. apply pemits_buffer, (HW1 K vt R cap amax room HL).
      * destruct HF2 as [(-> & HF2)|(-> & HO2)]; [left|right]; (split; [reflexivity|]).
        -- rewrite !ops_data_app, text_ops_data by exact HF. cbn [app]. apply formats_plain; [exact HF|]. constructor; [|exact HF2]. exists tv. auto.
        -- destruct HO2 as [HO2|HO2]; [left; now right|now right].
    + exists (text_ops [] lits ++ ops1), (Err invalid_format). split; [intros g; apply atoms_within_app; split; [apply atoms_text|auto]|]. split.
      * apply STEP. intros K vt R cap amax room HL fuel HFu. eexists. apply pemits_bind_err, pemits_buffer, (HW1 K vt R cap amax room HL).
      * right. split; [reflexivity|]. destruct HO1 as [HO1|HO1]; [left; now left|right]. apply Exists_exists. exists tv. split; [eapply nth_error_In; eauto|exact HO1].
Qed.

Lemma text_octal its e : Exists octal_spec (field_specs its) -> upper_octal (text_of its ++ e).
Proof.
  intros H. apply Exists_exists in H. destruct H as (sp & HI & x & ->). unfold field_specs in HI. apply in_flat_map in HI. destruct HI as (i & HI & HX). destruct i as [| |index colon sp]; try contradiction.
  destruct HX as [->|[]]. apply in_split in HI. destruct HI as (a & b & ->). rewrite text_of_app.
  exists (text_of a ++ [123] ++ index ++ (if colon then [58] else []) ++ x), (text_of b ++ e). cbn [text_of flat_map item_text app]. fold (text_of b). rewrite <- !app_assoc. cbn [app]. rewrite <- !app_assoc. reflexivity.
Qed.

Lemma vstr_cases s tys v : vstr_from s tys = Ok v -> vs_str v = Ok s ->
  (v = mk_vstr true (Ok s) /\ tys = [] /\ check_if_plain_string s = true) \/ (v = mk_vstr false (Ok s) /\ validate_string s tys = Ok true).
Proof.
  unfold vstr_from. destruct ((length tys =? 0)%nat && check_if_plain_string s) eqn:E.
  - intros [= <-] _. left. destruct tys; [|discriminate]. split; [reflexivity|]. split; [reflexivity|exact E].
  - destruct (validate_string s tys) as [[]| | |]; try discriminate; intros [= <-] H; [|discriminate]. right. auto.
Qed.

(** A plain string consists of literals; no other reading is possible. *)
Lemma plain_only its ns e s : check_if_plain_string s = true -> pacc [] s 0 None 0 its ns e -> ns = [] /\ e = [] /\ flat_map item_char its = s.
Proof.
  intros HP HA. assert (NB : forall c, In c s -> c <> 123 /\ c <> 125).
  { intros c HI. unfold check_if_plain_string in HP. apply negb_true_iff in HP. rewrite <- not_true_iff_false, existsb_exists in HP. split; intros ->; apply HP; (eexists; split; [exact HI|reflexivity]). }
  inversion HA as [? ? ? ? ? HF HS HE|? ? ? lits index colon sp rest its' k ns' ? use' inc' t p q HF HS HC HPk HK HN]; subst.
  - cbn [skipn] in HS. assert (e = []) as ->.
    { destruct HE as [HE|(_ & index & c & r & -> & _)]; [exact HE|]. destruct (NB 123); [|congruence]. rewrite HS. apply in_or_app. right. now left. }
    split; [reflexivity|]. split; [reflexivity|]. rewrite app_nil_r in HS. subst s. clear HA HE HP. induction HF as [|i its Hi HF IH]; [reflexivity|].
    destruct i as [c|c|]; [| |contradiction].
    + cbn. f_equal. apply IH. intros c' HI. apply NB. cbn. now right.
    + exfalso. cbn in Hi. destruct (NB c) as [N1 N2]; [now left|]. destruct Hi; contradiction.
  - destruct k; discriminate.
Qed.

Theorem string_walks Q args s v : Forall is_byte s -> vstr_from s (map fst args) = Ok v -> vs_str v = Ok s -> Forall (arg_writes Q) args ->
  forall its ns e, pacc (map fst args) s 0 None 0 its ns e -> (G -> Forall short_precisions (field_specs its)) ->
  attempt (fun K vt b => vformat_erased vt b v (map (erase vt) args)) (formats (fields_by Q args) its ns) (Exists octal_spec (field_specs its) \/ Exists (fun tv => octal_in (snd tv)) args).
Proof.
  intros HB HV HVS HArgs its ns e HA HG. destruct (vstr_cases _ _ _ HV HVS) as [(-> & ET & HP)|(-> & HVal)].
  - rewrite ET in HA. destruct (plain_only its ns e s HP HA) as (-> & -> & HTx). left. exists [Chunk s]. split.
    + intros K vt R cap amax room HL. apply (write_str_emits vt R cap amax room (lawful_chunky _ _ _ _ _ HL)).
    + split; [|intros _; repeat constructor]. cbn [ops_data flat_map op_data]. rewrite app_nil_r, <- HTx. inversion HA as [? ? ? ? ? HF HS HE|]; subst. rewrite <- (app_nil_r (flat_map item_char its)), <- (app_nil_r its) at 1.
      apply formats_plain; [exact HF|constructor].
  - destruct (loop_writes Q args s HB HArgs 0 None 0 its ns e HA HG (Nat.le_0_l _) (Nat.le_0_l _)) as (ops & o & HGo & HW & HF).
    assert (W : forall K vt R cap amax room, lawful (K := K) vt R cap amax room -> emits R cap amax room (fun b => vformat_erased vt b (mk_vstr false (Ok s)) (map (erase vt) args)) ops o).
    { intros K vt R cap amax room HL w b HR HOb. destruct (HW K vt R cap amax room HL (S (length s)) ltac:(lia)) as (r' & HPm).
      destruct (HPm w b HR HOb) as (r & b' & HR' & E & _). exists b'. split; [exact HR'|]. unfold vformat_erased, parse_format. cbn [vs_str vs_plain].
      change (mk_reader s 0) with (reader_of s) in E. change (Z.of_nat 0) with 0 in E. rewrite E. reflexivity. }
    destruct HF as [(-> & HF)|(-> & HF)]; [left; exists ops; split; [exact W|split; [exact HF|exact HGo]]|right].
    split; [exact HF|exists ops; split; [exact W|exact HGo]].
Qed.

Theorem string_writes Q args s v : Forall is_byte s -> vstr_from s (map fst args) = Ok v -> vs_str v = Ok s -> Forall (arg_writes Q) args ->
  forall its ns e, acc (map fst args) s 0 None 0 its ns e -> (G -> Forall short_precisions (field_specs its)) ->
  attempt (fun K vt b => vformat_erased vt b v (map (erase vt) args)) (formats (fields_by Q args) its ns) (Exists octal_spec (field_specs its) \/ Exists (fun tv => octal_in (snd tv)) args).
Proof. intros HB HV HVS HArgs its ns e HA HG. exact (string_walks Q args s v HB HV HVS HArgs its ns e (acc_pacc _ _ _ _ _ _ _ _ HA) HG). Qed.

(** ** Values *)
Lemma Forall2_len {A B} (P : A -> B -> Prop) l1 l2 : Forall2 P l1 l2 -> length l1 = length l2.
Proof. induction 1; cbn; congruence. Qed.
Lemma octal_elements sp n e : range_spec sp n e -> octal_spec (element_spec e) -> octal_spec sp.
Proof.
  intros -> (x & E). destruct e as [e|]; cbn [element_spec] in E.
  - subst e. exists ((if n then [110] else []) ++ 58 :: x). now rewrite <- app_assoc.
  - apply (f_equal (@length Z)) in E. rewrite app_length in E. cbn in E. lia.
Qed.
Lemma dyn_ok_none t bs d : dyn_ok (mk_style d spec_not_defined spec_not_defined bs) t.
Proof. unfold dyn_ok. cbn. unfold in_range, spec_not_defined, imin, imax. cbn. split; [lia|]. split; [lia|]. intros _. lia. Qed.
Lemma brace_parse t : exists m, parse_fmtr (new_formatter t) (reader_of (str "}")) = (Ok m, mk_reader [125] 1) /\ fmtr_for false (default_brackets t) t [125] m.
Proof.
  assert (HT : tuple_at t [125] 0) by (right; exists []; split; [reflexivity|tauto]).
  assert (HB : Forall is_byte [125]) by (repeat constructor; unfold is_byte; lia).
  assert (HV := brace_ok t [125] 0 [] HB eq_refl HT). destruct (validate_fty_sound t _ _ _ HB HT HV) as (sp & rest & H1 & H2 & H3 & H4).
  injection H3 as H3. assert (sp = [125]) as ->.
  { cbn [skipn] in H1. destruct sp as [|c [|]]; cbn in H3; try discriminate. cbn in H1. now injection H1 as <- _. }
  destruct (H4 None (default_brackets t)) as (m & HP & HM); [discriminate|]. exists m. rewrite fresh_default in HP. auto.
Qed.

Lemma text_short its e : short_precisions (text_of its ++ e) -> Forall short_precisions (field_specs its).
Proof.
  intros H. apply Forall_forall. intros sp HI. unfold field_specs in HI. apply in_flat_map in HI. destruct HI as (i & HI & HX). destruct i as [| |index colon sp']; try contradiction.
  destruct HX as [->|[]]. apply in_split in HI. destruct HI as (a & b & ->). rewrite text_of_app in H.
  apply (short_infix (text_of a ++ [123] ++ index ++ (if colon then [58] else [])) sp (text_of b ++ e)).
  cbn [text_of flat_map item_text app] in H. fold (text_of b) in H. rewrite <- !app_assoc in *. cbn [app] in *. rewrite <- !app_assoc in H. exact H.
Qed.

Lemma writes_attempt m ops (F : Prop) : writes m ops -> atoms_within 128 ops -> attempt m (eq (ops_data ops)) F.
Proof. intros H HG. left. exists ops. auto. Qed.
Lemma attempt_str s (F : Prop) : attempt (fun K vt b => write_str vt b s) (eq s) F.
Proof.
  left. exists [Chunk s]. split; [|split; [cbn; now rewrite app_nil_r|intros _; repeat constructor]].
  intros K vt R cap amax room HL. apply (write_str_emits vt R cap amax room (lawful_chunky _ _ _ _ _ HL)).
Qed.
Lemma attempt_char c (F : Prop) : attempt (fun K vt b => write_char vt b c) (eq [c]) F.
Proof. apply (writes_attempt _ [Atom [c]]); [|repeat constructor; cbn; lia]. intros K vt R cap amax room HL. apply (write_char_emits vt R cap amax room HL). Qed.
Lemma attempt_ret (F : Prop) : attempt (fun K vt b => (Ok tt, b)) (eq []) F.
Proof. apply (writes_attempt _ []); [|constructor]. intros K vt R cap amax room HL. apply emits_ret. Qed.
Lemma attempt_ext m m' Q F : (forall K vt b, m K vt b = m' K vt b) -> attempt m' Q F -> attempt m Q F.
Proof.
  intros E [(ops & H & HQ)|(HF & ops & H & HQ)]; [left|right; split; [exact HF|]]; exists ops; (split; [|exact HQ]);
    (intros K vt R cap amax room HL; eapply emits_ext; [intros b; apply E|now apply H]).
Qed.
Lemma attempt_weaken m (Q Q' : list Z -> Prop) (F F' : Prop) : attempt m Q F -> (forall d, Q d -> Q' d) -> (F -> F') -> attempt m Q' F'.
Proof. intros [(ops & H & HQ & HG)|(HF & ops & H & HG)] HQ' HF'; [left|right]; eauto 6. Qed.
Lemma attempt_bind m1 m2 Q1 Q2 F (Q : list Z -> Prop) : attempt m1 Q1 F -> attempt m2 Q2 F -> (forall d1 d2, Q1 d1 -> Q2 d2 -> Q (d1 ++ d2)) ->
  attempt (fun K vt b => sdo (_, b) <- m1 K vt b ;; m2 K vt b) Q F.
Proof.
  intros [(ops1 & H1 & HQ1 & HG1)|(HF & ops1 & H1 & HG1)] H2 HQ.
  - destruct H2 as [(ops2 & H2 & HQ2 & HG2)|(HF & ops2 & H2 & HG2)]; [left|right; split; [exact HF|]]; exists (ops1 ++ ops2).
    + split; [|split; [rewrite ops_data_app; auto|intros g; apply atoms_within_app; auto]]. intros K vt R cap amax room HL. apply (emits_bind R cap amax room (m1 K vt) (fun _ => m2 K vt) ops1 ops2 tt (Ok tt)); auto.
    + split; [|intros g; apply atoms_within_app; auto]. intros K vt R cap amax room HL. apply (emits_bind R cap amax room (m1 K vt) (fun _ => m2 K vt) ops1 ops2 tt (Err invalid_format)); auto.
  - right. split; [exact HF|]. exists ops1. split; [|exact HG1]. intros K vt R cap amax room HL. apply (emits_bind_err R cap amax room (m1 K vt) (fun _ => m2 K vt)). auto.
Qed.

Definition joined (sep : list Z) (first : bool) (outs : list (list Z)) : list Z := (if first then [] else match outs with [] => [] | _ => sep end) ++ join sep outs.
Lemma joined_cons sep (first : bool) o outs : (if first then [] else sep) ++ o ++ joined sep false outs = joined sep first (o :: outs).
Proof. unfold joined. destruct first; cbn [app join]; destruct outs; cbn [join app]; rewrite ?app_nil_r; reflexivity. Qed.
Lemma elements_write sep m vs (S : fval -> list Z -> Prop) F : Forall (fun v => attempt (fun K vt b => format_fval vt m v b) (S v) F) vs ->
  forall first : bool, attempt (fun K vt b => format_elements vt (format_fval vt) first sep m vs b) (fun d => exists outs, Forall2 S vs outs /\ d = joined sep first outs) F.
Proof.
  induction 1 as [|v vs H1 HF IH]; intros first.
  - eapply attempt_weaken; [apply attempt_ret| |exact (fun x => x)]. intros d <-. exists []. split; [constructor|]. now destruct first.
  - cbn [format_elements]. eapply (attempt_bind (fun K vt b => if first then (Ok tt, b) else write_str vt b sep) (fun K vt b => sdo (_, b) <- format_fval vt m v b ;; format_elements vt (format_fval vt) false sep m vs b)
      (eq (if first then [] else sep)) (fun d => exists o outs, S v o /\ Forall2 S vs outs /\ d = o ++ joined sep false outs)).
    + destruct first; [apply attempt_ret|apply attempt_str].
    + eapply (attempt_bind (fun K vt b => format_fval vt m v b) (fun K vt b => format_elements vt (format_fval vt) false sep m vs b)); [exact H1|apply (IH false)|].
      intros d1 d2 HS (outs & HO & ->). exists d1, outs. auto.
    + intros d1 d2 <- (o & outs & HS & HO & ->). exists (o :: outs). split; [constructor; assumption|]. apply joined_cons.
Qed.
Lemma for_each_write sep (S : fty -> fval -> list Z -> Prop) F ts ms vs : length ts = length ms -> length ts = length vs ->
  (forall i t m v, nth_error ts i = Some t -> nth_error ms i = Some m -> nth_error vs i = Some v -> attempt (fun K vt b => format_fval vt m v b) (S t v) F) ->
  forall first : bool, attempt (fun K vt b => format_for_each vt (format_fval vt) first sep ms vs b) (fun d => exists outs, Forall2 (fun tv => S (fst tv) (snd tv)) (combine ts vs) outs /\ d = joined sep first outs) F.
Proof.
  revert ms vs. induction ts as [|t ts IH]; intros [|m ms] [|v vs] L1 L2 H first; try discriminate.
  - eapply attempt_weaken; [apply attempt_ret| |exact (fun x => x)]. intros d <-. exists []. split; [constructor|]. now destruct first.
  - cbn [format_for_each]. eapply (attempt_bind (fun K vt b => if first then (Ok tt, b) else write_str vt b sep) (fun K vt b => sdo (_, b) <- format_fval vt m v b ;; format_for_each vt (format_fval vt) false sep ms vs b)
      (eq (if first then [] else sep)) (fun d => exists o outs, S t v o /\ Forall2 (fun tv => S (fst tv) (snd tv)) (combine ts vs) outs /\ d = o ++ joined sep false outs)).
    + destruct first; [apply attempt_ret|apply attempt_str].
    + eapply (attempt_bind (fun K vt b => format_fval vt m v b) (fun K vt b => format_for_each vt (format_fval vt) false sep ms vs b)); [exact (H 0%nat t m v eq_refl eq_refl eq_refl)| |].
      * apply (IH ms vs ltac:(cbn in L1; lia) ltac:(cbn in L2; lia) (fun i => H (Datatypes.S i)) false).
      * intros d1 d2 HS (outs & HO & ->). exists d1, outs. auto.
    + intros d1 d2 <- (o & outs & HS & HO & ->). exists (o :: outs). split; [constructor; assumption|]. apply joined_cons.
Qed.

Definition value_writes (v : fval) : Prop := forall st t sp m, (G -> short_value v /\ short_precisions sp /\ st_precision st <= 100) -> has_type t v -> dyn_ok st t -> fmtr_for (st_debug st) (st_brackets st) t sp m ->
  attempt (fun K vt b => format_fval vt (overwrite_spec m (st_width st) (st_precision st)) v b) (shows st t sp v) (octal_spec sp \/ octal_in v).

Lemma plain_writes v t sp m : value_writes v -> (G -> short_value v /\ short_precisions sp) -> has_type t v -> fmtr_for false (default_brackets t) t sp m ->
  attempt (fun K vt b => format_fval vt m v b) (shows (plain_style t) t sp v) (octal_spec sp \/ octal_in v).
Proof.
  intros H HG HT HF. assert (HG' : G -> short_value v /\ short_precisions sp /\ st_precision (plain_style t) <= 100).
  { intros g. destruct (HG g). split; [assumption|]. split; [assumption|]. cbn. unfold spec_not_defined. cbn. lia. }
  assert (X := H (plain_style t) t sp m HG' HT (dyn_ok_none _ _ _) HF). cbn [plain_style st_width st_precision] in X.
  eapply attempt_ext; [|exact X]. intros K vt b. cbn beta. now rewrite overwrite_nothing.
Qed.

Lemma accepted_acc s tys v : Forall is_byte s -> vstr_from s tys = Ok v -> vs_str v = Ok s -> Forall tuple_free tys -> exists its ns e, acc tys s 0 None 0 its ns e.
Proof. intros HB HV HS HT. destruct (accepted_sound s tys HB HT) as (its & ns & e & H & _); [exists v; auto|]. eauto. Qed.

Lemma enclose_specs n bs outs : enclose n bs outs = rs_open (as_specs n bs) ++ join (rs_sep (as_specs n bs)) outs ++ rs_close (as_specs n bs).
Proof. destruct bs as [[o c] s]. now destruct n. Qed.

(** [octal_in] as predicates on lists. *)
Lemma octal_range vs v : In v vs -> octal_in v -> octal_in (VRange vs).
Proof. cbn [octal_in]. induction vs as [|v' vs IH]; [contradiction|]. intros [->|HI] H; [now left|right; now apply IH]. Qed.
Lemma octal_tuple vs v : In v vs -> octal_in v -> octal_in (VTuple vs).
Proof. apply octal_range. Qed.
Lemma octal_args s args : Exists (fun tv : fty * fval => octal_in (snd tv)) args -> octal_in (VArgs s args).
Proof. intros H. cbn [octal_in]. right. induction H; [now left|now right]. Qed.

Lemma short_range vs : short_value (VRange vs) <-> Forall short_value vs.
Proof.
  cbn [short_value]. induction vs as [|v vs IH]; [split; [constructor|easy]|]. rewrite IH. split; [intros [H1 H2]; now constructor|intros H; inversion H; auto].
Qed.
Lemma short_tuple vs : short_value (VTuple vs) <-> Forall short_value vs.
Proof. apply short_range. Qed.
Lemma short_args s args : short_value (VArgs s args) <-> (forall text, vs_str s = Ok text -> short_precisions text) /\ Forall (fun tv : fty * fval => short_value (snd tv)) args.
Proof.
  cbn [short_value]. enough (X : (fix all (args : list (fty * fval)) : Prop := match args with [] => True | tv :: args => short_value (snd tv) /\ all args end) args <->
    Forall (fun tv : fty * fval => short_value (snd tv)) args) by (rewrite X; reflexivity).
  induction args as [|v vs IH]; [split; [constructor|easy]|]. rewrite IH. split; [intros [H1 H2]; now constructor|intros H; inversion H; auto].
Qed.

Theorem all_values_write v : value_writes v.
Proof.
  induction v as [a| | |v IH| |t' v IH|vs IH|vs IH|w p v IH|s args IH] using fval_ind'; intros st t sp m HG HT HD HF.
  - inversion HT; subst. eapply attempt_weaken; [apply core_writes; eassumption|auto|auto].
  - inversion HT; subst. cbn [fmtr_for] in HF. subst m. eapply attempt_weaken; [apply (attempt_str (str "monostate"))| |exact (fun x => x)]. intros d <-. constructor.
  - inversion HT; subst. destruct HF as (m' & -> & _). eapply attempt_weaken; [apply (attempt_str (str "none"))| |exact (fun x => x)]. intros d <-. constructor.
  - inversion HT as [| | |t0 v0 HTv| | | | | |]; subst. destruct HF as (m' & -> & HF). assert (X := plain_writes v _ sp m' IH (fun g => let '(conj a (conj b _)) := HG g in conj a b) HTv HF).
    eapply (attempt_bind (fun K vt b => write_str vt b (str "optional(")) (fun K vt b => sdo (_, b) <- format_fval vt m' v b ;; write_char vt b 41) _ (fun d => exists d', shows (plain_style t0) t0 sp v d' /\ d = d' ++ [41])); [apply attempt_str| |].
    + eapply (attempt_bind (fun K vt b => format_fval vt m' v b) (fun K vt b => write_char vt b 41)); [exact X|apply attempt_char|].
      intros d1 d2 H1 <-. eauto.
    + intros d1 d2 <- (d & HS & ->). now apply shows_some.
  - inversion HT; subst. cbn [fmtr_for] in HF. subst m.
    eapply (attempt_bind (fun K vt b => write_str vt b (str "variant(")) (fun K vt b => sdo (_, b) <- write_str vt b (str "valueless by exception") ;; write_char vt b 41) _ (eq (str "valueless by exception" ++ [41]))); [apply attempt_str| |].
    + eapply (attempt_bind (fun K vt b => write_str vt b _) (fun K vt b => write_char vt b 41)); [apply attempt_str|apply attempt_char|]. intros d1 d2 <- <-. reflexivity.
    + intros d1 d2 <- <-. constructor.
  - inversion HT as [| | | | |t0 v0 HTv| | | |]; subst. cbn [fmtr_for] in HF. subst m.
    set (Q := fun d => shows st FVariant sp (VVariant (Some (t', v))) (str "variant(" ++ d ++ str ")")).
    assert (X : attempt (fun K vt b => match v with
        | VCore (AChar c) => write_char_escaped vt b c
        | VCore (AStr s) => write_str_escaped vt b s
        | _ => match parse_fmtr (new_formatter t') (reader_of (str "}")) with
               | (Ok m, _) => format_fval vt m v b
               | (Err e, _) => (Err e, b)
               | (Undef, _) => (Undef, b)
               | (Abort, _) => (Abort, b)
               end end) Q (octal_spec sp \/ octal_in (VVariant (Some (t', v))))).
    { assert (D : (forall c, v <> VCore (AChar c)) -> (forall s, v <> VCore (AStr s)) ->
        attempt (fun K vt b => match parse_fmtr (new_formatter t') (reader_of (str "}")) with
               | (Ok m, _) => format_fval vt m v b
               | (Err e, _) => (Err e, b)
               | (Undef, _) => (Undef, b)
               | (Abort, _) => (Abort, b)
               end) Q (octal_spec sp \/ octal_in (VVariant (Some (t', v))))).
      { intros N1 N2. destruct (brace_parse t') as (m & HP & HM). assert (X := plain_writes v t' [125] m IH (fun g => conj (proj1 (HG g)) short_brace) HTv HM).
        eapply attempt_ext; [|eapply attempt_weaken; [exact X| |]].
        - intros K vt b. cbn beta. now rewrite HP.
        - intros d Hd. now apply shows_variant.
        - intros [(x & E)|H]; [|now right]. apply (f_equal (@length Z)) in E. rewrite app_length in E. cbn in E. lia. }
      destruct v as [[b'|c|ti vi|bits|pp|tx]| | | | | | |]; try (apply D; discriminate).
      - inversion HTv as [a HA HFt| | | | | | | | |]; subst. left. exists [Chunk (39 :: escape c ++ [39])]. split; [|split; [unfold Q; cbn [ops_data flat_map op_data]; rewrite app_nil_r; apply shows_variant_char|intros _; repeat constructor]].
        intros K vt R cap amax room HL. apply (write_char_escaped_emits vt R cap amax room (lawful_chunky _ _ _ _ _ HL)). exact HA.
      - inversion HTv as [a HA HFt| | | | | | | | |]; subst. left. exists [Chunk (34 :: escape_text tx ++ [34])]. split; [|split; [unfold Q; cbn [ops_data flat_map op_data]; rewrite app_nil_r; apply shows_variant_text|intros _; repeat constructor]].
        intros K vt R cap amax room HL. apply (write_str_escaped_emits vt R cap amax room (lawful_chunky _ _ _ _ _ HL)). exact HA. }
    eapply (attempt_bind (fun K vt b => write_str vt b (str "variant(")) (fun K vt b => sdo (_, b) <- _ ;; write_char vt b 41) _ (fun d => exists d', Q d' /\ d = d' ++ [41])); [apply attempt_str| |].
    + eapply (attempt_bind _ (fun K vt b => write_char vt b 41)); [exact X|apply attempt_char|]. intros d1 d2 H1 <-. eauto.
    + intros d1 d2 <- (d & HQ & ->). exact HQ.
  - inversion HT as [| | | | | |k t0 vs0 HTs| | |]; subst. destruct HF as (n & e & m' & HRS & -> & HF). cbn [overwrite_spec].
    set (st' := element_style st (no_spec e) (element_brackets k t0)).
    assert (X : Forall (fun v => attempt (fun K vt b => format_fval vt (overwrite_spec m' (st_width st) (st_precision st)) v b) (shows st' t0 (element_spec e) v) (octal_spec sp \/ octal_in (VRange vs))) vs).
    { apply Forall_forall. intros v HI. rewrite Forall_forall in IH, HTs. eapply attempt_weaken; [apply (IH v HI st' t0 (element_spec e) m'); auto|auto|].
      { intros g. destruct (HG g) as (G1 & G2 & G3). apply short_range in G1. rewrite Forall_forall in G1. split; [now apply G1|]. split; [eapply short_element; eauto|exact G3]. }
      intros [H|H]; [left; eapply octal_elements; eauto|right; eapply octal_range; eauto]. }
    assert (Y := elements_write (rs_sep (as_specs n (st_brackets st))) _ vs _ _ X true).
    eapply (attempt_bind (fun K vt b => write_str vt b _) (fun K vt b => sdo (_, b) <- _ ;; write_str vt b _) _ (fun d => exists outs, Forall2 (shows st' t0 (element_spec e)) vs outs /\ d = join (rs_sep (as_specs n (st_brackets st))) outs ++ rs_close (as_specs n (st_brackets st)))); [apply attempt_str| |].
    + eapply (attempt_bind _ (fun K vt b => write_str vt b _)); [exact Y|apply attempt_str|]. intros d1 d2 (outs & HO & ->) <-. exists outs. auto.
    + intros d1 d2 <- (outs & HO & ->). rewrite <- enclose_specs. now apply (shows_range st k t0 sp n e vs outs).
  - inversion HT as [| | | | | | |ts0 vs0 HTs| |]; subst. apply fmtr_for_tuple in HF. destruct HF as (n & e & ms & HRS & -> & HF). cbn [overwrite_spec].
    set (S := fun t v out => shows (mk_style (no_spec e) spec_not_defined spec_not_defined (default_brackets t)) t (element_spec e) v out).
    assert (L1 := Forall2_len _ _ _ HF). assert (L2 := Forall2_len _ _ _ HTs).
    assert (Y : forall first : bool, attempt (fun K vt b => format_for_each vt (format_fval vt) first (rs_sep (as_specs n (st_brackets st))) ms vs b) (fun d => exists outs, Forall2 (fun tv => S (fst tv) (snd tv)) (combine ts0 vs) outs /\ d = joined (rs_sep (as_specs n (st_brackets st))) first outs) (octal_spec sp \/ octal_in (VTuple vs))).
    { apply for_each_write; [exact L1|exact L2|]. intros i t m v E1 E2 E3. assert (HTv : has_type t v).
      { clear -HTs E1 E3. revert i E1 E3. induction HTs; intros [|i] E1 E3; cbn in *; try discriminate; [injection E1 as <-; injection E3 as <-; assumption|eauto]. }
      assert (HMt : fmtr_for (no_spec e) (default_brackets t) t (element_spec e) m).
      { clear -HF E1 E2. unfold fmtrs_for in HF. revert i E1 E2. induction HF; intros [|i] E1 E2; cbn in *; try discriminate; [injection E1 as <-; injection E2 as <-; assumption|eauto]. }
      assert (HGv : G -> short_value v /\ short_precisions (element_spec e) /\ spec_not_defined <= 100).
      { intros g. destruct (HG g) as (G1 & G2 & _). apply short_tuple in G1. rewrite Forall_forall in G1. split; [apply G1; eapply nth_error_In; eauto|]. split; [eapply short_element; eauto|unfold spec_not_defined; cbn; lia]. }
      rewrite Forall_forall in IH. assert (X := IH v (nth_error_In _ _ E3) (mk_style (no_spec e) spec_not_defined spec_not_defined (default_brackets t)) t (element_spec e) m HGv HTv (dyn_ok_none _ _ _) HMt).
      cbn [st_width st_precision] in X. eapply attempt_ext; [|eapply attempt_weaken; [exact X|auto|]].
      - intros K vt b. cbn beta. now rewrite overwrite_nothing.
      - intros [H|H]; [left; eapply octal_elements; eauto|right; eapply octal_tuple; eauto; eapply nth_error_In; eauto]. }
    eapply (attempt_bind (fun K vt b => write_str vt b _) (fun K vt b => sdo (_, b) <- _ ;; write_str vt b _) _ (fun d => exists outs, Forall2 (fun tv => S (fst tv) (snd tv)) (combine ts0 vs) outs /\ d = join (rs_sep (as_specs n (st_brackets st))) outs ++ rs_close (as_specs n (st_brackets st)))); [apply attempt_str| |].
    + eapply (attempt_bind _ (fun K vt b => write_str vt b _)); [exact (Y true)|apply attempt_str|]. intros d1 d2 (outs & HO & ->) <-. exists outs. auto.
    + intros d1 d2 <- (outs & HO & ->). rewrite <- enclose_specs. now apply (shows_tuple st ts0 sp n e vs outs).
  - inversion HT as [| | | | | | | |t0 w0 p0 v0 HW HP HPr HTv|]; subst. destruct HF as (m' & -> & HF). cbn [overwrite_spec].
    eapply attempt_weaken; [apply (IH (mk_style false w p (default_brackets t0)) t0 sp m' (fun g => let '(conj (conj a b) (conj c _)) := HG g in conj b (conj c a)) HTv); [split; [exact HW|split; [exact HP|exact HPr]]|exact HF]| |].
    + intros d Hd. now apply shows_dyn.
    + auto.
  - inversion HT as [| | | | | | | | |s0 text args0 HB HV HVS HTF HTs]; subst. cbn [fmtr_for] in HF. subst m. cbn [overwrite_spec].
    destruct (accepted_acc text _ s HB HV HVS HTF) as (its & ns & e & HA). destruct (acc_good _ _ _ _ _ HA) as (HTx & HGd).
    assert (X : Forall (arg_writes (fun tv sp => shows (plain_style (fst tv)) (fst tv) sp (snd tv))) args).
    { apply Forall_forall. intros tv HI. rewrite Forall_forall in IH, HTs. intros sp' m' HG' HF'. apply plain_writes; auto.
      intros g. split; [|now apply HG']. destruct (HG g) as (G1 & _). apply short_args in G1. destruct G1 as [_ G1]. rewrite Forall_forall in G1. now apply G1. }
    assert (HGs : G -> Forall short_precisions (field_specs its)).
    { intros g. destruct (HG g) as (G1 & _). apply short_args in G1. apply (text_short its e). rewrite <- HTx. now apply G1. }
    eapply attempt_weaken; [exact (string_writes _ args text s HB HV HVS X its ns e HA HGs)| |].
    + intros d Hd. apply (shows_args st sp s args its ns e); [now rewrite HVS, HTx| |exact HGd|exact Hd].
      destruct (acc_cut _ _ _ _ _ _ _ _ HA) as [E|(E & _)]; auto.
    + intros [H|H]; right; [left|now apply octal_args]. exists text. split; [exact HVS|]. rewrite HTx. now apply text_octal.
Qed.
End Guarantee.
