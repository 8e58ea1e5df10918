(** Properties C21, C22, C23, C24, C45, C46, C47: format strings. *)
From Verif Require Import Base Conversion Reader Buffer Writer Bitset Specs FormatArg FloatArg Format.
From Verif Require Import Lib SpecNum SpecReader SpecEscape SpecWriter SpecFloat SpecFormat SpecDecimal SpecField SpecSpecs SpecString.
From Verif Require Import ConversionProofs ReaderProofs SpecsProofs BufferProofs Emits WriterProofs CallProofs FieldProofs PropsWriter PropsField StringProofs StringLoop StringEmits StringTop StringTuples StringUnique SpecString.

(** The string is accepted for the arguments, and formatting it into any
    memory_buffer succeeds and appends [out]. *)
Definition formatted (s : list Z) (args : list (fty * fval)) (out : list Z) : Prop :=
  exists v, vstr_from s (map fst args) = Ok v /\ vs_str v = Ok s /\ prints (fun b => vformat_to mem_vt b v args) out.

Definition run (s : list Z) (args : list (fty * fval)) : outcome (outcome unit * list Z) :=
  match vstr_from s (map fst args) with
  | Ok v => match vs_str v with
            | Ok _ => let (o, b) := vformat_to mem_vt (memory_buffer 4 4) v args in Ok (o, mem_view b)
            | Err e => Err e | Undef => Undef | Abort => Abort
            end
  | Err e => Err e | Undef => Undef | Abort => Abort
  end.
Lemma run_formatted s args out : formatted s args out -> run s args = Ok (Ok tt, out).
Proof.
  intros (v & HV & HS & HP). unfold run. rewrite HV, HS. destruct (HP 4%nat 4%nat [] ltac:(constructor)) as (b' & E & HVw). cbn [mem_after fold_left] in *.
  change (mem_after 4 4 []) with (memory_buffer 4 4) in *. rewrite E, HVw. reflexivity.
Qed.
Lemma attempt_prints m (Q : list Z -> Prop) (F : Prop) : attempt False m Q F -> ~ F -> exists out, Q out /\ prints (m mem_k mem_vt) out.
Proof.
  intros [(ops & H & HQ & _)|(HF & _)] HN; [|contradiction]. exists (ops_data ops). split; [exact HQ|]. apply prints_of_emits. apply (H _ mem_vt mem_R None None None mem_lawful).
Qed.

Definition int_t := FCore (TInt i32).
Definition int_v n := VCore (AInt i32 n).
Definition str_t := FCore TStr.
Definition str_v s := VCore (AStr s).
Lemma forall_byteb l : forallb (fun c => (0 <=? c) && (c <? 256)) l = true -> Forall is_byte l.
Proof. intros H. apply Forall_forall. intros c HI. rewrite forallb_forall in H. specialize (H c HI). unfold is_byte. lia. Qed.
Lemma digits_by t : negb (length t =? 0)%nat && forallb (fun c => (48 <=? c) && (c <=? 57)) t = true -> digits_text t.
Proof.
  intros H. apply andb_true_iff in H. destruct H as [H1 H2]. split; [intros ->; discriminate|]. apply Forall_forall. intros c HI. rewrite forallb_forall in H2. specialize (H2 c HI). lia.
Qed.
Ltac digs := apply digits_by; reflexivity.
Ltac bytes := apply forall_byteb; vm_compute; reflexivity.

(** ** C21 Accepted format strings *)
Theorem C21_accepted_partial : forall s tys,
  Forall is_byte s -> Forall tuple_free tys -> accepted s tys -> well_formed s tys \/ cut_short s tys.
Proof.
  intros s tys HB HT HA. destruct (accepted_sound s tys HB HT HA) as (its & ns & e & HAc & _ & HC). destruct (acc_good _ _ _ _ _ HAc) as (HS & HG).
  destruct (acc_cut _ _ _ _ _ _ _ _ HAc) as [-> |(H255 & _ & HD)].
  - left. exists its, ns. rewrite app_nil_r in HS. auto.
  - right. exists its, ns, e. auto.
Qed.
Print Assumptions C21_accepted_partial.

(** Without tuples, without a field 255, with at most 128 arguments and with
    numbers below 2^32: exactly the well-formed strings. *)
Theorem C21_accepted_iff_well_formed_partial : forall s tys,
  Forall is_byte s -> Forall tuple_free tys -> (length tys <= 128)%nat -> no_255 s -> small_numbers s ->
  accepted s tys <-> well_formed s tys.
Proof.
  intros s tys HB HT HL H255 HSm. split.
  - intros HA. destruct (C21_accepted_partial s tys HB HT HA) as [H|(its & ns & e & HS & _ & _ & HF & _)]; [exact H|]. exfalso. rewrite HS in H255. now apply no_255_field in H255.
  - intros (its & ns & HS & HG & HC). apply (accepted_complete s tys its ns []); auto. apply good_string; auto; [now rewrite app_nil_r| |now apply tuples_last_free].
    apply Forall_forall. intros sp HI. unfold field_specs in HI. apply in_flat_map in HI. destruct HI as (i & HI & HX). destruct i as [| |index colon sp']; try contradiction. destruct HX as [->|[]].
    apply in_split in HI. destruct HI as (a & b & ->). rewrite text_of_app in HS. apply (small_sub (text_of a ++ [123] ++ index ++ (if colon then [58] else [])) sp (text_of b)).
    replace ((text_of a ++ [123] ++ index ++ (if colon then [58] else [])) ++ sp ++ text_of b) with s; [exact HSm|]. rewrite HS. cbn [text_of flat_map item_text]. fold (text_of b). rewrite <- !app_assoc. reflexivity.
Qed.
Print Assumptions C21_accepted_iff_well_formed_partial.

(** Every other string is rejected with invalid_format; nothing outside the
    string is read. *)
Theorem C21_rejected : forall s tys,
  Forall is_byte s -> Forall tuple_free tys -> (length tys <= 128)%nat -> ~ well_formed s tys -> ~ cut_short s tys ->
  exists v, vstr_from s tys = Ok v /\ vs_str v = Err invalid_format.
Proof.
  intros s tys HB HT HL N1 N2. destruct (accepted_decided s tys HB HT HL) as (v & HV & [HS|HS]); [|eauto].
  exfalso. destruct (C21_accepted_partial s tys HB HT) as [H|H]; [exists v; auto|contradiction..].
Qed.
Print Assumptions C21_rejected.

(** A tuple in the last field of a string. *)
Theorem C21_tuple_last_accepted : forall s tys its ns,
  Forall is_byte s -> (length tys <= 128)%nat -> s = text_of its -> good_items tys its ns -> (forall n, (n < length tys)%nat -> In n ns) ->
  tuples_last tys its ns -> Forall small_numbers (field_specs its) -> accepted s tys.
Proof.
  intros s tys its ns HB HL HS HG HC HTL HSm. apply (accepted_complete s tys its ns []); auto. apply good_string; auto. now rewrite app_nil_r.
Qed.
Print Assumptions C21_tuple_last_accepted.

(** With tuples: exactly the strings in which reading, with the jumps behind
    tuples whose elements have a specification, meets valid items and fields for
    all arguments. *)
Theorem C21_accepted_iff : forall s tys,
  Forall is_byte s -> small_numbers s -> (length tys <= 128)%nat -> accepted s tys <-> walked s tys.
Proof. intros s tys HB HSm HL. split; [intros H; now apply walked_sound|now apply walked_complete]. Qed.
Print Assumptions C21_accepted_iff.
Theorem C21_only_walked : forall s tys,
  Forall is_byte s -> accepted s tys -> walked s tys /\ (length tys <= 128)%nat.
Proof. exact walked_sound. Qed.
Print Assumptions C21_only_walked.
Theorem C21_others_rejected : forall s tys,
  Forall is_byte s -> (length tys <= 128)%nat -> ~ walked s tys -> exists v, vstr_from s tys = Ok v /\ vs_str v = Err invalid_format.
Proof.
  intros s tys HB HL N. destruct (all_decided s tys HB HL) as (v & HV & [HS|HS]); [|eauto]. exfalso. apply N. apply walked_sound; [exact HB|]. exists v. auto.
Qed.
Print Assumptions C21_others_rejected.

Lemma same_prefix {A} (a c b d : list A) : a ++ b = c ++ d -> length a = length c -> a = c.
Proof. revert c. induction a as [|x a IH]; intros [|y c] H L; try discriminate; [reflexivity|]. injection H as -> H. f_equal. apply IH; [exact H|]. now injection L. Qed.
(** So an accepted string is well-formed, or cut short by a field 255, or
    well-formed up to a tuple whose elements have a specification. *)
Theorem C21_well_formed_prefix : forall s tys,
  Forall is_byte s -> accepted s tys ->
  well_formed s tys \/ cut_short s tys \/
  exists its index colon spec rest ns k t, s = text_of (its ++ [Field index colon spec]) ++ rest /\ good_items tys (its ++ [Field index colon spec]) (ns ++ [k]) /\
    nth_error tys k = Some t /\ ~ bare_tuples t spec.
Proof.
  intros s tys HB HA. apply walked_sound in HA; [|exact HB]. destruct HA as ((its & ns & e & HW & HN & HC & HE) & _).
  destruct (walk_prefix _ _ _ _ _ _ HW) as [(H1 & H2 & H3)|(its1 & its2 & ns1 & ns2 & index & colon & sp & rest & k & t & -> & -> & H3 & H4 & H5 & H6 & H7)].
  - cbn [skipn] in H1. destruct HE as [-> |[HE HD]]; [left|right; left].
    + exists its, ns. rewrite app_nil_r in H1. split; [exact H1|]. split; [split; auto|exact HC].
    + exists its, ns, e. split; [exact H1|]. split; [split; auto|]. auto.
  - right. right. exists its1, index, colon, sp, rest, ns1, k, t. split; [exact H3|]. split; [|auto]. split; [exact H4|]. split; [|exact H5].
    assert (L : length (indices its1) = length ns1).
    { apply Forall2_len in H5. rewrite app_length in H5. unfold field_specs in H5. rewrite flat_map_app, app_length in H5. cbn [flat_map app length] in H5.
      replace (length (indices its1)) with (length (field_specs its1)); [unfold field_specs; lia|]. clear. induction its1 as [|[] its1 IH]; cbn; auto. }
    assert (EI : forall l, indices (its1 ++ Field index colon sp :: l) = (indices its1 ++ [index]) ++ indices l) by (intros l; unfold indices; rewrite flat_map_app, <- app_assoc; reflexivity).
    rewrite EI in HN. rewrite EI. change (indices []) with (@nil (list Z)). rewrite app_nil_r. destruct HN as [[HN1 HN2]|HN]; [left|right].
    + apply Forall_app in HN1. destruct HN1 as [HN1 _]. split; [exact HN1|]. rewrite app_length, seq_app in HN2. change (k :: ns2) with ([k] ++ ns2) in HN2. rewrite app_assoc in HN2.
      apply same_prefix in HN2; [exact HN2|]. rewrite seq_length, !app_length. cbn [length]. lia.
    + change (k :: ns2) with ([k] ++ ns2) in HN. rewrite app_assoc in HN. apply Forall2_app_inv_l in HN. destruct HN as (a & b & HA & _ & HX).
      assert (LA := Forall2_len _ _ _ HA). apply same_prefix in HX; [now rewrite HX|]. rewrite <- LA, !app_length. cbn [length]. lia.
Qed.
Print Assumptions C21_well_formed_prefix.

(** Well-formed strings in which no elements of tuples have a specification. *)
Theorem C21_bare_tuples_accepted : forall s tys its ns,
  Forall is_byte s -> small_numbers s -> (length tys <= 128)%nat -> s = text_of its -> good_items tys its ns -> (forall n, (n < length tys)%nat -> In n ns) ->
  Forall2 (fun n spec => forall t, nth_error tys n = Some t -> bare_tuples t spec) ns (field_specs its) -> accepted s tys.
Proof.
  intros s tys its ns HB HSm HL HS (HO & HN & HF) HC HBare. apply walked_complete; auto. exists its, ns, []. split; [|auto].
  rewrite <- (app_nil_r its), <- (app_nil_r ns). apply (walks_prefix _ _ _ _ _ _ []); [cbn [skipn]; now rewrite app_nil_r|exact HO| |constructor; apply skipn_all2; rewrite HS; reflexivity].
  clear HN HC HO HS. induction HF as [|n sp ns sps (t & HT & HFS) HF IH]; [constructor|]. inversion HBare; subst. constructor; [|now apply IH].
  exists t. split; [exact HT|]. split; [exact HFS|]. intros p. apply bare_field_end; auto.
Qed.
Print Assumptions C21_bare_tuples_accepted.

(** A field 255 ends the validation: anything may follow. *)
Theorem C21_field_255_refuted : exists s, Forall is_byte s /\ accepted s [] /\ ~ well_formed s [].
Proof.
  exists (str "{255} { {x"). split; [bytes|]. split; [eexists; split; vm_compute; reflexivity|].
  intros (its & ns & HS & HG & _). destruct (accepted_acc (str "{255} { {x") [] (mk_vstr false (Ok (str "{255} { {x")))) as (its' & ns' & e & HA); [bytes|vm_compute; reflexivity|reflexivity|constructor|].
  destruct (acc_reading [] _ its ns its' ns' e ltac:(cbn; lia) HA HS HG) as (-> & -> & ->).
  destruct HG as (HO & HN & HF). destruct its as [|i its]; [discriminate|]. assert (Hi := Forall_inv HO). destruct i as [c|c|index colon sp].
  - injection HS as <- _. apply Hi. now left.
  - injection HS as <- HS. discriminate.
  - cbn [field_specs flat_map app] in HF. inversion HF as [|n ? ns1 ? (t & HT & _)]; subst. destruct n; discriminate.
Qed.
Print Assumptions C21_field_255_refuted.

(** The fields of 129 arguments: a well-formed string, but the validation is
    terminated. *)
Lemma automatic_fields t n : field_spec t [125] -> well_formed (flat_map (fun _ => str "{}") (repeat tt n)) (repeat t n).
Proof.
  intros HF. set (its := repeat (Field [] false [125]) n). exists its, (seq 0 n). split; [|split; [split; [|split]|]].
  - unfold its. clear. induction n as [|n IH]; [reflexivity|]. cbn [repeat flat_map text_of item_text app]. change (str "{}") with [123; 125] at 1. cbn [app]. do 2 f_equal. exact IH.
  - apply Forall_forall. intros i HI. apply repeat_spec in HI. subst i. cbn. auto.
  - left. assert (E : indices its = repeat [] n) by (unfold its; clear; induction n as [|n IH]; [reflexivity|]; cbn; f_equal; exact IH). rewrite E, repeat_length. split; [|reflexivity].
    apply Forall_forall. intros i HI. now apply repeat_spec in HI.
  - assert (E : field_specs its = repeat [125] n) by (unfold its; clear; induction n as [|n IH]; [reflexivity|]; cbn; f_equal; exact IH). rewrite E. clear E.
    assert (G : forall k m, (k + m <= n)%nat -> Forall2 (fun n0 spec => exists t0, nth_error (repeat t n) n0 = Some t0 /\ field_spec t0 spec) (seq k m) (repeat [125] m)).
    { intros k m. revert k. induction m as [|m IH]; intros k L; [constructor|]. cbn [seq repeat]. constructor; [|apply IH; lia]. exists t. split; [|exact HF].
      destruct (nth_error (repeat t n) k) eqn:E; [|apply nth_error_None in E; rewrite repeat_length in E; lia]. f_equal. apply nth_error_In in E. now apply repeat_spec in E. }
    apply G. lia.
  - intros k. rewrite repeat_length, in_seq. lia.
Qed.
Lemma default_spec_text : spec_text [125] default_specs.
Proof.
  exists [], [], [], [], [], [], [], 32, align_none, 0, false, false, 0, (-1), 0. split; [reflexivity|]. unfold align_part, sign_part, flag_part, width_part, precision_part, type_part. cbn. tauto.
Qed.
Lemma int_default : field_spec int_t [125].
Proof. exists default_specs. split; [apply default_spec_text|]. cbn. repeat split; auto. Qed.
Theorem C21_arguments_refuted : exists s tys, well_formed s tys /\ vstr_from s tys = Abort.
Proof.
  exists (flat_map (fun _ => str "{}") (repeat tt 129)), (repeat int_t 129). split; [apply automatic_fields, int_default|vm_compute; reflexivity].
Qed.
Print Assumptions C21_arguments_refuted.

(** A tuple whose elements have a specification: what follows is skipped, a brace
    alone, and a field that is needed. *)
Lemma pair_colon : field_spec (FTuple [int_t; int_t]) (str ":}").
Proof. exists false, (Some [125]). split; [reflexivity|]. split; [discriminate|]. split; [apply int_default|split; [apply int_default|exact Logic.I]]. Qed.
Theorem C21_tuples_refuted :
  (exists s tys, Forall is_byte s /\ no_255 s /\ accepted s tys /\ ~ well_formed s tys) /\
  (exists s tys, Forall is_byte s /\ (length tys <= 128)%nat /\ well_formed s tys /\ ~ accepted s tys).
Proof.
  split.
  - exists (str "{::}}"), [FTuple [int_t; int_t]]. split; [bytes|]. split; [intros a z b H; apply (f_equal (fun l => forallb (fun c => negb (c =? 50)) l)) in H; rewrite !forallb_app in H; cbn in H; rewrite !andb_false_r in H; discriminate|].
    split; [eexists; split; vm_compute; reflexivity|]. intros (its & ns & HS & (HO & _ & HF) & _).
    destruct its as [|i its]; [discriminate|]. assert (Hi := Forall_inv HO). apply Forall_inv_tail in HO. destruct i as [c|c|index colon sp].
    + injection HS as <- _. apply Hi. now left.
    + injection HS as <- HS. discriminate.
    + cbn [field_specs flat_map app] in HF. inversion HF as [|n ? ns1 ? (t & HT & HFS) _]; subst. destruct n as [|[|n]]; try discriminate. injection HT as <-.
      destruct Hi as [HI HC]. change (text_of (Field index colon sp :: its)) with (item_text (Field index colon sp) ++ text_of its) in HS. cbn [item_text] in HS. rewrite <- !app_assoc in HS.
      change (str "{::}}") with ([123] ++ [58; 58; 125; 125]) in HS. apply app_inv_head in HS.
      destruct index as [|d index]; [|destruct HI as [HI|[_ HI]]; [discriminate|]; injection HS as <- _; apply Forall_inv in HI; lia].
      cbn [app] in HS. destruct colon; [|rewrite HC in HS by reflexivity; discriminate]. injection HS as HS.
      destruct (field_spec_end _ _ HFS) as (x & -> & HX). rewrite <- app_assoc in HS. cbn [app] in HS.
      destruct (first_brace_unique [58] x [125] (text_of its)) as [_ E]; [cbn; lia|exact HX|exact HS|]. destruct its as [|[c|c|index colon sp] its]; try discriminate.
      injection E as <- _. apply Forall_inv in HO. apply HO. now right.
  - exists (str "{::}{}"), [FTuple [int_t; int_t]; int_t]. split; [bytes|]. split; [cbn; lia|]. split.
    + exists [Field [] true (str ":}"); Field [] false [125]], [0%nat; 1%nat]. split; [reflexivity|]. split; [split; [|split]|].
      * constructor; [split; [now left|discriminate]|]. constructor; [split; [now left|reflexivity]|constructor].
      * left. split; [repeat constructor|reflexivity].
      * cbn [field_specs flat_map app]. constructor; [eexists; split; [reflexivity|apply pair_colon]|]. constructor; [eexists; split; [reflexivity|apply int_default]|constructor].
      * intros [|[|n]] H; cbn in *; [auto|auto|lia].
    + intros (v & HV & HS). vm_compute in HV. injection HV as <-. discriminate.
Qed.
Print Assumptions C21_tuples_refuted.

Lemma denotes_bound d : Forall (fun c => 48 <= c <= 57) d -> denotes 10 d < 10 ^ Z.of_nat (length d).
Proof.
  induction d as [|c d IH] using rev_ind; intros H; [reflexivity|]. apply Forall_app in H. destruct H as [H Hc]. apply Forall_inv in Hc. specialize (IH H). rewrite denotes_snoc, app_length, (digit_value_char c Hc). cbn [length]. rewrite Nat2Z.inj_add, Z.pow_add_r by lia. change (10 ^ Z.of_nat 1) with 10. lia.
Qed.
(** Runs of at most nine digits. *)
Fixpoint short_runs (k : nat) (t : list Z) : bool :=
  match t with
  | [] => true
  | c :: t => if (48 <=? c) && (c <=? 57) then (k <? 9)%nat && short_runs (S k) t else short_runs 0 t
  end.
Lemma short_small t : short_runs 0 t = true -> small_numbers t.
Proof.
  intros H a d b -> (_ & HD). assert (HX : exists k, short_runs k (d ++ b) = true).
  { revert H. generalize 0%nat. induction a as [|c a IH]; intros k H; [exists k; exact H|]. cbn in H. destruct ((48 <=? c) && (c <=? 57)); [apply andb_true_iff in H; destruct H|]; eapply IH; eassumption. }
  destruct HX as (k & HX). assert (HY : (length d <= 9 - k \/ length d = 0)%nat).
  { clear H. revert k HX. induction HD as [|c d Hc HD IH]; intros k HX; [cbn; lia|]. cbn [app short_runs length] in *. replace ((48 <=? c) && (c <=? 57)) with true in HX by lia. apply andb_true_iff in HX. destruct HX as [H1 H2]. specialize (IH _ H2). lia. }
  assert (X := denotes_bound d HD). assert (10 ^ Z.of_nat (length d) <= 10 ^ 9) by (apply Z.pow_le_mono_r; lia). lia.
Qed.

(** "a{1:>4}{{{0}", an int and a text. *)
Definition two_items := [Literal 97; Field (str "1") true (str ">4}"); Brace 123; Field (str "0") false (str "}")].
Definition two_types := [int_t; str_t].
Lemma two_good : good_items two_types two_items [1%nat; 0%nat].
Proof.
  split; [|split].
  - unfold two_items. constructor; [unfold item_ok, is_brace; lia|]. constructor; [split; [right; digs|discriminate]|].
    constructor; [left; reflexivity|]. constructor; [split; [right; digs|reflexivity]|constructor].
  - right. constructor; [split; [digs|reflexivity]|]. constructor; [split; [digs|reflexivity]|constructor].
  - unfold two_items. cbn [field_specs flat_map app]. constructor; [|constructor; [|constructor]].
    + exists str_t. split; [reflexivity|]. exists (mk_specs 32 align_right 0 false false 4 (-1) 0). split; [|cbn; unfold plain_specs; cbn; auto].
      exists (str ">"), [], [], [], (str "4"), [], [], 32, align_right, 0, false, false, 4, (-1), 0. split; [reflexivity|]. unfold align_part, align_char, sign_part, flag_part, width_part, precision_part, type_part, number_read.
      split; [right; left; exists 62; repeat split; auto 6|]. split; [auto|]. split; [reflexivity|]. split; [reflexivity|].
      split; [right; split; [|discriminate]; split; [digs|]; split; [lia|reflexivity]|]. auto 6.
    + exists int_t. split; [reflexivity|]. apply int_default.
Qed.
Lemma no_digits_255 s : forallb (fun c => negb (c =? 50)) s = true -> no_255 s.
Proof.
  intros H a z b ->. rewrite forallb_forall in H. specialize (H 50 ltac:(rewrite !in_app_iff; right; right; right; left; now left)). discriminate.
Qed.
Example C21_example :
  let s := str "a{1:>4}{{{0}" in
  Forall is_byte s /\ Forall tuple_free two_types /\ (length two_types <= 128)%nat /\ no_255 s /\ small_numbers s /\ accepted s two_types /\ well_formed s two_types /\
  ~ accepted (str "a{1:>4}{0") two_types /\ ~ accepted (str "{1:>4}") two_types /\ ~ accepted (str "{0}{}") two_types.
Proof.
  cbv zeta. split; [bytes|]. split; [repeat constructor|]. split; [cbn; lia|]. split; [now apply no_digits_255|]. split; [|split; [|split]].
  - now apply short_small.
  - eexists. split; vm_compute; reflexivity.
  - exists two_items, [1%nat; 0%nat]. split; [reflexivity|]. split; [apply two_good|]. intros [|[|n]] H; cbn in *; [auto|auto|lia].
  - split; [|split]; intros (v & HV & HS); vm_compute in HV; injection HV as <-; discriminate.
Qed.

(** ** C22 The output is the concatenation of the parts *)

(** For every reading of an accepted string as literals, doubled braces and
    fields.  [octal_spec], [octal_in]: see C24. *)
Theorem C22_output_partial : forall args s its ns,
  Forall is_byte s -> accepted s (map fst args) -> Forall tuple_free (map fst args) -> typed args ->
  s = text_of its -> good_items (map fst args) its ns ->
  Forall (fun sp => ~ octal_spec sp) (field_specs its) -> Forall (fun tv => ~ octal_in (snd tv)) args ->
  exists out, string_shows args its ns out /\ formatted s args out.
Proof.
  intros args s its ns HB HA HT HTy HS HG HO HOs. destruct (accepted_sound s _ HB HT HA) as (its' & ns' & e & HAc & HL & _).
  destruct (acc_reading _ s its ns its' ns' e HL HAc HS HG) as (-> & -> & ->). destruct HA as (v & HV & HVS).
  destruct (attempt_prints _ _ _ (format_attempt False args s v its ns [] HB HV HVS HTy HAc (False_ind _))) as (out & HQ & HP).
  - intros [H|H]; apply Exists_exists in H; destruct H as (x & HI & H); rewrite Forall_forall in HO, HOs; [now apply (HO x)|now apply (HOs x)].
  - exists out. split; [exact HQ|]. exists v. auto.
Qed.
Print Assumptions C22_output_partial.

(** A string with a field 255: the items before it. *)
Theorem C22_cut_output : forall args s,
  Forall is_byte s -> accepted s (map fst args) -> Forall tuple_free (map fst args) -> typed args -> ~ upper_octal s -> Forall (fun tv => ~ octal_in (snd tv)) args ->
  exists its ns e out, s = text_of its ++ e /\ (e = [] \/ field_255 e) /\ good_items (map fst args) its ns /\ string_shows args its ns out /\ formatted s args out.
Proof.
  intros args s HB HA HT HTy HO HOs. destruct (accepted_sound s _ HB HT HA) as (its & ns & e & HAc & HL & _). destruct (acc_good _ _ _ _ _ HAc) as (HS & HG). destruct HA as (v & HV & HVS).
  destruct (attempt_prints _ _ _ (format_attempt False args s v its ns e HB HV HVS HTy HAc (False_ind _))) as (out & HQ & HP).
  - intros [H|H]; [apply HO; rewrite HS; now apply text_octal|]. apply Exists_exists in H. destruct H as (tv & HI & H). rewrite Forall_forall in HOs. now apply (HOs tv).
  - exists its, ns, e, out. split; [exact HS|]. split; [destruct (acc_cut _ _ _ _ _ _ _ _ HAc) as [E|(E & _)]; auto|]. split; [exact HG|]. split; [exact HQ|]. exists v. auto.
Qed.
Print Assumptions C22_cut_output.

(** There is one reading only. *)
Theorem C22_reading_unique : forall tys tys' its its' ns ns',
  good_items tys its ns -> good_items tys' its' ns' -> text_of its = text_of its' -> its = its' /\ ns = ns'.
Proof.
  intros tys tys' its its' ns ns' HG HG' E. rewrite <- (app_nil_r (text_of its')) in E.
  destruct (items_prefix its' (good_closed _ _ _ HG') its [] (good_closed _ _ _ HG) E) as (its2 & -> & H2). assert (its2 = []) as -> by (destruct its2 as [|[] ?]; [reflexivity|discriminate..]).
  rewrite app_nil_r in *. split; [reflexivity|]. destruct HG as (_ & HN & _), HG' as (_ & HN' & _). eapply numbering_unique; eauto.
Qed.
Print Assumptions C22_reading_unique.

(** One output only: the specification determines it, and formatting writes it
    and nothing else.  [small_numbers], [small_strings]: the numbers in the format
    strings are below 2^32. *)
Theorem C22_output_unique : forall args s its ns e out out',
  Forall is_byte s -> small_numbers s -> typed args -> Forall (fun tv => small_strings (snd tv)) args -> s = text_of its ++ e ->
  string_shows args its ns out -> string_shows args its ns out' -> out = out'.
Proof. intros args s its ns e out out' HB HSm HT HSs ->. apply string_unique; auto. apply (plain_fields its e). split; auto. Qed.
Print Assumptions C22_output_unique.
Theorem C22_output_exact_partial : forall args s out,
  Forall is_byte s -> accepted s (map fst args) -> Forall tuple_free (map fst args) -> typed args -> ~ upper_octal s -> Forall (fun tv => ~ octal_in (snd tv)) args ->
  small_numbers s -> Forall (fun tv => small_strings (snd tv)) args ->
  (formatted s args out <->
   exists its ns e, s = text_of its ++ e /\ (e = [] \/ field_255 e) /\ good_items (map fst args) its ns /\ string_shows args its ns out).
Proof.
  intros args s out HB HA HT HTy HO HOs HSm HSs. destruct (C22_cut_output args s HB HA HT HTy HO HOs) as (its & ns & e & o & HS & HE & HG & HSh & HF). split.
  - intros (v & HV & HVS & HP). destruct HF as (v' & HV' & _ & HP'). rewrite HV in HV'. injection HV' as <-. rewrite (prints_unique _ _ _ HP HP'). exists its, ns, e. auto.
  - intros (its' & ns' & e' & HS' & HE' & HG' & HSh').
    destruct (reading_unique (map fst args) its' ns' e' its ns e) as (-> & -> & ->); auto; [|congruence|].
    + assert (X := few_types s _ HB HT HA). lia.
    + rewrite (C22_output_unique args s its ns e out o); auto.
Qed.
Print Assumptions C22_output_exact_partial.

Lemma int_typed n : in_range i32 n -> has_type int_t (int_v n).
Proof. intros H. apply (ht_core (AInt i32 n)); [|exact Logic.I]. split; [cbn; tauto|exact H]. Qed.
Lemma str_typed s : Forall is_byte s -> Z.of_nat (length (escape_text s)) + 2 < 2 ^ 31 -> has_type str_t (str_v s).
Proof. intros HB HL. apply (ht_core (AStr s)); [exact HB|exact HL]. Qed.
Definition two_args := [(int_t, int_v (-42)); (str_t, str_v (str "xy"))].
Lemma two_typed : typed two_args.
Proof. constructor; [apply int_typed; vm_compute; intuition discriminate|]. constructor; [apply str_typed; [bytes|vm_compute; reflexivity]|constructor]. Qed.
Example C22_example :
  let s := str "a{1:>4}{{{0}" in
  Forall is_byte s /\ accepted s (map fst two_args) /\ Forall tuple_free (map fst two_args) /\ typed two_args /\ s = text_of two_items /\
  good_items (map fst two_args) two_items [1%nat; 0%nat] /\
  Forall (fun sp => ~ octal_spec sp) (field_specs two_items) /\ Forall (fun tv => ~ octal_in (snd tv)) two_args /\
  run s two_args = Ok (Ok tt, str "a  xy{-42") /\ run (str "{255}...") [] = Ok (Ok tt, []) /\
  small_numbers s /\ Forall (fun tv => small_strings (snd tv)) two_args /\ ~ upper_octal s.
Proof.
  cbv zeta. split; [bytes|]. split; [eexists; split; vm_compute; reflexivity|]. split; [repeat constructor|]. split; [exact two_typed|]. split; [reflexivity|]. split; [exact two_good|].
  split; [|split; [|split; [vm_compute; reflexivity|split; [vm_compute; reflexivity|split; [now apply short_small|split; [repeat constructor|]]]]]].
  3: { intros (x & y & E). assert (H : In 79 (x ++ str "O}" ++ y)) by (apply in_app_iff; right; now left). rewrite <- E in H. vm_compute in H. intuition discriminate. }
  - repeat constructor; intros (x & E); assert (H : In 79 (x ++ str "O}")) by (apply in_app_iff; right; now left); rewrite <- E in H; vm_compute in H; intuition discriminate.
  - repeat constructor; intros [].
Qed.

(** ** C23 Doubled braces *)
Definition quoted (t : list Z) : list Z := flat_map (fun c => if (c =? 123) || (c =? 125) then [c; c] else [c]) t.
Definition quoted_items (t : list Z) : list item := map (fun c => if (c =? 123) || (c =? 125) then Brace c else Literal c) t.
Lemma quoted_plain t : Forall plain_item (quoted_items t).
Proof. apply Forall_forall. intros i HI. apply in_map_iff in HI. destruct HI as (c & <- & _). destruct ((c =? 123) || (c =? 125)) eqn:E; cbn; unfold is_brace; lia. Qed.
Lemma quoted_text t : text_of (quoted_items t) = quoted t.
Proof. induction t as [|c t IH]; [reflexivity|]. cbn [quoted_items map text_of flat_map quoted] in *. fold (quoted t). fold (quoted_items t). fold (text_of (quoted_items t)). rewrite IH. now destruct ((c =? 123) || (c =? 125)). Qed.
Lemma quoted_chars t : flat_map item_char (quoted_items t) = t.
Proof. induction t as [|c t IH]; [reflexivity|]. cbn [quoted_items map flat_map]. fold (quoted_items t). rewrite IH. now destruct ((c =? 123) || (c =? 125)). Qed.
Lemma formats_chars show its ns out : Forall plain_item its -> formats show its ns out -> out = flat_map item_char its.
Proof. intros HF H. induction H; inversion HF; subst; cbn; f_equal; auto; contradiction. Qed.
Lemma bytes_quoted t : Forall is_byte t -> Forall is_byte (quoted t).
Proof. induction 1 as [|c t Hc HF IH]; [constructor|]. cbn. destruct ((c =? 123) || (c =? 125)); cbn; auto. Qed.

Theorem C23_quoted_text : forall t, Forall is_byte t -> formatted (quoted t) [] t.
Proof.
  intros t HB. assert (HQ := bytes_quoted t HB). assert (HA : acc [] (quoted t) 0 None 0 (quoted_items t) [] []) by (apply plain_acc; [now rewrite quoted_text|apply quoted_plain]).
  assert (HAc : accepted (quoted t) []) by (apply (accepted_complete _ [] (quoted_items t) [] []); auto; cbn; intros; lia). destruct HAc as (v & HV & HVS).
  exists v. split; [exact HV|]. split; [exact HVS|]. destruct (format_attempt False [] (quoted t) v _ _ _ HQ HV HVS (Forall_nil _) HA (False_ind _)) as [(ops & HW & HS & _)|(HF & _)].
  - rewrite <- (quoted_chars t), <- (formats_chars _ _ _ _ (quoted_plain t) HS). apply prints_of_emits. apply (HW _ mem_vt mem_R None None None mem_lawful).
  - exfalso. destruct HF as [HF|HF]; [|inversion HF]. assert (E : field_specs (quoted_items t) = []); [|rewrite E in HF; inversion HF].
    clear. induction t as [|c t IH]; [reflexivity|]. cbn [quoted_items map]. destruct ((c =? 123) || (c =? 125)); exact IH.
Qed.
Print Assumptions C23_quoted_text.
Theorem C23_plain_text : forall t, Forall is_byte t -> ~ In 123 t -> ~ In 125 t -> formatted t [] t.
Proof.
  intros t HB H1 H2. replace t with (quoted t) at 1; [now apply C23_quoted_text|]. clear HB. induction t as [|c t IH]; [reflexivity|]. cbn [quoted flat_map]. fold (quoted t). rewrite IH by (cbn in *; tauto).
  replace ((c =? 123) || (c =? 125)) with false; [reflexivity|]. cbn in H1, H2. lia.
Qed.
Print Assumptions C23_plain_text.
Example C23_example : Forall is_byte (str "O}{{x") /\ quoted (str "O}{{x") = str "O}}{{{{x" /\ run (quoted (str "O}{{x")) [] = Ok (Ok tt, str "O}{{x").
Proof. split; [bytes|]. split; vm_compute; reflexivity. Qed.

(** ** C24 A validated format never fails *)
Theorem C24_never_fails_partial : forall args s,
  Forall is_byte s -> accepted s (map fst args) -> Forall tuple_free (map fst args) -> typed args ->
  ~ upper_octal s -> Forall (fun tv => ~ octal_in (snd tv)) args -> exists out, formatted s args out.
Proof. intros args s HB HA HT HTy HO HOs. destruct (C22_cut_output args s HB HA HT HTy HO HOs) as (_ & _ & _ & out & _ & _ & _ & _ & H). eauto. Qed.
Print Assumptions C24_never_fails_partial.

(** The only failure: invalid_format from a specification with the type O, in
    the string or in a format string among the arguments.  Nothing is undefined,
    nothing terminates the program. *)
Theorem C24_outcomes : forall args s v storage capacity ops,
  Forall is_byte s -> vstr_from s (map fst args) = Ok v -> vs_str v = Ok s -> Forall tuple_free (map fst args) -> typed args -> Forall op_ok ops ->
  let o := fst (vformat_to mem_vt (mem_after storage capacity ops) v args) in
  o = Ok tt \/ (o = Err invalid_format /\ (upper_octal s \/ Exists (fun tv => octal_in (snd tv)) args)).
Proof.
  intros args s v storage capacity ops HB HV HVS HT HTy HOp o. destruct (accepted_acc s _ v HB HV HVS HT) as (its & ns & e & HA). assert (HS := acc_text _ _ _ _ _ _ _ _ HA). cbn [skipn] in HS.
  destruct (format_attempt False args s v its ns e HB HV HVS HTy HA (False_ind _)) as [(opsw & HW & _)|(HF & opsw & HW & _)].
  - left. destruct (prints_of_emits _ _ (HW _ mem_vt mem_R None None None mem_lawful) storage capacity ops HOp) as (b' & E & _). unfold o. now rewrite E.
  - right. destruct (HW _ mem_vt mem_R None None None mem_lawful _ _ (mem_after_R storage capacity ops HOp) Logic.I) as (b' & _ & E). rewrite exec_unlimited in E. cbn [fst] in E. unfold o. rewrite E.
    split; [reflexivity|]. destruct HF as [HF|HF]; [left; rewrite HS; now apply text_octal|now right].
Qed.
Print Assumptions C24_outcomes.

(** Type O passes the validation of integers and cannot be formatted. *)
Theorem C24_upper_octal_refuted : exists s args,
  Forall is_byte s /\ accepted s (map fst args) /\ typed args /\ run s args = Ok (Err invalid_format, []).
Proof.
  exists (str "{:O}"), [(int_t, int_v 8)]. split; [bytes|]. split; [eexists; split; vm_compute; reflexivity|]. split; [|vm_compute; reflexivity].
  constructor; [apply int_typed; vm_compute; intuition discriminate|constructor].
Qed.
Print Assumptions C24_upper_octal_refuted.
Example C24_example :
  let s := str "{:#o} {:x}O}}" in let args := [(int_t, int_v 8); (int_t, int_v 255)] in
  Forall is_byte s /\ accepted s (map fst args) /\ Forall tuple_free (map fst args) /\ typed args /\ run s args = Ok (Ok tt, str "010 ffO}").
Proof.
  cbv zeta. split; [bytes|]. split; [eexists; split; vm_compute; reflexivity|]. split; [repeat constructor|]. split; [|vm_compute; reflexivity].
  repeat (constructor; [apply int_typed; vm_compute; intuition discriminate|]). constructor.
Qed.

(** ** Strings of one field *)
Lemma field_bytes sp : Forall is_byte sp -> Forall is_byte (str "{:" ++ sp).
Proof. intros H. apply Forall_app. split; [bytes|exact H]. Qed.
Lemma single_good t sp : field_spec t sp -> good_items [t] [Field [] true sp] [0%nat].
Proof.
  intros H. split; [constructor; [split; [now left|discriminate]|constructor]|]. split; [left; cbn; auto|]. constructor; [exists t; auto|constructor].
Qed.
Lemma single_acc t sp : Forall is_byte sp -> field_spec t sp -> small_numbers sp -> acc [t] (str "{:" ++ sp) 0 None 0 [Field [] true sp] [0%nat] [].
Proof.
  intros HB HF HS. apply good_string; [now apply field_bytes|cbn; lia|rewrite app_nil_r, field_text; reflexivity|now apply single_good|now constructor| |now left].
  cbn. split; [now left|exact Logic.I].
Qed.
Lemma single_accepted t sp : Forall is_byte sp -> field_spec t sp -> small_numbers sp -> accepted (str "{:" ++ sp) [t].
Proof.
  intros HB HF HS. apply (accepted_complete _ [t] _ _ _ (field_bytes _ HB) ltac:(cbn; lia) (single_acc t sp HB HF HS)). intros [|k] H; [now left|cbn in H; lia].
Qed.
(** A single field: [Q] of the formatter of its specification. *)
Lemma single_format (Q : fty * fval -> list Z -> list Z -> Prop) t x sp : Forall is_byte sp -> field_spec t sp -> small_numbers sp -> arg_writes False Q (t, x) -> ~ octal_spec sp -> ~ octal_in x ->
  exists out, Q (t, x) sp out /\ formatted (str "{:" ++ sp) [(t, x)] out.
Proof.
  intros HB HF HSm HW HN HNx. destruct (single_accepted t sp HB HF HSm) as (v & HV & HVS).
  destruct (attempt_prints _ _ _ (string_writes False Q [(t, x)] _ v (field_bytes _ HB) HV HVS (Forall_cons _ HW (Forall_nil _)) _ _ _ (single_acc t sp HB HF HSm) (False_ind _))) as (out & HQ & HP).
  - intros [H|H]; inversion H as [? ? HX|? ? HX]; subst; [contradiction|inversion HX|contradiction|inversion HX].
  - inversion HQ as [| | |? ? ? ? ? ? o out' (tv & HN0 & HQ0) HR]; subst. injection HN0 as <-. inversion HR; subst. rewrite app_nil_r in *. exists o. split; [exact HQ0|]. exists v. auto.
Qed.

(** ** C45 Ranges *)
Theorem C45_range : forall k t vs sp n e,
  has_type (FRange k t) (VRange vs) -> Forall is_byte sp -> small_numbers sp -> range_spec sp n e -> (forall es, e = Some es -> field_spec t es) ->
  ~ octal_spec sp -> ~ octal_in (VRange vs) ->
  exists outs,
    Forall2 (shows (mk_style (no_spec e) spec_not_defined spec_not_defined (element_brackets k t)) t (element_spec e)) vs outs /\
    formatted (str "{:" ++ sp) [(FRange k t, VRange vs)] (enclose n (default_brackets (FRange k t)) outs).
Proof.
  intros k t vs sp n e HT HB HSm HR HE HN HNv.
  assert (HF : field_spec (FRange k t) sp) by (exists n, e; split; [exact HR|]; destruct e; auto).
  destruct (single_format plain_shows (FRange k t) (VRange vs) sp HB HF HSm) as (out & HQ & HFm); auto.
  { intros sp' m _ H. apply plain_writes; [apply all_values_write|intros []|exact HT|exact H]. }
  unfold plain_shows in HQ. cbn [fst snd] in HQ. inversion HQ as [| | | | | | | |? ? ? ? n' e' ? outs HR' HS| | |]; subst.
  assert (n' = n /\ e' = e) as [-> ->].
  { unfold range_spec in HR, HR'. rewrite HR in HR'. destruct n, n', e as [e|], e' as [e'|]; cbn [app] in HR'; try discriminate; auto; injection HR' as HR'; subst; auto; discriminate. }
  exists outs. split; [exact HS|exact HFm].
Qed.
Print Assumptions C45_range.

(** With a specification for the elements, an element is shown like a field of
    its own; the pairs of a map without brackets and with a colon. *)
Theorem C45_elements : forall k t v es out,
  k <> range_map ->
  (shows (mk_style (no_spec (Some es)) spec_not_defined spec_not_defined (element_brackets k t)) t es v out <-> string_shows [(t, v)] [Field [] true es] [0%nat] out).
Proof.
  intros k t v es out HK. replace (element_brackets k t) with (default_brackets t) by (destruct k; solve [reflexivity|congruence]). split.
  - intros H. rewrite <- (app_nil_r out). apply formats_field; [|constructor]. exists (t, v). auto.
  - intros H. inversion H as [| | |? ? ? ? ? ? o out' (tv & HN & HS) HR]; subst. injection HN as <-. inversion HR; subst. rewrite app_nil_r. exact HS.
Qed.
Print Assumptions C45_elements.

Lemma padded_none fill a body out : is_padded fill a 0 body out -> out = body.
Proof. intros (l & r & -> & H & _). rewrite !app_length, !repeat_length in H. assert (l = O /\ r = O) as [-> ->] by lia. cbn. now rewrite app_nil_r. Qed.
Lemma default_only s : spec_text [125] s -> s = default_specs.
Proof. intros H. apply (spec_text_unique [125] s default_specs); [bytes|now apply short_small|exact H|apply default_spec_text]. Qed.
(** Without one, texts and characters are quoted and escaped, and the other core
    types are shown as usual. *)
Theorem C45_escaped : forall b out,
  (forall s, shows (mk_style true spec_not_defined spec_not_defined b) (FCore TStr) [125] (VCore (AStr s)) out -> out = [34] ++ escape_text s ++ [34]) /\
  (forall c, shows (mk_style true spec_not_defined spec_not_defined b) (FCore TChar) [125] (VCore (AChar c)) out -> out = [39] ++ escape c ++ [39]) /\
  (forall a, match a with AStr _ | AChar _ => False | _ => True end ->
     shows (mk_style true spec_not_defined spec_not_defined b) (FCore (type_of a)) [125] (VCore a) out <-> shows (plain_style (FCore (type_of a))) (FCore (type_of a)) [125] (VCore a) out).
Proof.
  intros b out. split; [|split].
  - intros s H. inversion H as [? ? ? sp ? ? HS HA| | | | | | | | | | |]; subst. apply default_only in HS. subst sp.
    change (styled _ (AStr s) default_specs) with (set_type default_specs 63) in HA. destruct HA as [(_ & body & HB & HP)|([] & _)]. unfold string_body in HB. cbn in HB. rewrite Z.eqb_refl in HB. subst body. now apply padded_none in HP.
  - intros c H. inversion H as [? ? ? sp ? ? HS HA| | | | | | | | | | |]; subst. apply default_only in HS. subst sp.
    change (styled _ (AChar c) default_specs) with (set_type default_specs 63) in HA. destruct HA as [(_ & HP)|(_ & l & r & -> & HP)].
    + cbn in HP. now apply padded_none in HP.
    + cbn in HP. assert (l = O /\ r = O) as [-> ->] by lia. cbn. now rewrite app_nil_r.
  - intros a HA. split; intros H; inversion H as [? ? ? sp ? ? HS HF| | | | | | | | | | |]; subst; apply (shows_core _ _ _ sp); auto; destruct a; try contradiction; exact HF.
Qed.
Print Assumptions C45_escaped.

(** Optional [n] and a nested specification. *)
Definition nested := VRange [VRange [int_v 1; int_v (-20)]; VRange []; VRange [int_v 300]].
Definition nested_t := FRange range_list (FRange range_list int_t).
Definition names_t := FRange range_map (FTuple [str_t; FRange range_set (FCore TChar)]).
Definition names := VRange [VTuple [str_v (str "a"); VRange [VCore (AChar 39); VCore (AChar 98)]]; VTuple [str_v (str "b\"); VRange []]].
Example C45_example :
  has_type nested_t nested /\ Forall is_byte (str "n::#x}") /\ small_numbers (str "n::#x}") /\ range_spec (str "n::#x}") true (Some (str ":#x}")) /\ field_spec (FRange range_list int_t) (str ":#x}") /\
  ~ octal_spec (str "n::#x}") /\ ~ octal_in nested /\
  run (str "{}") [(nested_t, nested)] = Ok (Ok tt, str "[[1, -20], [], [300]]") /\
  run (str "{:n::#x}") [(nested_t, nested)] = Ok (Ok tt, str "[0x1, -0x14], [], [0x12c]") /\
  run (str "{:}") [(names_t, names)] = Ok (Ok tt, str "{""a"": {'\'', 'b'}, ""b\\"": {}}").
Proof.
  split; [repeat (constructor; try (apply int_typed; vm_compute; intuition discriminate))|]. split; [bytes|]. split; [now apply short_small|]. split; [reflexivity|]. split; [|split; [|split]].
  - exists false, (Some (str "#x}")). split; [reflexivity|]. exists (mk_specs 32 align_none 0 true false 0 (-1) 120). split; [|cbn; tauto].
    exists [], [], (str "#"), [], [], [], (str "x"), 32, align_none, 0, true, false, 0, (-1), 120. split; [reflexivity|]. unfold align_part, sign_part, flag_part, width_part, precision_part, type_part, is_letter.
    split; [auto|]. split; [auto|]. split; [reflexivity|]. split; [reflexivity|]. split; [auto|]. split; [auto|]. split; [right; split; [reflexivity|lia]|reflexivity].
  - intros (x & E). assert (H : In 79 (x ++ str "O}")) by (apply in_app_iff; right; now left). rewrite <- E in H. vm_compute in H. intuition discriminate.
  - cbn. tauto.
  - split; [|split]; vm_compute; reflexivity.
Qed.

(** ** C46 Fields of tuples *)

(** When nothing follows the field of the tuple. *)
Theorem C46_tuple_last_partial : forall args s its ns,
  Forall is_byte s -> (length args <= 128)%nat -> typed args -> s = text_of its -> good_items (map fst args) its ns -> (forall n, (n < length args)%nat -> In n ns) ->
  tuples_last (map fst args) its ns -> Forall small_numbers (field_specs its) ->
  Forall (fun sp => ~ octal_spec sp) (field_specs its) -> Forall (fun tv => ~ octal_in (snd tv)) args ->
  exists out, string_shows args its ns out /\ formatted s args out.
Proof.
  intros args s its ns HB HL HTy HS HG HC HTL HSm HO HOs. rewrite <- (map_length fst args) in HL, HC.
  assert (HA : acc (map fst args) s 0 None 0 its ns []) by (apply good_string; auto; now rewrite app_nil_r).
  destruct (accepted_complete s _ its ns [] HB HL HA HC) as (v & HV & HVS).
  destruct (attempt_prints _ _ _ (format_attempt False args s v its ns [] HB HV HVS HTy HA (False_ind _))) as (out & HQ & HP).
  - intros [H|H]; apply Exists_exists in H; destruct H as (x & HI & H); rewrite Forall_forall in HO, HOs; [now apply (HO x)|now apply (HOs x)].
  - exists out. split; [exact HQ|]. exists v. auto.
Qed.
Print Assumptions C46_tuple_last_partial.

(** Otherwise formatting goes through the string as [parse_end] describes: each
    item that is met this way is printed. *)
Theorem C46_format_walk : forall args s its ns,
  Forall is_byte s -> small_numbers s -> accepted s (map fst args) -> typed args -> format_walk s (map fst args) its ns ->
  Forall (fun sp => ~ octal_spec sp) (field_specs its) -> Forall (fun tv => ~ octal_in (snd tv)) args ->
  exists out, string_shows args its ns out /\ formatted s args out.
Proof.
  intros args s its ns HB HSm HA HTy HW HO HOs. destruct (walked_sound s _ HB HA) as [_ HL]. assert (HP := format_walk_pacc _ s its ns HB HSm HL HW). destruct HA as (v & HV & HVS).
  destruct (attempt_prints _ _ _ (walk_attempt args s v its ns [] HB HV HVS HTy HP)) as (out & HQ & HPr).
  - intros [H|H]; apply Exists_exists in H; destruct H as (x & HI & H); rewrite Forall_forall in HO, HOs; [now apply (HO x)|now apply (HOs x)].
  - exists out. split; [exact HQ|]. exists v. auto.
Qed.
Print Assumptions C46_format_walk.

(** Text behind the field of a tuple: as many characters are lost as there are in
    front of the specification of the elements (or the closing brace). *)
Theorem C46_lost_text : forall args its index colon spec n e text ns k ts s,
  let tys := map fst args in let field := Field index colon spec in
  Forall is_byte s -> small_numbers s -> (length args <= 128)%nat -> typed args ->
  s = text_of (its ++ [field]) ++ text -> Forall (fun c => ~ is_brace c) text ->
  good_items tys (its ++ [field]) (ns ++ [k]) -> (forall i, (i < length args)%nat -> In i (ns ++ [k])) ->
  Forall (fun i => forall t, nth_error tys i = Some t -> tuple_free t) ns ->
  nth_error tys k = Some (FTuple ts) -> ts <> [] -> Forall tuple_free ts -> range_spec spec n e ->
  Forall (fun sp => ~ octal_spec sp) (field_specs (its ++ [field])) -> Forall (fun tv => ~ octal_in (snd tv)) args ->
  let lost := (length (text_of its) + 1 + length index + (if colon then 1 else 0) + (if n then 1 else 0) + (match e with None => 0 | Some _ => 1 end))%nat in
  exists out, string_shows args (its ++ [field]) (ns ++ [k]) out /\ formatted s args (out ++ skipn lost text).
Proof.
  intros args its index colon sp n e text ns k ts s tys field HB HSm HL HTy HS HText HG HC HFree HK HNE HTs HR HO HOs lost.
  assert (HLt : (length tys <= 128)%nat) by (unfold tys; rewrite map_length; exact HL).
  destruct HG as (HItems & HNum & HF). apply Forall_app in HItems. destruct HItems as [HI1 HI2]. apply Forall_inv in HI2.
  assert (EF : field_specs (its ++ [field]) = field_specs its ++ [sp]) by (unfold field_specs; rewrite flat_map_app; reflexivity). rewrite EF in HF, HO.
  apply Forall2_app_inv_l in HF. destruct HF as (a & b & HF1 & HF2 & EE). inversion HF2 as [|? ? ? ? (t & HT & HFS) HX]; subst. inversion HX; subst. apply app_inj_tail in EE. destruct EE as [<- <-].
  rewrite HK in HT. injection HT as <-.
  set (s := text_of (its ++ [field]) ++ text) in *.
  assert (HS0 : skipn 0 s = text_of its ++ item_text field ++ text) by (cbn [skipn]; unfold s; rewrite text_of_app; cbn [text_of flat_map]; now rewrite app_nil_r, <- app_assoc).
  assert (HS1 := skip_part _ _ _ _ HS0). cbn [Nat.add] in HS1. assert (HS2 := skip_part _ _ _ _ HS1).
  set (E := (length (text_of its) + length (item_text field))%nat) in *.
  assert (LE : E = (lost + length (element_spec e))%nat).
  { unfold E, lost. cbn [item_text field]. rewrite !app_length. assert (X := spec_length _ _ _ HR). cbn [length]. destruct colon, e; cbn [length element_spec] in *; destruct n; lia. }
  assert (LS : length s = (E + length text)%nat) by (unfold E, s; rewrite app_length, text_of_app, app_length; cbn [text_of flat_map]; rewrite app_nil_r; lia).
  assert (LITS : forall fend q, skipn q s = skipn (q - E) text -> (E <= q <= length s)%nat -> walks fend tys s q (map Literal (skipn (q - E) text)) [] []).
  { intros fend q HQ HQ2. rewrite <- (app_nil_r (map Literal _)). assert (TX : text_of (map Literal (skipn (q - E) text)) = skipn (q - E) text).
    { generalize (skipn (q - E) text). clear. induction l as [|c l IH]; [reflexivity|]. cbn. f_equal. exact IH. }
    apply (walks_plains fend tys s (map Literal (skipn (q - E) text)) q []).
    - assert (X : Forall (fun c => ~ is_brace c) (skipn (q - E) text)) by (now apply forall_skipn). revert X. generalize (skipn (q - E) text). clear. induction 1; constructor; assumption.
    - now rewrite TX, app_nil_r.
    - constructor. rewrite TX, <- HQ, skipn_length. apply skipn_all2. lia. }
  assert (SK : forall j, skipn (E + j) s = skipn j text) by (intros j; rewrite <- skipn_skipn_nat, HS2; reflexivity).
  set (p := (length (text_of its) + 1 + length index + if colon then 1 else 0)%nat).
  assert (LPE : (p + length sp)%nat = E) by (unfold p, E; cbn [item_text field]; rewrite !app_length; destruct colon; cbn [length]; lia).
  assert (WALK : forall (fend : fty -> nat -> list Z -> nat -> Prop) q, (forall t sp p, tuple_free t -> field_spec t sp -> fend t p sp (p + length sp)%nat) -> fend (FTuple ts) p sp q -> skipn q s = skipn (q - E) text -> (E <= q <= length s)%nat ->
    walks fend tys s 0 (its ++ field :: map Literal (skipn (q - E) text)) (ns ++ [k]) []).
  { intros fend q HFr HFe HQ HQ2. apply (walks_prefix fend tys s its 0 ns (item_text field ++ text)); [exact HS0|exact HI1| |].
    - clear -HF1 HFree HFr. revert HFree. induction HF1 as [|i x ns sps (t & HT & HFS) HF1 IH]; intros HFree; [constructor|]. constructor; [|apply IH, (Forall_inv_tail HFree)].
      exists t. split; [exact HT|]. split; [exact HFS|]. intros p. apply HFr; [|exact HFS]. apply (Forall_inv HFree); exact HT.
    - cbn [Nat.add]. apply (walks_field fend tys s _ index colon sp text _ k [] [] (FTuple ts) q HI2 HS1 HK HFS HFe). now apply LITS. }
  assert (NUMB : forall l, numbering (indices (its ++ field :: map Literal l)) (ns ++ [k])).
  { intros l. replace (indices (its ++ field :: map Literal l)) with (indices (its ++ [field])); [exact HNum|]. unfold indices. rewrite !flat_map_app. f_equal. cbn [flat_map field]. f_equal. clear. induction l as [|c l IH]; [reflexivity|exact IH]. }
  assert (ELF := element_field _ _ _ _ HFS HR).
  assert (PP : (lost = p + match e with None => if n then 1 else 0 | Some _ => if n then 2 else 1 end)%nat) by (unfold lost, p; destruct n, e; lia).
  assert (EQL : forall q, q = E \/ q = Nat.min (length s) (E + lost) -> skipn q s = skipn (q - E) text /\ (E <= q <= length s)%nat).
  { intros q HQ. split; [|destruct HQ; lia]. rewrite <- SK. f_equal. destruct HQ; lia. }
  assert (ACC : accepted s tys).
  { assert (FE : exists q, field_end (length s) (FTuple ts) p sp q /\ (q = E \/ q = Nat.min (length s) (E + lost))).
    { destruct e as [e|].
      - exists (Nat.min (length s) (lost + E)). split; [|right; f_equal; lia]. apply field_end_tuple. exists n, (Some e). split; [exact HR|]. exists E. rewrite <- PP. split; [|reflexivity].
        apply Forall_forall. intros t HI. rewrite Forall_forall in HTs, ELF. rewrite LE. apply free_field_end; [now apply HTs|now apply ELF].
      - exists E. split; [|now left]. apply field_end_tuple. exists n, None. split; [exact HR|]. now rewrite LPE. }
    destruct FE as (q & FE & HQ). destruct (EQL q HQ) as [Q1 Q2]. apply walked_complete; auto. exists (its ++ field :: map Literal (skipn (q - E) text)), (ns ++ [k]), [].
    split; [|split; [apply NUMB|split; [|now left]]].
    - apply WALK; auto. intros. now apply free_field_end.
    - intros i Hi. apply HC. unfold tys in Hi. now rewrite map_length in Hi. }
  destruct (exists_last_or ts) as [-> |(ts0 & t & ->)]; [congruence|].
  assert (HI : In t (ts0 ++ [t])) by (apply in_or_app; right; now left). rewrite Forall_forall in HTs, ELF.
  set (q := Nat.min (length s) (E + lost)). destruct (EQL q (or_intror eq_refl)) as [Q1 Q2].
  assert (W : format_walk s tys (its ++ field :: map Literal (skipn (q - E) text)) (ns ++ [k])).
  { split; [|apply NUMB]. apply WALK; auto; [intros; now apply free_field_end|]. apply parse_end_tuple. exists n, e. split; [exact HR|]. cbv zeta. rewrite <- PP. right. exists ts0, t, E.
    split; [reflexivity|]. split; [rewrite LE; apply free_field_end; [now apply HTs|now apply ELF]|]. unfold q. f_equal. lia. }
  destruct (C46_format_walk args s _ _ HB HSm ACC HTy W) as (out & HSh & HFm); [|exact HOs|].
  { replace (field_specs (its ++ field :: map Literal (skipn (q - E) text))) with (field_specs its ++ [sp]); [exact HO|]. unfold field_specs. rewrite flat_map_app. f_equal. cbn [flat_map field app]. f_equal.
    generalize (skipn (q - E) text). clear. induction l as [|c l IH]; [reflexivity|exact IH]. }
  assert (TAIL : skipn lost text = skipn (q - E) text).
  { destruct (Nat.le_gt_cases lost (length text)) as [X|X]; [f_equal; unfold q; lia|]. rewrite !skipn_all2; [reflexivity| |]; unfold q; lia. }
  rewrite TAIL. set (l := skipn (q - E) text) in *. clearbody l.
  assert (CUT : exists o, string_shows args (its ++ [field]) (ns ++ [k]) o /\ out = o ++ l).
  { assert (GEN : forall its' ns' out, string_shows args (its' ++ map Literal l) ns' out -> exists o, string_shows args its' ns' o /\ out = o ++ l).
    { clear. induction its' as [|i its' IH]; intros ns' out H.
      - cbn [app] in H. exists []. cbn [app]. revert ns' out H. induction l as [|c l IH]; intros ns' out H; cbn [map] in H.
        + inversion H; subst. split; [constructor|reflexivity].
        + inversion H; subst. match goal with X : formats _ (map Literal l) _ _ |- _ => destruct (IH _ _ X) as [X1 ->]; split; [exact X1|reflexivity] end.
      - cbn [app] in H. inversion H as [|? ? ? ? X|? ? ? ? X|? ? ? ? ? ? ? ? HS X]; subst; destruct (IH _ _ X) as (o' & X1 & ->); [exists (c :: o')|exists (c :: o')|exists (o ++ o')]; (split; [constructor; auto|]); rewrite ?app_assoc; reflexivity. }
    apply GEN. rewrite <- app_assoc. exact HSh. }
  destruct CUT as (o & H1 & ->). exists o. split; [exact H1|exact HFm].
Qed.
Print Assumptions C46_lost_text.

Definition pair_t := FTuple [int_t; int_t].
Definition pair_v := VTuple [int_v 1; int_v 2].
Lemma pair_typed : has_type pair_t pair_v.
Proof. constructor. repeat (constructor; [apply int_typed; vm_compute; intuition discriminate|]). constructor. Qed.
Lemma pair_default : field_spec pair_t [125].
Proof. exists false, None. split; [reflexivity|exact Logic.I]. Qed.
(** Otherwise as many characters as there are in front of the end of the field
    are lost behind it. *)
Theorem C46_lost_text_refuted : exists s args its ns,
  typed args /\ s = text_of its /\ good_items (map fst args) its ns /\ accepted s (map fst args) /\ (forall n, (n < length args)%nat -> In n ns) /\
  run s args = Ok (Ok tt, str "(1, 2)") /\ forall out, string_shows args its ns out -> exists o, out = o ++ str "!".
Proof.
  exists (str "{}!"), [(pair_t, pair_v)], [Field [] false [125]; Literal 33], [0%nat].
  split; [constructor; [exact pair_typed|constructor]|]. split; [reflexivity|]. split; [|split; [|split; [|split]]].
  - split; [constructor; [split; [now left|reflexivity]|constructor; [intros [H|H]; discriminate|constructor]]|]. split; [left; split; [repeat constructor|reflexivity]|].
    constructor; [exists pair_t; split; [reflexivity|exact pair_default]|constructor].
  - eexists; split; vm_compute; reflexivity.
  - intros [|n] H; [now left|cbn in H; lia].
  - vm_compute. reflexivity.
  - intros out H. inversion H as [| | |? ? ? ? ? ? o out' _ HR]; subst. inversion HR as [|? ? ? ? HN| |]; subst. inversion HN; subst. exists o. reflexivity.
Qed.
Print Assumptions C46_lost_text_refuted.
(** Two tuples: the position of the second field is missed, its brace is copied
    to the output and reading continues behind the end of the string. *)
Theorem C46_undefined_refuted : exists s args,
  typed args /\ accepted s (map fst args) /\ well_formed s (map fst args) /\ exists out, run s args = Ok (Undef, out).
Proof.
  exists (str "{}{}"), [(pair_t, pair_v); (pair_t, pair_v)]. split; [repeat constructor; cbn; try exact pair_typed|]. 1-4: try (apply int_typed; vm_compute; intuition discriminate).
  split; [eexists; split; vm_compute; reflexivity|]. split; [exact (automatic_fields pair_t 2 pair_default)|]. eexists. vm_compute. reflexivity.
Qed.
Print Assumptions C46_undefined_refuted.
Example C46_example :
  let s := str "{}: {:n:#x}" in let args := [(int_t, int_v 5); (pair_t, pair_v)] in
  Forall is_byte s /\ typed args /\ accepted s (map fst args) /\ run s args = Ok (Ok tt, str "5: 0x1, 0x2").
Proof.
  cbv zeta. split; [bytes|]. split; [constructor; [apply int_typed; vm_compute; intuition discriminate|constructor; [exact pair_typed|constructor]]|].
  split; [eexists; split; vm_compute; reflexivity|vm_compute; reflexivity].
Qed.

(** The whole text behind the brace of the field is skipped, here a brace. *)
Example C46_walk_example :
  let s := str "{::}}" in let args := [(pair_t, pair_v)] in let its := [Field [] true (str ":}")] in
  Forall is_byte s /\ small_numbers s /\ typed args /\ accepted s (map fst args) /\ format_walk s (map fst args) its [0%nat] /\
  Forall (fun sp => ~ octal_spec sp) (field_specs its) /\ Forall (fun tv => ~ octal_in (snd tv)) args /\ run s args = Ok (Ok tt, str "(1, 2)").
Proof.
  cbv zeta. split; [bytes|]. split; [now apply short_small|]. split; [constructor; [exact pair_typed|constructor]|]. split; [eexists; split; vm_compute; reflexivity|].
  split; [|split; [|split; [|vm_compute; reflexivity]]].
  - split; [|left; split; [repeat constructor|reflexivity]]. apply (walks_field _ _ (str "{::}}") 0 [] true (str ":}") (str "}") [] 0%nat [] [] pair_t 5%nat).
    + split; [now left|discriminate].
    + reflexivity.
    + reflexivity.
    + exact pair_colon.
    + apply parse_end_tuple. exists false, (Some [125]). split; [reflexivity|]. right. exists [int_t], int_t, 4%nat. split; [reflexivity|]. split; reflexivity.
    + constructor. reflexivity.
  - constructor; [|constructor]. intros (x & H). apply (f_equal (@rev Z)) in H. rewrite rev_app_distr in H. discriminate.
  - constructor; [|constructor]. cbn [snd]. intros H. vm_compute in H. intuition discriminate.
Qed.
(** One character of the text is lost. *)
Example C46_lost_example :
  let s := str "{}, that's all" in let args := [(pair_t, pair_v)] in
  Forall is_byte s /\ small_numbers s /\ typed args /\ s = text_of ([] ++ [Field [] false [125]]) ++ str ", that's all" /\ Forall (fun c => ~ is_brace c) (str ", that's all") /\
  good_items (map fst args) ([] ++ [Field [] false [125]]) ([] ++ [0%nat]) /\ Forall tuple_free [int_t; int_t] /\ range_spec [125] false None /\
  run s args = Ok (Ok tt, str "(1, 2)" ++ skipn 1 (str ", that's all")).
Proof.
  cbv zeta. split; [bytes|]. split; [now apply short_small|]. split; [constructor; [exact pair_typed|constructor]|]. split; [reflexivity|].
  split; [apply Forall_forall; intros c H [-> | ->]; cbn in H; lia|]. split; [|split; [repeat constructor|split; [reflexivity|vm_compute; reflexivity]]].
  split; [constructor; [split; [now left|reflexivity]|constructor]|]. split; [left; split; [repeat constructor|reflexivity]|].
  constructor; [exists pair_t; split; [reflexivity|exact pair_default]|constructor].
Qed.

(** ** C47 Dynamic width and precision *)
Definition field_prints (tv : fty * fval) (sp o : list Z) : Prop :=
  exists m, fmtr_for false (default_brackets (fst tv)) (fst tv) sp m /\ prints (fun b => format_fval mem_vt m (snd tv) b) o.
Lemma typed_field_prints t x : has_type t x -> arg_writes False field_prints (t, x).
Proof.
  intros HT sp m _ HF. destruct (plain_writes False x t sp m (all_values_write False x) (False_ind _) HT HF) as [(ops & HW & _)|H]; [left|right; exact H].
  exists ops. split; [exact HW|]. split; [|intros []]. exists m. split; [exact HF|]. apply prints_of_emits. exact (HW _ mem_vt mem_R None None None mem_lawful).
Qed.

(** The specification [sp] with the width [w] and the precision [p] given at run
    time is formatted like the specification [sp'] that includes them. *)
Theorem C47_dynamic_is_static : forall a w p sp s sp',
  has_type (FDyn (FCore (type_of a))) (VDyn w p (VCore a)) -> Forall is_byte sp -> Forall is_byte sp' -> small_numbers sp -> small_numbers sp' ->
  spec_text sp s -> allowed (type_of a) s -> spec_text sp' (styled (mk_style false w p ([], [], [])) a s) -> allowed (type_of a) (styled (mk_style false w p ([], [], [])) a s) ->
  ~ octal_spec sp -> ~ octal_spec sp' ->
  exists out, formatted (str "{:" ++ sp) [(FDyn (FCore (type_of a)), VDyn w p (VCore a))] out /\ formatted (str "{:" ++ sp') [(FCore (type_of a), VCore a)] out.
Proof.
  intros a w p sp s sp' HT HB HB' HSm HSm' HS HA HS' HA' HO HO'.
  assert (HTc : has_type (FCore (type_of a)) (VCore a)) by (inversion HT; assumption).
  destruct (single_format field_prints (FDyn (FCore (type_of a))) (VDyn w p (VCore a)) sp HB) as (out & (m & HF & HP) & HFm); [exists s; auto|exact HSm|now apply typed_field_prints|exact HO|now intros []|].
  destruct (single_format field_prints (FCore (type_of a)) (VCore a) sp' HB') as (out' & (m' & HF' & HP') & HFm'); [eexists; eauto|exact HSm'|now apply typed_field_prints|exact HO'|now intros []|].
  exists out. split; [exact HFm|]. enough (out = out') as -> by exact HFm'. cbn [fst snd fmtr_for] in *.
  destruct HF as (m1 & -> & s1 & HS1 & _ & _ & _ & ->). destruct HF' as (s2 & HS2 & _ & _ & _ & ->).
  assert (E1 := spec_text_unique _ _ _ HB HSm HS1 HS). subst s1. assert (E2 := spec_text_unique _ _ _ HB' HSm' HS2 HS'). subst s2.
  apply (prints_unique _ _ _ HP). intros storage capacity ops HOp. destruct (HP' storage capacity ops HOp) as (b' & E & HV). exists b'. split; [|exact HV].
  rewrite <- E. symmetry. cbn [format_fval overwrite_spec]. exact (eq_sym (final_styled mem_vt _ (mk_style false w p ([], [], [])) a s)).
Qed.
Print Assumptions C47_dynamic_is_static.

(** Spelled out: [{:ty}] with the width and precision of [{:w.p ty}]. *)
Lemma infix_split (P : Z -> Prop) c u v a d b : ~ P c -> Forall P d -> d <> [] -> u ++ c :: v = a ++ d ++ b ->
  (exists b', u = a ++ d ++ b') \/ exists a', v = a' ++ d ++ b.
Proof.
  intros HC HD HN. revert u. induction a as [|x a IH]; intros u E; cbn [app] in E.
  - left. clear HN. revert u E. induction HD as [|y d Hy HD IHd]; intros u E; [exists u; reflexivity|]. cbn [app] in E. destruct u as [|z u]; cbn [app] in E; injection E as -> E; [contradiction|].
    destruct (IHd u E) as (b' & ->). exists b'. reflexivity.
  - destruct u as [|z u]; cbn [app] in E; injection E as -> E; [right; exists a; exact E|]. destruct (IH u E) as [(b' & ->)|H]; [left; exists b'; reflexivity|now right].
Qed.
Lemma digit_term c : digit_char c -> exists v, digit_value c = Some v /\ 0 <= v.
Proof. unfold digit_char, digit_value. intros H. replace ((48 <=? c) && (c <=? 57)) with true by lia. eexists. split; [reflexivity|lia]. Qed.
Lemma infix_le x d y : Forall digit_char x -> Forall digit_char d -> Forall digit_char y -> denotes 10 d <= denotes 10 (x ++ d ++ y).
Proof.
  intros HX HD HY. assert (L : denotes 10 d <= denotes 10 (x ++ d)).
  { induction d as [|c d IH] using rev_ind; [apply denotes_pos; rewrite app_nil_r; exact HX|]. apply Forall_app in HD. destruct HD as [HD HC]. apply Forall_inv in HC. destruct (digit_term c HC) as (v & E & _).
    rewrite app_assoc, !(denotes_snoc 10), E. specialize (IH HD). lia. }
  apply (Z.le_trans _ _ _ L). rewrite app_assoc. clear L. induction y as [|c y IH] using rev_ind; [rewrite app_nil_r; lia|]. apply Forall_app in HY. destruct HY as [HY HC]. apply Forall_inv in HC. destruct (digit_term c HC) as (v & E & Hv).
  rewrite (app_assoc _ y), (denotes_snoc 10), E. specialize (IH HY). assert (0 <= denotes 10 ((x ++ d) ++ y)) by (apply denotes_pos; repeat (apply Forall_app; split); assumption). lia.
Qed.
(** Lists of numbers separated by other characters. *)
Lemma small_nil : small_numbers [].
Proof. intros a d b E (HN & _). destruct a, d; try discriminate. congruence. Qed.
Lemma small_digits n : Forall digit_char n -> denotes 10 n < 2 ^ 32 -> small_numbers n.
Proof. intros HD HL a d b E _. subst n. apply Forall_app in HD. destruct HD as [HA HD]. apply Forall_app in HD. destruct HD as [HD HB]. assert (H := infix_le a d b HA HD HB). lia. Qed.
Lemma small_split u c v : ~ digit_char c -> small_numbers u -> small_numbers v -> small_numbers (u ++ c :: v).
Proof.
  intros HC HU HV a d b E HD. destruct (infix_split digit_char c u v a d b HC (proj2 HD) (proj1 HD) E) as [(b' & ->)|(a' & ->)]; [now apply (HU a d b')|now apply (HV a' d b)].
Qed.
Lemma small_type t type : type_part t type -> small_numbers (t ++ [125]).
Proof.
  unfold type_part, is_letter. intros [(-> & _)|(-> & H)]; [|apply (small_split [] type); [unfold digit_char; lia|exact small_nil|]]; apply (small_split [] 125); try exact small_nil; unfold digit_char; lia.
Qed.
Lemma type_bytes t type : type_part t type -> Forall is_byte (t ++ [125]).
Proof. unfold type_part, is_letter. intros [(-> & _)|(-> & H)]; repeat constructor; unfold is_byte; lia. Qed.
Lemma digit_bytes n : Forall digit_char n -> Forall is_byte n.
Proof. apply Forall_impl. unfold digit_char, is_byte. lia. Qed.
(** The type O is at the end of the specification. *)
Definition not_O (t : list Z) : Prop := forall y c, t = y ++ [c] -> c <> 79.
Lemma not_O_app u v : not_O u -> not_O v -> not_O (u ++ v).
Proof.
  intros HU HV y c E. destruct v as [|x v _] using rev_ind; [rewrite app_nil_r in E; exact (HU y c E)|]. rewrite app_assoc in E. apply app_inj_tail in E. destruct E as [_ <-]. exact (HV v x eq_refl).
Qed.
Lemma not_O_all t : Forall (fun c => c <> 79) t -> not_O t.
Proof. intros H y c ->. apply Forall_app in H. destruct H as [_ H]. exact (Forall_inv H). Qed.
Lemma not_O_digits t : Forall digit_char t -> not_O t.
Proof. intros H. apply not_O_all. revert H. apply Forall_impl. unfold digit_char. lia. Qed.
Lemma octal_type t s : spec_text t s -> octal_spec t -> Specs.sp_type s = 79.
Proof.
  intros (fa & sg & al & ze & wd & pr & ty & fill & align & sign & alt & zero & w & p & type & HT & HA & HSg & HAl & HZ & HW & HP & HTy & ->) (x & E).
  replace (Specs.sp_type (with_zero _ _)) with type by (unfold with_zero; destruct zero, align; reflexivity).
  destruct HTy as [(-> & _)|(-> & _)].
  - exfalso. rewrite HT in E. cbn [app] in E. change (str "O}") with ([79] ++ [125]) in E. rewrite !app_assoc in E. apply app_inj_tail in E. destruct E as [E _]. rewrite <- !app_assoc in E.
    assert (N : not_O (fa ++ sg ++ al ++ ze ++ wd ++ pr)); [|now apply (N x 79 E)].
    apply not_O_app; [|apply not_O_app; [|apply not_O_app; [|apply not_O_app; [|apply not_O_app]]]].
    + unfold align_part, align_char in HA. intros y c Ey. destruct HA as [(-> & _)|[(d & -> & H & _)|(d & -> & H & _)]]; [destruct y; discriminate| |].
      * destruct y as [|? [|]]; try discriminate; injection Ey as <-. lia.
      * destruct y as [|? [|? [|]]]; try discriminate; injection Ey as _ <-. lia.
    + apply not_O_all. destruct HSg as [(-> & _)|(-> & H)]; [constructor|]. constructor; [|constructor]. cbn in H. lia.
    + apply not_O_all. rewrite HAl. destruct alt; repeat constructor; discriminate.
    + apply not_O_all. rewrite HZ. destruct zero; repeat constructor; discriminate.
    + apply not_O_digits. destruct HW as [(-> & _)|(((_ & H) & _) & _)]; [constructor|exact H].
    + destruct HP as [(-> & _)|(n & -> & ((_ & H) & _))]; apply not_O_all; [constructor|]. constructor; [discriminate|]. revert H. apply Forall_impl. lia.
  - rewrite HT in E. change (str "O}") with ([79] ++ [125]) in E. rewrite !app_assoc in E. apply app_inj_tail in E. destruct E as [E _]. now apply app_inj_tail in E.
Qed.

(** Digits of a width; of a precision. *)
Definition width_digits (d : list Z) (w : Z) : Prop := digits_text d /\ hd 0 d <> 48 /\ denotes 10 d = w /\ w < 2 ^ 31.
Lemma number_read_digits d n : digits_text d -> denotes 10 d = n -> n < 2 ^ 31 -> number_read d n.
Proof. intros HD HN HL. split; [exact HD|]. split; [|auto]. assert (H := denotes_nonneg_digits d HD). lia. Qed.
Lemma type_spec ty type : type_part ty type -> spec_text (ty ++ [125]) (mk_specs 32 align_none 0 false false 0 (-1) type).
Proof.
  intros HT. exists [], [], [], [], [], [], ty, 32, align_none, 0, false, false, 0, (-1), type. split; [reflexivity|]. unfold align_part, sign_part, flag_part, width_part, precision_part. cbn. tauto.
Qed.
Lemma not_digit_46 : ~ digit_char 46. Proof. unfold digit_char. lia. Qed.

Theorem C47_width : forall a w dw ty type,
  has_type (FCore (type_of a)) (VCore a) -> type_part ty type -> type <> 79 -> allowed (type_of a) (mk_specs 32 align_none 0 false false 0 (-1) type) -> width_digits dw w ->
  exists out, formatted (str "{:" ++ ty ++ str "}") [(FDyn (FCore (type_of a)), VDyn w spec_not_defined (VCore a))] out /\
              formatted (str "{:" ++ dw ++ ty ++ str "}") [(FCore (type_of a), VCore a)] out.
Proof.
  intros a w dw ty type HT HTy H79 HA (HD & HH & HN & HL). change (str "}") with [125]. assert (HW := denotes_nonneg_digits dw HD).
  assert (HS0 := type_spec ty type HTy). set (s0 := mk_specs 32 align_none 0 false false 0 (-1) type) in *.
  assert (ES : styled (mk_style false w spec_not_defined ([], [], [])) a s0 = mk_specs 32 align_none 0 false false w (-1) type).
  { unfold styled. cbn [st_debug st_width st_precision]. rewrite Z.eqb_refl. replace (w =? spec_not_defined) with false by (unfold spec_not_defined; change (imax i32) with 2147483647; lia). rewrite Z.max_r by lia. reflexivity. }
  assert (HS1 : spec_text (dw ++ ty ++ [125]) (mk_specs 32 align_none 0 false false w (-1) type)).
  { exists [], [], [], [], dw, [], ty, 32, align_none, 0, false, false, w, (-1), type. split; [reflexivity|]. unfold align_part, sign_part, flag_part, width_part, precision_part.
    split; [auto|]. split; [auto|]. split; [reflexivity|]. split; [reflexivity|]. split; [right; split; [now apply number_read_digits|auto]|]. split; [auto|]. split; [exact HTy|reflexivity]. }
  apply (C47_dynamic_is_static a w spec_not_defined (ty ++ [125]) s0 (dw ++ ty ++ [125])); rewrite ?ES; auto.
  - constructor; [|vm_compute; intuition discriminate|intros _; vm_compute; discriminate|exact HT]. unfold in_range. change (imin i32) with (-2147483648). change (imax i32) with 2147483647. lia.
  - eapply type_bytes; eauto.
  - apply Forall_app. split; [apply digit_bytes, (proj2 HD)|eapply type_bytes; eauto].
  - eapply small_type; eauto.
  - assert (HB : denotes 10 dw < 2 ^ 32) by lia. assert (HSd := small_digits dw (proj2 HD) HB). destruct HTy as [(-> & _)|(-> & HC)].
    + apply small_split; [unfold digit_char; lia|exact HSd|exact small_nil].
    + apply small_split; [unfold digit_char, is_letter in *; lia|exact HSd|]. apply (small_split [] 125); try exact small_nil. unfold digit_char; lia.
  - intros HO. apply (octal_type _ _ HS0) in HO. contradiction.
  - intros HO. apply (octal_type _ _ HS1) in HO. contradiction.
Qed.
Print Assumptions C47_width.

Theorem C47_width_precision : forall a w p dw dp ty type,
  has_type (FCore (type_of a)) (VCore a) -> (type_of a = TDouble /\ p <= 1100 \/ type_of a = TStr /\ type <> 63) ->
  type_part ty type -> allowed (type_of a) (mk_specs 32 align_none 0 false false 0 (-1) type) -> width_digits dw w -> digits_text dp -> denotes 10 dp = p -> p < 2 ^ 31 ->
  exists out, formatted (str "{:" ++ ty ++ str "}") [(FDyn (FCore (type_of a)), VDyn w p (VCore a))] out /\
              formatted (str "{:" ++ dw ++ str "." ++ dp ++ ty ++ str "}") [(FCore (type_of a), VCore a)] out.
Proof.
  intros a w p dw dp ty type HT HC HTy HA (HD & HH & HN & HL) HDp HNp HLp. change (str "}") with [125]. change (str ".") with [46]. assert (HW := denotes_nonneg_digits dw HD). assert (HP := denotes_nonneg_digits dp HDp).
  assert (HS0 := type_spec ty type HTy). set (s0 := mk_specs 32 align_none 0 false false 0 (-1) type) in *.
  assert (H79 : type <> 79) by (intros ->; destruct HC as [(E & _)|(E & _)]; rewrite E in HA; cbn in HA; intuition discriminate).
  assert (ES : styled (mk_style false w p ([], [], [])) a s0 = mk_specs 32 align_none 0 false false w p type).
  { unfold styled. cbn [st_debug st_width st_precision]. replace (w =? spec_not_defined) with false by (unfold spec_not_defined; change (imax i32) with 2147483647; lia).
    replace (p =? spec_not_defined) with false by (unfold spec_not_defined; change (imax i32) with 2147483647; lia). rewrite !Z.max_r by lia.
    destruct HC as [(E & _)|(E & H63)]; destruct a; try discriminate E; [reflexivity|]. change (Specs.sp_type (set_width s0 w)) with type. replace (type =? 63) with false by lia. reflexivity. }
  assert (HS1 : spec_text (dw ++ [46] ++ dp ++ ty ++ [125]) (mk_specs 32 align_none 0 false false w p type)).
  { exists [], [], [], [], dw, (46 :: dp), ty, 32, align_none, 0, false, false, w, p, type. split; [reflexivity|]. unfold align_part, sign_part, flag_part, width_part, precision_part.
    split; [auto|]. split; [auto|]. split; [reflexivity|]. split; [reflexivity|]. split; [right; split; [now apply number_read_digits|auto]|]. split; [right; exists dp; split; [reflexivity|now apply number_read_digits]|]. split; [exact HTy|reflexivity]. }
  apply (C47_dynamic_is_static a w p (ty ++ [125]) s0 (dw ++ [46] ++ dp ++ ty ++ [125])); rewrite ?ES; auto.
  - constructor; [| |intros E|exact HT]; unfold in_range; change (imin i32) with (-2147483648); change (imax i32) with 2147483647; try lia. cbn in E. destruct HC as [(_ & H)|(E' & _)]; [exact H|congruence].
  - eapply type_bytes; eauto.
  - apply Forall_app. split; [apply digit_bytes, (proj2 HD)|]. constructor; [unfold is_byte; lia|]. apply Forall_app. split; [apply digit_bytes, (proj2 HDp)|eapply type_bytes; eauto].
  - eapply small_type; eauto.
  - assert (HB : denotes 10 dw < 2 ^ 32) by lia. assert (HSd := small_digits dw (proj2 HD) HB). assert (HB' : denotes 10 dp < 2 ^ 32) by lia. assert (HSd' := small_digits dp (proj2 HDp) HB').
    apply small_split; [exact not_digit_46|exact HSd|]. destruct HTy as [(-> & _)|(-> & HL')].
    + apply small_split; [unfold digit_char; lia|exact HSd'|exact small_nil].
    + apply small_split; [unfold digit_char, is_letter in *; lia|exact HSd'|]. apply (small_split [] 125); try exact small_nil. unfold digit_char; lia.
  - destruct HC as [(E & H)|(E & H)]; rewrite E in *; cbn in *; intuition.
  - intros HO. apply (octal_type _ _ HS0) in HO. contradiction.
  - intros HO. apply (octal_type _ _ HS1) in HO. contradiction.
Qed.
Print Assumptions C47_width_precision.

(** Values out of range are not rejected: a negative width counts as none; the
    limit of the precision of floating-point numbers is not checked. *)
Theorem C47_negative_width_refuted : exists a w,
  in_range i32 w /\ w < 0 /\ run (str "{}") [(FDyn (FCore (type_of a)), VDyn w spec_not_defined (VCore a))] = Ok (Ok tt, str "7").
Proof. exists (AInt i32 7), (-5). split; [vm_compute; intuition discriminate|]. split; [lia|vm_compute; reflexivity]. Qed.
Print Assumptions C47_negative_width_refuted.
Theorem C47_precision_limit_refuted : exists p,
  in_range i32 p /\ vstr_from (str "{:.1101e}") [FCore TDouble] = Ok (mk_vstr false (Err invalid_format)) /\ p = 1101 /\
  exists out, run (str "{:e}") [(FDyn (FCore TDouble), VDyn spec_not_defined p (VCore (ADouble 4607182418800017408)))] = Ok (Ok tt, out) /\ length out = 1107%nat.
Proof.
  exists 1101. split; [vm_compute; intuition discriminate|]. split; [vm_compute; reflexivity|]. split; [reflexivity|]. eexists. split; vm_compute; reflexivity.
Qed.
Print Assumptions C47_precision_limit_refuted.
(** Precisions beyond 16 bits are cut: 2^-1074 with 65535 decimals is written
    without a single one. *)
Theorem C47_precision_cut_refuted :
  run (str "{:f}") [(FDyn (FCore TDouble), VDyn spec_not_defined 65535 (VCore (ADouble 1)))] = Ok (Ok tt, str "0.").
Proof. vm_compute. reflexivity. Qed.
Print Assumptions C47_precision_cut_refuted.

Example C47_example :
  has_type (FCore TDouble) (VCore (ADouble 4614253070214989087)) /\ type_part (str "f") 102 /\
  allowed TDouble (mk_specs 32 align_none 0 false false 0 (-1) 102) /\ width_digits (str "10") 10 /\ digits_text (str "2") /\ denotes 10 (str "2") = 2 /\
  run (str "{:f}") [(FDyn (FCore TDouble), VDyn 10 2 (VCore (ADouble 4614253070214989087)))] = Ok (Ok tt, str "      3.14").
Proof.
  split; [apply (ht_core (ADouble 4614253070214989087)); [cbn; lia|exact Logic.I]|]. split; [right; split; [reflexivity|unfold is_letter; lia]|]. split; [cbn; split; [lia|tauto]|].
  split; [split; [digs|]; split; [discriminate|]; split; [reflexivity|lia]|]. split; [digs|]. split; [reflexivity|vm_compute; reflexivity].
Qed.
