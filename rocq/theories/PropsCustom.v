(** Property C56: user-defined formatters. *)
From Verif Require Import Base Conversion Reader Buffer Writer Bitset Specs FormatArg FloatArg Format Custom.
From Verif Require Import Lib SpecNum SpecReader SpecEscape SpecWriter SpecFloat SpecFormat SpecDecimal SpecField SpecSpecs SpecString SpecCustom.
From Verif Require Import ConversionProofs ReaderProofs SpecsProofs BufferProofs Emits WriterProofs CallProofs FieldProofs PropsWriter PropsField StringProofs StringLoop StringEmits StringTop StringTuples PropsFormat CustomProofs SpecString SpecCustom.

(** ** Accepted format strings *)
Theorem C56_accepted : forall s us cs,
  Forall2 keeps us cs -> Forall is_byte s -> user_accepted s us -> (length us <= 128)%nat /\ (user_well_formed s cs \/ user_cut_short s cs).
Proof.
  intros s us cs HK HB HA. destruct (user_sound us cs HK s HB HA) as (its & ns & e & HAc & HL & HC). split; [exact HL|]. destruct (uacc_good us cs _ _ _ _ HAc) as (HS & HG).
  rewrite (keeps_len us cs HK) in HC.
  destruct (uacc_cut us cs _ _ _ _ _ _ _ HAc) as [-> |(H255 & _ & HD)].
  - left. exists its, ns. rewrite app_nil_r in HS. auto.
  - right. exists its, ns, e. auto.
Qed.
Print Assumptions C56_accepted.

Lemma small_fields its e : small_numbers (text_of its ++ e) -> Forall small_numbers (field_specs its).
Proof.
  intros HSm. apply Forall_forall. intros sp HI. unfold field_specs in HI. apply in_flat_map in HI. destruct HI as (i & HI & HX). destruct i as [| |index colon sp']; try contradiction. destruct HX as [->|[]].
  apply in_split in HI. destruct HI as (a & b & ->). rewrite text_of_app in HSm. apply (small_sub (text_of a ++ [123] ++ index ++ (if colon then [58] else [])) sp (text_of b ++ e)).
  replace ((text_of a ++ [123] ++ index ++ (if colon then [58] else [])) ++ sp ++ text_of b ++ e) with ((text_of a ++ text_of (Field index colon sp :: b)) ++ e); [exact HSm|]. cbn [text_of flat_map item_text]. fold (text_of b). rewrite <- !app_assoc. reflexivity.
Qed.

Theorem C56_accepted_iff : forall s us cs,
  Forall2 keeps us cs -> Forall is_byte s -> (length us <= 128)%nat -> small_numbers s ->
  user_accepted s us <-> user_well_formed s cs \/ user_cut_short s cs.
Proof.
  intros s us cs HK HB HL HSm. split; [intros HA; exact (proj2 (C56_accepted s us cs HK HB HA))|].
  intros [(its & ns & HS & HG & HC)|(its & ns & e & HS & HG & HC & H255 & HD)]; rewrite <- (keeps_len us cs HK) in HC.
  - apply (user_complete us cs s its ns []); auto. apply good_user; auto; [now rewrite app_nil_r|]. apply (small_fields its []). rewrite app_nil_r. now subst.
  - apply (user_complete us cs s its ns e); auto. apply good_user; auto. apply (small_fields its e). now subst.
Qed.
Print Assumptions C56_accepted_iff.

Theorem C56_rejected : forall s us cs,
  Forall2 keeps us cs -> Forall is_byte s -> (length us <= 128)%nat -> ~ user_well_formed s cs -> ~ user_cut_short s cs ->
  exists v, user_string s us = Ok v /\ vs_str v = Err invalid_format.
Proof.
  intros s us cs HK HB HL N1 N2. destruct (user_decided us cs HK s HB HL) as (v & HV & [HS|HS]); [|eauto].
  exfalso. destruct (C56_accepted s us cs HK HB) as [_ [H|H]]; [exists v; auto|contradiction..].
Qed.
Print Assumptions C56_rejected.

(** ** Output *)

(** For every kind of buffer: the characters and what the formatters promised, in
    order; a formatter that fails ends the call with its error, and what was
    written before remains. *)
Theorem C56_output : forall s us cs v,
  Forall2 keeps us cs -> Forall is_byte s -> user_string s us = Ok v -> vs_str v = Ok s ->
  exists its ns e out o, s = text_of its ++ e /\ user_items cs its ns /\ (e = [] \/ field_255 e) /\
    user_shows cs its ns out o /\ (o = Ok tt \/ exists e, o = Err e) /\ acts (fun K vt b => user_format_to vt b v us) out o.
Proof.
  intros s us cs v HK HB HV HS. destruct (user_sound us cs HK s HB) as (its & ns & e & HAc & _ & _); [exists v; auto|].
  destruct (user_writes us cs s v its ns e HB HV HS HAc) as (out & o & HO & HSh & HA). destruct (uacc_good us cs _ _ _ _ HAc) as (HT & HG).
  exists its, ns, e, out, o. split; [exact HT|]. split; [exact HG|]. split; [|auto]. destruct (uacc_cut us cs _ _ _ _ _ _ _ HAc) as [H|(H & _)]; auto.
Qed.
Print Assumptions C56_output.

(** In particular for memory buffers, with the reading of a well-formed string. *)
Theorem C56_memory : forall s us cs v its ns,
  Forall2 keeps us cs -> Forall is_byte s -> user_string s us = Ok v -> vs_str v = Ok s -> s = text_of its -> user_items cs its ns ->
  exists out o, user_shows cs its ns out o /\ forall storage capacity ops, Forall op_ok ops ->
    let b := mem_after storage capacity ops in
    exists b', user_format_to mem_vt b v us = (o, b') /\ mem_view b' = mem_view b ++ out.
Proof.
  intros s us cs v its ns HK HB HV HS HT HG. destruct (user_sound us cs HK s HB) as (its' & ns' & e & HAc & HL & _); [exists v; auto|].
  destruct (uacc_reading us cs HK s its ns its' ns' e HL HAc HT HG) as (-> & -> & ->).
  destruct (user_writes us cs s v its ns [] HB HV HS HAc) as (out & o & HO & HSh & (ops & <- & HA)).
  exists (ops_data ops), o. split; [exact HSh|]. intros storage capacity ops' HOp b.
  destruct (HA _ mem_vt mem_R None None None mem_lawful _ _ (mem_after_R storage capacity ops' HOp) Logic.I) as (b' & HR & E). rewrite exec_unlimited in HR, E. cbn [fst snd] in HR, E.
  exists b'. split; [exact E|]. now apply mem_R_view in HR.
Qed.
Print Assumptions C56_memory.

(** ** The formatters of the library *)

(** Arguments of the library's types are a special case: the same strings are
    accepted and the same calls are made. *)
Theorem C56_builtin : forall args,
  (forall s, user_string s (map builtin args) = vstr_from s (map fst args)) /\
  (forall K (vt : vtable K) b v, user_format_to vt b v (map builtin args) = vformat_to vt b v args).
Proof.
  intros args. split.
  - intros s. unfold user_string, vstr_from, validate_string. rewrite !map_length. destruct (_ && _); [reflexivity|]. f_equal.
    generalize (S (length s)) (reader_of s) (@None bool) 0 (bitset_new 128). induction n as [|fuel IH]; intros r use inc b; [reflexivity|].
    cbn [user_loop validate_loop]. rewrite !map_length. destruct (check_text _ r) as [[[]|?| |] r1]; try reflexivity.
    destruct (check_field r1 use inc) as [[[[k use'] inc']|?| |] r2]; try reflexivity. destruct (k =? no_more_args); [reflexivity|]. destruct (_ <=? k); [reflexivity|].
    destruct (bitset_set b (Z.to_nat k)) as [b'| | |]; try reflexivity. cbn [bind]. rewrite !nth_error_map. destruct (nth_error args (Z.to_nat k)) as [tv|]; [|reflexivity]. cbn [option_map].
    change (validate_trait (builtin tv) r2) with (validate_fty (fst tv) r2). destruct (validate_fty (fst tv) r2) as [[[]|?| |] r3]; try reflexivity. apply IH.
  - intros K vt b v. unfold user_format_to, vformat_to. f_equal. rewrite map_map. apply map_ext. intros [t x]. reflexivity.
Qed.
Print Assumptions C56_builtin.

(** They keep the promise of C21 and C22 (tuples excepted, see C46), so that they
    can be used together with others. *)
Definition builtin_contract (tv : fty * fval) : contract :=
  mk_contract (field_spec (fst tv))
    (fun sp out o => (o = Ok tt /\ shows (plain_style (fst tv)) (fst tv) sp (snd tv) out) \/ (o = Err invalid_format /\ (octal_spec sp \/ octal_in (snd tv)))).
Theorem C56_builtin_keeps : forall t x, tuple_free t -> has_type t x -> keeps (builtin (t, x)) (builtin_contract (t, x)).
Proof.
  intros t x HT HX. split; cbn [builtin_contract c_reads c_does fst snd].
  - intros sp. apply field_spec_end.
  - intros T n HB HN. change (validate_trait (builtin (t, x)) (mk_reader T n)) with (validate_fty t (mk_reader T n)).
    assert (S := validate_fty_total t (mk_reader T n) (mk_reader T n) HN eq_refl). destruct (validate_fty t (mk_reader T n)) as [[[]|?| |] r] eqn:E; try exact S; [|exact Logic.I].
    destruct (validate_fty_sound t T n r HB (or_introl HT) E) as (sp & rest & H1 & H2 & H3 & _). eauto.
  - intros T n sp rest HB HS HF HSm. exact (validate_fty_complete t T n sp rest HB (or_introl HT) HS HF HSm).
  - intros T n sp rest HB HS HF HV. change (validate_trait (builtin (t, x)) (mk_reader T n)) with (validate_fty t (mk_reader T n)) in HV.
    destruct (validate_fty_sound t T n _ HB (or_introl HT) HV) as (sp' & rest' & H3 & H4 & H5 & H6). injection H5 as H5. assert (LE : length sp' = length sp) by lia.
    assert (sp' = sp) as ->. { rewrite HS in H3. assert (X := f_equal (firstn (length sp)) H3). rewrite firstn_app_exact in X by reflexivity. rewrite <- LE, firstn_app_exact in X by reflexivity. now symmetry. }
    destruct (H6 None (default_brackets t)) as (m & HPW & HFm); [discriminate|]. cbv iota in HFm. rewrite fresh_default in HPW.
    assert (HW : attempt False (fun K vt b => format_fval vt m x b) (plain_shows (t, x) sp) (octal_spec sp \/ octal_in x)) by (apply plain_writes; [apply all_values_write|intros []|exact HX|exact HFm]).
    destruct HW as [(ops & HW & HQ & _)|(HO & ops & HW & _)].
    + exists m, (ops_data ops), (Ok tt). split; [exact HPW|]. split; [left; split; [reflexivity|exact HQ]|]. split; [now left|]. exists ops. split; [reflexivity|exact HW].
    + exists m, (ops_data ops), (Err invalid_format). split; [exact HPW|]. split; [right; split; [reflexivity|exact HO]|]. split; [right; eauto|]. exists ops. split; [reflexivity|exact HW].
Qed.
Print Assumptions C56_builtin_keeps.

(** ** Formatters of the documentation and of the tests *)

(** formatter.hpp:35-67, docs/API.md:675-706: a closing brace; the value is written with write_int *)
Definition number_user (x : Z) : user :=
  mk_user unit (Some match_rbrace) match_rbrace (fun K vt _ b => write_int vt b i32 x 10 false).
Definition number_contract (x : Z) : contract :=
  mk_contract (eq [125]) (fun _ out o => o = Ok tt /\ integer_text x 10 false out).

(** test/unit_test/test_formatter.cpp:62-92 ([validates]) and 196-216: an optional minus *)
Definition read_sign (r : reader) : outcome Z * reader :=
  sdo (c, r) <- read_char r ;;
  if c =? 125 then (Ok 1, r)
  else if c =? 45 then sdo (_, r) <- match_rbrace r ;; (Ok (-1), r)
  else (Err invalid_format, r).
Definition assume_sign (r : reader) : outcome Z * reader :=
  sdo (c, r) <- assume (read_char r) ;;
  if c =? 125 then (Ok 1, r) else (Ok (if c =? 45 then -1 else 1), pop r 1).
Definition sign_user (validates : bool) (name : list Z) (id : Z) : user :=
  mk_user Z (if validates then Some (fun r => sdo (_, r) <- read_sign r ;; (Ok tt, r)) else None)
    (if validates then assume_sign else read_sign)
    (fun K vt sign b => vformat_to vt b (mk_vstr false (Ok (name ++ str ": {}"))) [(int_t, int_v (sign * id))]).
Definition sign_text (name : list Z) (x : Z) (out : list Z) : Prop :=
  exists t, out = name ++ str ": " ++ t /\ shows (plain_style int_t) int_t [125] (int_v x) t.
Definition sign_contract (name : list Z) (id : Z) : contract :=
  mk_contract (fun sp => sp = str "}" \/ sp = str "-}")
    (fun sp out o => o = Ok tt /\ sign_text name (if (length sp =? 1)%nat then id else - id) out).

(** A formatter that writes something and fails. *)
Definition failing_user : user :=
  mk_user unit None match_rbrace (fun K vt _ b => sdo (_, b) <- write_str vt b (str "part") ;; (Err invalid_data, b)).
Definition failing_contract : contract := mk_contract (eq [125]) (fun _ out o => out = str "part" /\ o = Err invalid_data).

Lemma rbrace_trait T n : (n <= length T)%nat ->
  match match_rbrace (mk_reader T n) with
  | (Ok _, r) => exists sp rest, skipn n T = sp ++ rest /\ [125] = sp /\ r = mk_reader T (n + length sp)
  | (Err _, _) => True
  | _ => False
  end.
Proof.
  intros HN. assert (S := settled_brace (mk_reader T n) (mk_reader T n) HN eq_refl). destruct (match_rbrace (mk_reader T n)) as [[[]|?| |] r] eqn:E; try exact S; [|exact Logic.I].
  apply match_rbrace_ok in E. destruct E as ((l & E) & ->). exists [125], l. auto.
Qed.
Lemma trait_discard r : (sdo (_, r) <- match_rbrace r ;; (Ok tt, r)) = match_rbrace r.
Proof. destruct (match_rbrace r) as [[[]|?| |] r']; reflexivity. Qed.
Lemma rbrace_keeps (validates : bool) f does : 
  (exists out o, does [125] out o /\ (o = Ok tt \/ exists e, o = Err e) /\ acts (fun K vt b => f K vt tt b) out o) ->
  keeps (mk_user unit (if validates then Some match_rbrace else None) match_rbrace f) (mk_contract (eq [125]) does).
Proof.
  intros (out & o & HD & HO & HA). set (u := mk_user unit _ match_rbrace f).
  assert (V : forall r, validate_trait u r = match_rbrace r) by (intros r; unfold validate_trait, u; cbn [u_validate u_parse]; destruct validates; [reflexivity|apply trait_discard]).
  split; cbn [c_reads c_does].
  - intros sp <-. exists []. auto.
  - intros T n _ HN. rewrite V. exact (rbrace_trait T n HN).
  - intros T n sp rest _ HS <- _. rewrite V. apply match_rbrace_ok. split; [eauto|reflexivity].
  - intros T n sp rest _ HS <- HV. rewrite V in HV. exists tt, out, o. auto.
Qed.

Theorem C56_number : forall x, in_range i32 x -> keeps (number_user x) (number_contract x).
Proof.
  intros x HX. apply (rbrace_keeps true). exists (int_text x 10 false), (Ok tt). split; [split; [reflexivity|apply integer_text_iff; [lia|reflexivity]]|]. split; [now left|].
  exists [Atom (int_text x 10 false)]. split; [cbn; apply app_nil_r|]. intros K vt R cap amax room HL. apply (write_int_emits vt R cap amax room HL); [unfold is_ity; cbn; tauto|exact HX|lia].
Qed.
Print Assumptions C56_number.

Theorem C56_failing : keeps failing_user failing_contract.
Proof.
  apply (rbrace_keeps false). exists (str "part"), (Err invalid_data). split; [auto|]. split; [eauto|]. exists ([Chunk (str "part")] ++ []). split; [reflexivity|]. intros K vt R cap amax room HL.
  eapply emits_bind; [apply (write_str_emits vt R cap amax room (lawful_chunky _ _ _ _ _ HL))|]. cbn beta. apply emits_ret.
Qed.
Print Assumptions C56_failing.

Lemma read_at T n c l : skipn n T = c :: l -> read_char (mk_reader T n) = (Ok c, mk_reader T (S n)).
Proof. intros H. unfold read_char. rewrite (peek_at _ _ _ _ H). unfold set_pos. cbn [rpos rtext]. now rewrite Nat.add_1_r. Qed.
Lemma sign_inv T n s r : read_sign (mk_reader T n) = (Ok s, r) ->
  exists sp rest, skipn n T = sp ++ rest /\ r = mk_reader T (n + length sp) /\ ((sp = str "}" /\ s = 1) \/ (sp = str "-}" /\ s = -1)).
Proof.
  unfold read_sign. intros H. sinv H. unfold read_char in E. destruct (peek (mk_reader T n)) as [c| | |] eqn:EP; try discriminate. injection E as <- <-. apply peek_inv in EP. destruct EP as (l & EP).
  unfold set_pos in H. cbn [rpos rtext] in H. rewrite Nat.add_1_r in H.
  destruct (c =? 125) eqn:E1.
  - injection H as <- <-. exists (str "}"), l. assert (c = 125) as -> by lia. split; [exact EP|]. split; [f_equal; cbn; lia|auto].
  - destruct (c =? 45) eqn:E2; [|discriminate]. sinv H. injection H as <- <-. destruct x. apply match_rbrace_ok in E. destruct E as ((l' & E) & ->). assert (c = 45) as -> by lia.
    exists (str "-}"), l'. rewrite (skip_succ _ _ _ _ EP) in E. subst l. split; [exact EP|]. split; [f_equal; cbn; lia|auto].
Qed.
Lemma sign_fwd T n sp rest : skipn n T = sp ++ rest -> sp = str "}" \/ sp = str "-}" ->
  read_sign (mk_reader T n) = (Ok (if (length sp =? 1)%nat then 1 else -1), mk_reader T (n + length sp)) /\
  assume_sign (mk_reader T n) = (Ok (if (length sp =? 1)%nat then 1 else -1), mk_reader T (n + length sp)).
Proof.
  intros HS [-> | ->]; cbn [str app] in HS; unfold read_sign, assume_sign.
  - change (str "}") with [125] in *. cbn [app] in HS. rewrite (read_at _ _ _ _ HS). cbn [sbind assume]. change (125 =? 125) with true. cbv iota. cbn [length Nat.eqb]. rewrite Nat.add_1_r. auto.
  - change (str "-}") with [45; 125] in *. cbn [app] in HS. rewrite (read_at _ _ _ _ HS). cbn [sbind assume]. change (45 =? 125) with false. change (45 =? 45) with true. cbv iota.
    assert (HS1 := skip_succ _ _ _ _ HS). assert (E : match_rbrace (mk_reader T (S n)) = (Ok tt, mk_reader T (S n + 1))) by (apply match_rbrace_ok; eauto).
    rewrite E. cbn [sbind length Nat.eqb]. rewrite (pop_at _ _ _ _ HS1). replace (S n + 1)%nat with (n + 2)%nat by lia. replace (S (S n)) with (n + 2)%nat by lia. auto.
Qed.
Lemma sign_trait validates name id r : validate_trait (sign_user validates name id) r = (sdo (_, r) <- read_sign r ;; (Ok tt, r)).
Proof. destruct validates; reflexivity. Qed.

Lemma named_acts name x : Forall is_byte name -> (forall c, In c name -> ~ is_brace c) -> in_range i32 x ->
  exists out, sign_text name x out /\ acts (fun K vt b => vformat_to vt b (mk_vstr false (Ok (name ++ str ": {}"))) [(int_t, int_v x)]) out (Ok tt).
Proof.
  intros HB HN HX. set (its := map Literal (name ++ str ": ") ++ [Field [] false [125]]).
  assert (LT : forall l, text_of (map Literal l) = l) by (induction l as [|c l IH]; [reflexivity|cbn; f_equal; exact IH]).
  assert (ET : name ++ str ": {}" = text_of its) by (unfold its; rewrite text_of_app, LT, <- app_assoc; reflexivity).
  assert (PL : Forall plain_item (map Literal (name ++ str ": "))).
  { apply Forall_forall. intros i HI. apply in_map_iff in HI. destruct HI as (c & <- & HC). cbn. apply in_app_or in HC. destruct HC as [HC|HC]; [now apply HN|]. unfold is_brace. cbn in HC. lia. }
  assert (HBy : Forall is_byte (name ++ str ": {}")) by (apply Forall_app; split; [exact HB|bytes]).
  assert (FS : field_specs its = [[125]]) by (unfold its, field_specs; rewrite flat_map_app; replace (flat_map _ (map Literal _)) with (@nil (list Z)); [reflexivity|]; clear; induction (name ++ str ": "); [reflexivity|assumption]).
  assert (IX : indices its = [[]]) by (unfold its; rewrite plain_indices by exact PL; reflexivity).
  set (args := [(int_t, int_v x)]).
  assert (TY : typed args) by (constructor; [apply (ht_core (AInt i32 x)); [split; [unfold is_ity; cbn; tauto|exact HX]|exact Logic.I]|constructor]).
  assert (HA : acc (map fst args) (name ++ str ": {}") 0 None 0 its [0%nat] []).
  { apply good_string; [exact HBy|cbn; lia|now rewrite app_nil_r| | | |now left].
    - split; [unfold its; apply Forall_app; split; [now apply plain_ok|]; constructor; [split; [now left|reflexivity]|constructor]|]. split.
      + left. rewrite IX. split; [repeat constructor|reflexivity].
      + rewrite FS. constructor; [|constructor]. exists int_t. split; [reflexivity|]. apply brace_spec.
    - rewrite FS. constructor; [|constructor]. apply brace_small.
    - apply tuples_last_free. repeat constructor. }
  destruct (accepted_complete _ (map fst args) its [0%nat] [] HBy ltac:(cbn; lia) HA) as (v & HV & HS).
  { intros k HK. cbn in HK. left. lia. }
  assert (v = mk_vstr false (Ok (name ++ str ": {}"))) as -> by (destruct (vstr_cases _ _ _ HV HS) as [(_ & X & _)|(X & _)]; [discriminate|exact X]).
  destruct (format_attempt False args _ _ its [0%nat] [] HBy HV HS TY HA ltac:(tauto)) as [(ops & HW & HQ & _)|(HO & _)].
  - exists (ops_data ops). split; [|exists ops; split; [reflexivity|exact HW]].
    unfold its in HQ. clear - HQ. unfold string_shows in HQ.
    assert (G : forall l d, formats (fun n spec o => exists tv, nth_error args n = Some tv /\ shows (plain_style (fst tv)) (fst tv) spec (snd tv) o) (map Literal l ++ [Field [] false [125]]) [0%nat] d ->
      exists t, d = l ++ t /\ shows (plain_style int_t) int_t [125] (int_v x) t).
    { induction l as [|c l IH]; intros d H; cbn [map app] in H; inversion H; subst.
      - match goal with X : formats _ [] _ _ |- _ => inversion X; subst end. match goal with X : exists tv, _ |- _ => destruct X as (tv & E & HS) end. injection E as <-. eexists. split; [|exact HS]. cbn. apply app_nil_r.
      - match goal with X : formats _ (map Literal l ++ _) _ _ |- _ => destruct (IH _ X) as (t & -> & HT) end. exists t. auto. }
    destruct (G _ _ HQ) as (t & -> & HT). exists t. split; [now rewrite <- app_assoc|exact HT].
  - exfalso. rewrite FS in HO. destruct HO as [HO|HO]; inversion HO as [? ? X|? ? X]; subst; try (now inversion X).
    destruct X as (y & X). assert (Y := f_equal (@length Z) X). rewrite app_length in Y. cbn in Y. lia.
Qed.

Theorem C56_sign : forall validates name id,
  Forall is_byte name -> (forall c, In c name -> ~ is_brace c) -> - 2 ^ 31 < id < 2 ^ 31 ->
  keeps (sign_user validates name id) (sign_contract name id).
Proof.
  intros validates name id HB HN HI. split; cbn [sign_contract c_reads c_does].
  - intros sp [-> | ->]; [exists []|exists [45]]; (split; [reflexivity|]); cbn; lia.
  - intros T n _ HL. rewrite sign_trait. destruct (read_sign (mk_reader T n)) as [[s|e| |] r] eqn:E; cbn [sbind].
    + destruct (sign_inv _ _ _ _ E) as (sp & rest & H1 & H2 & H3). exists sp, rest. split; [exact H1|]. split; [destruct H3 as [[H _]|[H _]]; auto|exact H2].
    + exact Logic.I.
    + assert (S : settled (mk_reader T n) (read_sign (mk_reader T n))); [|rewrite E in S; exact S].
      unfold read_sign. apply settled_bind; [now apply settled_read|]. intros c r' W HT. destruct (c =? 125); [now apply settled_ok|]. destruct (c =? 45); [|now apply settled_err].
      apply settled_bind; [now apply settled_brace|]. intros. now apply settled_ok.
    + assert (S : settled (mk_reader T n) (read_sign (mk_reader T n))); [|rewrite E in S; exact S].
      unfold read_sign. apply settled_bind; [now apply settled_read|]. intros c r' W HT. destruct (c =? 125); [now apply settled_ok|]. destruct (c =? 45); [|now apply settled_err].
      apply settled_bind; [now apply settled_brace|]. intros. now apply settled_ok.
  - intros T n sp rest _ HS HR _. rewrite sign_trait, (proj1 (sign_fwd T n sp rest HS HR)). reflexivity.
  - intros T n sp rest _ HS HR _. destruct (sign_fwd T n sp rest HS HR) as [F1 F2].
    assert (HX : in_range i32 ((if (length sp =? 1)%nat then 1 else -1) * id)) by (unfold in_range; change (imin i32) with (- 2 ^ 31); change (imax i32) with (2 ^ 31 - 1); destruct (length sp =? 1)%nat; lia).
    destruct (named_acts name _ HB HN HX) as (out & HT & HA).
    exists (if (length sp =? 1)%nat then 1 else -1), out, (Ok tt). split; [cbn [sign_user u_parse]; destruct validates; assumption|]. split; [split; [reflexivity|]|].
    + replace (if (length sp =? 1)%nat then id else - id) with ((if (length sp =? 1)%nat then 1 else -1) * id) by (destruct (length sp =? 1)%nat; lia). exact HT.
    + split; [now left|exact HA].
Qed.
Print Assumptions C56_sign.

(** ** Examples *)
Definition user_run (s : list Z) (us : list user) : outcome (outcome unit * list Z) :=
  match user_string s us with
  | Ok v => match vs_str v with
            | Ok _ => let (o, b) := user_format_to mem_vt (memory_buffer 4 4) v us in Ok (o, mem_view b)
            | Err e => Err e | Undef => Undef | Abort => Abort
            end
  | Err e => Err e | Undef => Undef | Abort => Abort
  end.
(** test/unit_test/test_formatter.cpp:49-50, 124-126, 252-254 *)
Definition foo := sign_user true (str "foo").
Definition foobar := sign_user false (str "foobar").
Definition wrap_user (x : Z) := builtin (int_t, int_v x).
Example C56_tests :
  user_run (str "{}") [wrap_user 42] = Ok (Ok tt, str "42") /\
  user_run (str "{:x<4x}") [wrap_user 42] = Ok (Ok tt, str "2axx") /\
  user_run (str "{}") [foo 42] = Ok (Ok tt, str "foo: 42") /\
  user_run (str "{:-}") [foo 42] = Ok (Ok tt, str "foo: -42") /\
  user_run (str "{:+}") [foo 42] = Err invalid_format /\
  user_run (str "{}") [foobar 42] = Ok (Ok tt, str "foobar: 42") /\
  user_run (str "{:-}") [foobar 42] = Ok (Ok tt, str "foobar: -42") /\
  user_run (str "{:+}") [foobar 42] = Err invalid_format.
Proof. repeat split; vm_compute; reflexivity. Qed.

(** Several formatters in one string, which satisfies the hypotheses of all the
    theorems above. *)
Example C56_example :
  let us := [foo 7; number_user (-3); wrap_user 255; foobar 1] in
  let cs := [sign_contract (str "foo") 7; number_contract (-3); builtin_contract (int_t, int_v 255); sign_contract (str "foobar") 1] in
  let s := str "{1}, {0:-} {{{2:#x}}} {3}" in
  Forall2 keeps us cs /\ Forall is_byte s /\ small_numbers s /\ user_accepted s us /\ user_well_formed s cs /\
  user_run s us = Ok (Ok tt, str "-3, foo: -7 {0xff} foobar: 1").
Proof.
  intros us cs s. assert (HK : Forall2 keeps us cs).
  { unfold us, cs. constructor; [|constructor; [|constructor; [|constructor; [|constructor]]]].
    - apply C56_sign; [bytes|unfold is_brace; cbn; lia|lia].
    - apply C56_number. unfold in_range. cbn. lia.
    - apply C56_builtin_keeps; [exact Logic.I|]. apply (ht_core (AInt i32 255)); [split; [unfold is_ity; cbn; tauto|unfold in_range; cbn; lia]|exact Logic.I].
    - apply C56_sign; [bytes|unfold is_brace; cbn; lia|lia]. }
  assert (HB : Forall is_byte s) by bytes. assert (HA : user_accepted s us) by (exists (mk_vstr false (Ok s)); split; vm_compute; reflexivity).
  split; [exact HK|]. split; [exact HB|]. split; [|split; [exact HA|split]].
  - apply short_small. vm_compute. reflexivity.
  - destruct (proj2 (C56_accepted s us cs HK HB HA)) as [H|(its & ns & e & E & _ & _ & (index & c & rest & -> & HD & HV & _) & _)]; [exact H|].
    exfalso. destruct (denotes_255 index HD HV) as (z & ->). assert (X : In 53 s) by (rewrite E; apply in_or_app; right; right; apply in_or_app; left; apply in_or_app; right; cbn; auto).
    vm_compute in X. lia.
  - vm_compute. reflexivity.
Qed.

(** A formatter that fails in the middle. *)
Example C56_failing_example :
  Forall2 keeps [foo 7; failing_user; foobar 1] [sign_contract (str "foo") 7; failing_contract; sign_contract (str "foobar") 1] /\
  user_run (str "{} [{}] {}") [foo 7; failing_user; foobar 1] = Ok (Err invalid_data, str "foo: 7 [part").
Proof.
  split; [|vm_compute; reflexivity]. constructor; [|constructor; [|constructor; [|constructor]]].
  - apply C56_sign; [bytes|unfold is_brace; cbn; lia|lia].
  - apply C56_failing.
  - apply C56_sign; [bytes|unfold is_brace; cbn; lia|lia].
Qed.

(** The promise is needed: nothing checks that parsing stops where validating did.
    With a formatter whose parse function leaves the closing brace, an accepted string
    leads the parser behind the end of the string. *)
Definition lazy_user : user :=
  mk_user unit (Some match_rbrace) (fun r => (Ok tt, r)) (fun K vt _ b => write_char vt b 120).
Theorem C56_lazy_parse_refuted : exists u s v, Forall is_byte s /\ user_string s [u] = Ok v /\ vs_str v = Ok s /\
  (forall T n, (n <= length T)%nat -> exists m r, u_parse u (mk_reader T n) = (Ok m, r)) /\
  fst (user_format_to mem_vt (memory_buffer 4 4) v [u]) = Undef.
Proof.
  exists lazy_user, (str "{}"), (mk_vstr false (Ok (str "{}"))). split; [bytes|]. split; [vm_compute; reflexivity|]. split; [reflexivity|]. split; [|vm_compute; reflexivity].
  intros T n _. exists tt, (mk_reader T n). reflexivity.
Qed.
Print Assumptions C56_lazy_parse_refuted.
