(** Property C20: format specifications. *)
From Verif Require Import Base Conversion Reader Specs Lib SpecNum SpecReader SpecFormat SpecSpecs.
From Verif Require Import ReaderProofs SpecsProofs.

(** ** C20 Validated specifications are parsed identically without checks *)

(** The same specification, the same characters consumed, within the text.
    [parse_format_specs] unwraps every result without check; on a failing one
    its outcome would be [Undef]. *)
Theorem C20_parse_agrees : forall T n s0 s r',
  validate_format_specs (mk_reader T n) s0 = (Ok s, r') ->
  parse_format_specs (mk_reader T n) s0 = (Ok s, r').
Proof. intros T n s0 s r'. apply parse_same. Qed.
Print Assumptions C20_parse_agrees.

(** What an accepted specification is, what it means, and that exactly it is
    consumed: up to and including its closing brace. *)
Theorem C20_accepted_syntax : forall T n s r',
  Forall is_byte T -> validate_format_specs (mk_reader T n) default_specs = (Ok s, r') ->
  exists t rest, skipn n T = t ++ rest /\ spec_text t s /\ specs_ok s /\ r' = mk_reader T (n + length t) /\ (n + length t <= length T)%nat.
Proof.
  intros T n s r' HB H. destruct (validate_sound T n s r' HB H) as (t & rest & E & HS & ->). exists t, rest.
  split; [exact E|]. split; [exact HS|]. split; [|split; [reflexivity|]].
  - eapply spec_text_ok; [|exact HS]. assert (X := forall_skipn _ n _ HB). rewrite E in X. apply Forall_app in X. tauto.
  - assert (L := f_equal (@length Z) E). rewrite skipn_length, app_length in L.
    destruct HS as (fa & sg & al & ze & wd & pr & ty & ? & ? & ? & ? & ? & ? & ? & ? & Et & _). assert (length t <> O) by (rewrite Et, !app_length; cbn; lia). lia.
Qed.
Print Assumptions C20_accepted_syntax.

(** Every specification of this syntax with numbers below 2^31 is accepted. *)
Theorem C20_syntax_accepted : forall T n t rest s,
  Forall is_byte T -> skipn n T = t ++ rest -> spec_text t s -> small_numbers t ->
  validate_format_specs (mk_reader T n) default_specs = (Ok s, mk_reader T (n + length t)).
Proof. intros T n t rest s. apply validate_complete. Qed.
Print Assumptions C20_syntax_accepted.

(** The checks of the argument types. *)
Theorem C20_checks : forall ty t s, spec_text t s -> Forall is_byte t -> check_specs ty s = Ok tt <-> allowed ty s.
Proof. intros ty t s H HB. apply check_specs_iff. apply (spec_text_ok t s HB H). Qed.
Print Assumptions C20_checks.

(** Numbers from 2^32 on are misread: 5000000000 is the width 705032704. *)
Theorem C20_numbers_refuted : exists t s,
  validate_format_specs (reader_of t) default_specs = (Ok s, mk_reader t (length t)) /\
  t = str "5000000000}" /\ sp_width s = 705032704 /\ sp_width s <> denotes 10 (str "5000000000").
Proof.
  exists (str "5000000000}"), (set_width default_specs 705032704). split; [vm_compute; reflexivity|]. split; [reflexivity|]. split; [reflexivity|]. vm_compute. discriminate.
Qed.
Print Assumptions C20_numbers_refuted.

(** "*^+#012.5e}" behind an index *)
Example C20_example :
  let T := str "{0:*^+#012.5e} rest" in
  let s := mk_specs 42 align_center 43 true false 12 5 101 in
  Forall is_byte T /\ validate_format_specs (mk_reader T 3) default_specs = (Ok s, mk_reader T 14) /\
  parse_format_specs (mk_reader T 3) default_specs = (Ok s, mk_reader T 14) /\
  spec_text (str "*^+#012.5e}") s /\ allowed TDouble s /\ ~ allowed (TInt i32) s.
Proof.
  cbv zeta. split; [repeat constructor; unfold is_byte; lia|]. split; [vm_compute; reflexivity|]. split; [vm_compute; reflexivity|].
  split; [|split; [cbn; split; [lia|tauto]|cbn; lia]].
  exists (str "*^"), (str "+"), (str "#"), (str "0"), (str "12"), (str ".5"), (str "e"), 42, align_center, 43, true, true, 12, 5, 101.
  split; [reflexivity|]. split; [right; right; exists 94; unfold align_char; repeat split; auto; lia|]. split; [right; cbn; auto|].
  split; [reflexivity|]. split; [reflexivity|]. unfold width_part, precision_part, number_read, digits_text, type_part, is_letter.
  split; [right; split; [|discriminate]; split; [split; [discriminate|apply Forall_forall; cbn; intros x Hx; intuition lia]|]; split; [lia|reflexivity]|].
  split; [right; exists (str "5"); split; [reflexivity|]; split; [split; [discriminate|apply Forall_forall; cbn; intros x Hx; intuition lia]|]; split; [lia|reflexivity]|].
  split; [right; split; [reflexivity|lia]|]. reflexivity.
Qed.
