(** Property theorems about the reads of an expected text. *)
From Verif Require Import Base Lib Reader.

(** ** C61 Reads of an expected character or text *)
Theorem C61_match_char : forall sv p c,
  let r := mk_reader sv p in
  (p <= length sv)%nat ->
  (forall rest, skipn p sv = c :: rest -> read_if_match_char r c = (Ok c, mk_reader sv (S p))) /\
  (forall x rest, skipn p sv = x :: rest -> x <> c -> read_if_match_char r c = (Err invalid_data, r)) /\
  (skipn p sv = [] -> read_if_match_char r c = (Err eof, r)).
Proof.
  intros sv p c r H.
  assert (N : forall x rest, skipn p sv = x :: rest -> peek r = Ok x).
  { intros x rest E. unfold peek, at_eof, r. cbn [rtext rpos].
    pose proof (skipn_length p sv) as L. rewrite E in L. cbn in L.
    replace (length sv =? p)%nat with false by lia.
    rewrite <- (firstn_skipn p sv) at 1. rewrite nth_error_app2; rewrite firstn_length; [|lia].
    replace (p - Nat.min p (length sv))%nat with O by lia. now rewrite E. }
  unfold read_if_match_char. repeat split.
  - intros rest E. rewrite (N _ _ E), Z.eqb_refl. unfold set_pos, r. cbn [rtext rpos]. do 2 f_equal. lia.
  - intros x rest E D. rewrite (N _ _ E). now replace (x =? c) with false by lia.
  - intros E. unfold peek, at_eof, r. cbn [rtext rpos]. pose proof (skipn_length p sv) as L. rewrite E in L. cbn in L.
    now replace (length sv =? p)%nat with true by lia.
Qed.
Print Assumptions C61_match_char.

Lemma prefixb_app s l : prefixb s l = true <-> exists rest, l = s ++ rest.
Proof.
  revert l. induction s as [|x s IH]; intros l; cbn [prefixb].
  - split; [intros _; now exists l|reflexivity].
  - destruct l as [|y l]; [split; [discriminate|intros (rest & E); discriminate]|].
    rewrite andb_true_iff, Z.eqb_eq, IH. split.
    + intros (-> & rest & ->). now exists rest.
    + intros (rest & E). injection E as -> ->. eauto.
Qed.

(** The text is read exactly when it is next; otherwise the error tells whether
    the input is too short for it. *)
Theorem C61_match_str : forall sv p s,
  let r := mk_reader sv p in
  (p <= length sv)%nat ->
  (forall rest, skipn p sv = s ++ rest -> read_if_match_str r s = (Ok s, mk_reader sv (p + length s))) /\
  ((forall rest, skipn p sv <> s ++ rest) ->
     read_if_match_str r s = (Err (if (length sv <? p + length s)%nat then eof else invalid_data), r)).
Proof.
  intros sv p s r H. unfold read_if_match_str, cnt_remaining, view_remaining, set_pos, r. cbn [rtext rpos]. split.
  - intros rest E. pose proof (skipn_length p sv) as L. rewrite E, app_length in L.
    replace (length sv - p <? length s)%nat with false by lia.
    replace (prefixb s (skipn p sv)) with true by (symmetry; apply prefixb_app; eauto).
    rewrite E, firstn_app, firstn_all, Nat.sub_diag. cbn [firstn]. now rewrite app_nil_r.
  - intros D. destruct (length sv - p <? length s)%nat eqn:E.
    + now replace (length sv <? p + length s)%nat with true by lia.
    + replace (length sv <? p + length s)%nat with false by lia.
      destruct (prefixb s (skipn p sv)) eqn:F; [|reflexivity].
      apply prefixb_app in F. destruct F as (rest & F). now destruct (D rest).
Qed.
Print Assumptions C61_match_str.

(** The characters of [s] read one after the other with read_if_match_char. *)
Fixpoint match_each (r : reader) (s : list Z) : outcome unit * reader :=
  match s with
  | [] => (Ok tt, r)
  | c :: s => match read_if_match_char r c with
              | (Ok _, r) => match_each r s
              | (Err e, r) => (Err e, r)
              | (_, r) => (Undef, r)
              end
  end.

(** Reading a text is reading its characters, but for the position after a
    failure (that of the first difference for the characters). *)
Theorem C61_one_at_a_time : forall sv p s,
  let r := mk_reader sv p in
  (p <= length sv)%nat ->
  (forall r', match_each r s = (Ok tt, r') <-> read_if_match_str r s = (Ok s, r')) /\
  (forall e r', match_each r s = (Err e, r') ->
     read_if_match_str r s = (Err (if (length sv <? p + length s)%nat then eof else invalid_data), r) /\
     exists a c b, s = a ++ c :: b /\ r' = mk_reader sv (p + length a) /\
       firstn (length a) (skipn p sv) = a /\ nth_error sv (p + length a) <> Some c) /\
  fst (match_each r s) <> Undef.
Proof.
  intros sv p s r H.
  assert (M : (exists rest, skipn p sv = s ++ rest /\ match_each r s = (Ok tt, mk_reader sv (p + length s))) \/
    (exists a c b e, s = a ++ c :: b /\ match_each r s = (Err e, mk_reader sv (p + length a)) /\
       (exists rest, skipn p sv = a ++ rest) /\ nth_error sv (p + length a) <> Some c)).
  { unfold r. clear r. revert p H. induction s as [|c s IH]; intros p H.
    - left. exists (skipn p sv). cbn. rewrite Nat.add_0_r. auto.
    - destruct (C61_match_char sv p c H) as (A & B & C). destruct (skipn p sv) as [|x rest] eqn:E.
      + right. exists [], c, s, eof. cbn [match_each app length]. rewrite (C eq_refl), Nat.add_0_r. split; [auto|]. split; [auto|].
        split; [now exists []|]. intros F. assert (p < length sv)%nat by (apply nth_error_Some; congruence).
        pose proof (skipn_length p sv) as L. rewrite E in L. cbn in L. lia.
      + assert (X : nth_error sv p = Some x /\ skipn (S p) sv = rest /\ (S p <= length sv)%nat).
        { pose proof (skipn_length p sv) as L. rewrite E in L. cbn in L. split; [|split; [|lia]].
          - rewrite <- (firstn_skipn p sv). rewrite nth_error_app2; rewrite firstn_length; [|lia].
            replace (p - Nat.min p (length sv))%nat with O by lia. now rewrite E.
          - rewrite <- (firstn_skipn p sv), E, skipn_app, firstn_length. rewrite skipn_all2 by (rewrite firstn_length; lia).
            replace (S p - Nat.min p (length sv))%nat with 1%nat by lia. reflexivity. }
        destruct X as (X1 & X2 & X3). destruct (Z.eq_dec x c) as [->|D].
        * cbn [match_each]. rewrite (A rest eq_refl). destruct (IH (S p) X3) as [(r1 & F & G)|(a & d & b & e & F & G & (r1 & I) & J)].
          -- left. exists r1. rewrite G. rewrite X2 in F. split; [cbn; now rewrite F|]. cbn [length]. do 2 f_equal. lia.
          -- right. exists (c :: a), d, b, e. rewrite F in *. split; [reflexivity|]. cbn [length].
             replace (p + S (length a))%nat with (S p + length a)%nat by lia. split; [exact G|]. split; [|exact J].
             exists r1. cbn. now rewrite <- I, X2.
        * right. exists [], c, s, invalid_data. cbn [match_each app length]. rewrite (B x rest eq_refl D), Nat.add_0_r. split; [auto|]. split; [auto|].
          split; [now exists (x :: rest)|]. rewrite X1. congruence. }
  destruct (C61_match_str sv p s H) as (A & B). fold r in A, B.
  destruct M as [(rest & E & F)|(a & c & b & e & E & F & (rest & G) & I)]; rewrite F.
  - rewrite (A rest E). split; [|split; [discriminate|discriminate]].
    intros r'. split; intros X; injection X as <-; reflexivity.
  - assert (D : forall r1, skipn p sv <> s ++ r1).
    { intros r1 X. apply I. pose proof (skipn_length p sv) as L.
      rewrite <- (firstn_skipn p sv). rewrite nth_error_app2; rewrite firstn_length; [|lia].
      replace (p + length a - Nat.min p (length sv))%nat with (length a) by lia.
      rewrite X, E, <- app_assoc. rewrite nth_error_app2 by lia. now rewrite Nat.sub_diag. }
    rewrite (B D). split; [intros r'; split; discriminate|]. split; [|discriminate].
    intros e' r' X. injection X as <- <-. split; [reflexivity|]. exists a, c, b. repeat split; auto.
    rewrite G, firstn_app, firstn_all, Nat.sub_diag. cbn [firstn]. apply app_nil_r.
Qed.
Print Assumptions C61_one_at_a_time.

Example C61_case :
  let r := mk_reader (str "xabc") 1 in
  skipn 1 (str "xabc") = str "ab" ++ str "c" /\
  read_if_match_str r (str "ab") = (Ok (str "ab"), mk_reader (str "xabc") 3) /\
  read_if_match_str r (str "ax") = (Err invalid_data, r) /\
  read_if_match_str r (str "zzzz") = (Err eof, r) /\
  match_each r (str "ax") = (Err invalid_data, mk_reader (str "xabc") 2) /\
  read_if_match_char r 97 = (Ok 97, mk_reader (str "xabc") 2) /\
  read_if_match_char r 98 = (Err invalid_data, r) /\
  read_if_match_char (mk_reader (str "xabc") 4) 98 = (Err eof, mk_reader (str "xabc") 4).
Proof. vm_compute. repeat split. Qed.
