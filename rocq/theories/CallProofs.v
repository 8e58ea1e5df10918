(** Calls of the writer and histories of calls on lawful buffers. *)
From Verif Require Import Base Conversion Buffer Writer Lib SpecNum SpecEscape SpecWriter ConversionProofs BufferProofs Emits WriterProofs.

(** ** Canonical numerals are unique *)
Lemma digit_char base up c : base <= 36 -> is_digit base c = true -> right_case up c = true ->
  exists d, digit_value c = Some d /\ 0 <= d < base /\ c = digit_to_char d up.
Proof.
  unfold is_digit, digit_value, right_case, digit_to_char. intros Hb H1 H2.
  destruct ((48 <=? c) && (c <=? 57)) eqn:E1; [exists (c - 48); replace (10 <=? c - 48) with false by lia; repeat split; lia|].
  destruct ((97 <=? c) && (c <=? 122)) eqn:E2.
  { exists (c - 97 + 10). replace (10 <=? c - 97 + 10) with true by lia. destruct up; [discriminate|]. repeat split; lia. }
  destruct ((65 <=? c) && (c <=? 90)) eqn:E3; [|discriminate].
  exists (c - 65 + 10). replace (10 <=? c - 65 + 10) with true by lia. destruct up; [|discriminate]. repeat split; lia.
Qed.

Lemma canonical_is_numeral base up t : 2 <= base <= 36 ->
  Forall (fun c => is_digit base c = true /\ right_case up c = true) t ->
  (t = [48] \/ exists c rest, t = c :: rest /\ c <> 48) -> 0 <= denotes base t /\ t = numeral base up (denotes base t).
Proof.
  intros Hb. induction t as [|c t IH] using rev_ind; intros HF HZ.
  { destruct HZ as [HZ|(c & r & HZ & _)]; discriminate. }
  apply Forall_app in HF as (HF & HFc). inversion HFc as [|? ? (D & RC) _]; subst.
  destruct (digit_char base up c ltac:(lia) D RC) as (d & Ed & Hd & Ec).
  rewrite denotes_snoc, Ed.
  destruct t as [|c0 t].
  - cbn [app denotes fold_left]. unfold denotes. cbn [fold_left]. replace (0 * base + d) with d by lia. split; [lia|].
    rewrite numeral_small by lia. now rewrite Ec.
  - assert (H0 : c0 <> 48).
    { destruct HZ as [HZ|(x & r & HZ & HN)]; [destruct t; discriminate|]. cbn in HZ. inversion HZ; subst. exact HN. }
    destruct (IH HF (or_intror (ex_intro _ c0 (ex_intro _ t (conj eq_refl H0))))) as (P & E).
    assert (P1 : denotes base (c0 :: t) <> 0).
    { intros Z0. rewrite Z0 in E. rewrite numeral_small in E by lia. vm_compute in E. destruct up; inversion E; congruence. }
    set (q := denotes base (c0 :: t)) in *. split; [lia|].
    rewrite numeral_step by nia.
    replace ((q * base + d) / base) with q by (apply Z.div_unique with d; lia).
    replace ((q * base + d) mod base) with d by (apply Z.mod_unique with q; lia).
    now rewrite <- E, Ec.
Qed.

Lemma canonical_unique base up n t : 2 <= base <= 36 -> canonical_numeral base up n t -> t = numeral base up n.
Proof. intros Hb (HF & HD & HZ). destruct (canonical_is_numeral base up t Hb HF HZ) as (_ & E). now rewrite HD in E. Qed.

Lemma integer_text_iff v base up t : 2 <= base <= 36 -> (integer_text v base up t <-> t = int_text v base up).
Proof.
  intros Hb. unfold integer_text, int_text. split.
  - intros (d & -> & C). now rewrite (canonical_unique _ _ _ _ Hb C).
  - intros ->. exists (numeral base up (Z.abs v)). split; [reflexivity|]. apply numeral_canonical; [assumption|lia].
Qed.

(** ** Calls *)
Definition text_of (c : wcall) : list Z :=
  match c with
  | WChar c => [c]
  | WCharN c n => repeat c n
  | WStr s => s
  | WCharEscaped c => ch_apos :: escape c ++ [ch_apos]
  | WStrEscaped s => ch_quote :: escape_text s ++ [ch_quote]
  | WInt _ v base upper => int_text v base upper
  end.

Lemma call_text_iff c t : call_ok c -> (call_text c t <-> t = text_of c).
Proof.
  destruct c; cbn; try tauto. intros (_ & _ & Hb). now apply integer_text_iff.
Qed.

Lemma call_text_of c : call_ok c -> call_text c (text_of c).
Proof. intros H. now apply call_text_iff. Qed.

Definition call_op (c : wcall) : op := if needs_one_area c then Atom (text_of c) else Chunk (text_of c).

Lemma call_op_data c : op_data (call_op c) = text_of c.
Proof. unfold call_op. now destruct (needs_one_area c). Qed.

Section L.
  Context {K : Type} (vt : vtable K) (R : list Z -> bst K -> Prop) (cap amax room : option nat).
  Context (HL : lawful vt R cap amax room).

  Lemma run_wcall_emits c : call_ok c -> emits R cap amax room (fun b => run_wcall vt b c) [call_op c] (Ok tt).
  Proof.
    intros H. assert (HK := lawful_chunky _ _ _ _ _ HL). destruct c; cbn [run_wcall]; cbn in H.
    - now apply write_char_emits.
    - now apply write_char_n_emits.
    - now apply write_str_emits.
    - now apply write_char_escaped_emits.
    - now apply write_str_escaped_emits.
    - destruct H as (H1 & H2 & H3). now apply write_int_emits.
  Qed.

  (** One call in terms of its text. *)
  Lemma run_wcall_ok c w b : call_ok c -> R w b -> obound room (length w + length (text_of c)) ->
    exists b', R (snd (exec1 cap amax w (call_op c))) b' /\
      run_wcall vt b c = (if fst (exec1 cap amax w (call_op c)) then Ok tt else Err eof, b').
  Proof.
    intros H HR HO. assert (E := run_wcall_emits c H w b HR). rewrite exec_single in E. apply E.
    cbn. rewrite app_nil_r, call_op_data. exact HO.
  Qed.
End L.

(** ** Histories *)
Section H.
  Context {K : Type} (vt : vtable K) (R : list Z -> bst K -> Prop) (cap amax : option nat).
  Context (HL : lawful vt R cap amax None) (sync : bst K -> bst K).

  (** [run_bops] one step at a time, from the end. *)
  Lemma run_bops_snoc b ops o : run_bops vt sync b (ops ++ [o]) = step_bop vt sync (run_bops vt sync b ops) o.
  Proof. unfold run_bops. now rewrite fold_left_app. Qed.

  (** Buffers without capacity whose sync keeps the text. *)
  Lemma run_bops_cached b : (forall w b, R w b -> R w (sync b)) -> cap = None -> R [] b -> forall ops, Forall op_ok ops ->
    exists t, log_text (fst (run_bops vt sync b ops)) t /\ R t (snd (run_bops vt sync b ops)) /\
      Forall (fun p => snd p = Ok tt \/ snd p = Err eof /\ needs_one_area (fst p) = true /\ ~ obound amax (length (text_of (fst p))))
             (fst (run_bops vt sync b ops)).
  Proof.
    intros HS HC HI ops. induction ops as [|o ops IH] using rev_ind; intros HF.
    - exists []. cbn. repeat split; auto. constructor.
    - apply Forall_app in HF as (HF & HFo). inversion HFo as [|? ? Ho _]; subst.
      destruct (IH HF) as (t & LT & HR & HA). rewrite run_bops_snoc.
      destruct (run_bops vt sync b ops) as [l b1]. cbn [fst snd] in *. destruct o as [c|]; cbn in Ho |- *.
      + destruct (run_wcall_ok vt R None amax None HL c t b1 Ho HR Logic.I) as (b2 & HR2 & ->). cbn [fst snd].
        assert (EO := exec1_ok None amax t (call_op c)). rewrite call_op_data in EO.
        assert (FL : fst (exec1 None amax t (call_op c)) = false ->
                     snd (exec1 None amax t (call_op c)) = t /\ needs_one_area c = true /\ ~ obound amax (length (text_of c))).
        { unfold call_op. destruct (needs_one_area c); cbn; [|discriminate].
          unfold oboundb, obound. destruct amax as [m|]; cbn; [|discriminate].
          destruct (length (text_of c) <=? m)%nat eqn:E; cbn; [discriminate|]. intros _. repeat split; lia. }
        destruct (exec1 None amax t (call_op c)) as [[|] w']; cbn [fst snd] in *.
        * exists (t ++ text_of c). split; [constructor; auto; now apply call_text_of|].
          split; [now rewrite <- EO|]. apply Forall_app. split; [exact HA|]. repeat constructor.
        * destruct (FL eq_refl) as (-> & F1 & F2). exists t. split; [now constructor|]. split; [assumption|].
          apply Forall_app. split; [exact HA|]. constructor; [cbn; tauto|constructor].
      + exists t. repeat split; auto.
  Qed.

  (** Buffers without any limit whose sync forgets the text. *)
  Lemma run_bops_mem b : (forall w b, R w b -> R [] (sync b)) -> cap = None -> amax = None -> R [] b ->
    forall ops, Forall op_ok ops ->
    exists t, history_text ops t /\ R t (snd (run_bops vt sync b ops)) /\
      Forall (fun p => snd p = Ok tt) (fst (run_bops vt sync b ops)).
  Proof.
    intros HS HC HM HI ops. induction ops as [|o ops IH] using rev_ind; intros HF.
    - exists []. repeat split; auto; constructor.
    - apply Forall_app in HF as (HF & HFo). inversion HFo as [|? ? Ho _]; subst.
      destruct (IH HF) as (t & LT & HR & HA). rewrite run_bops_snoc.
      destruct (run_bops vt sync b ops) as [l b1]. cbn [fst snd] in *. destruct o as [c|]; cbn in Ho |- *.
      + destruct (run_wcall_ok vt R None None None HL c t b1 Ho HR Logic.I) as (b2 & HR2 & ->). cbn [fst snd].
        exists (t ++ text_of c). split; [constructor; auto; now apply call_text_of|].
        assert (E : exec1 None None t (call_op c) = (true, t ++ text_of c)).
        { unfold call_op. now destruct (needs_one_area c). }
        rewrite E in *. cbn [fst snd] in *. split; [assumption|]. apply Forall_app. split; [exact HA|]. repeat constructor.
      + exists []. split; [econstructor; eauto|]. split; eauto.
  Qed.

  (** Buffers with a fixed capacity. *)
  Lemma run_bops_inv b : (forall w b, R w b -> exists w', R w' (sync b)) -> (exists w, R w b) -> forall ops, Forall op_ok ops ->
    exists w, R w (snd (run_bops vt sync b ops)).
  Proof.
    intros HS HI ops. induction ops as [|o ops IH] using rev_ind; intros HF; [exact HI|].
    apply Forall_app in HF as (HF & HFo). inversion HFo as [|? ? Ho _]; subst.
    destruct (IH HF) as (t & HR). rewrite run_bops_snoc.
    destruct (run_bops vt sync b ops) as [l b1]. cbn [fst snd] in *. destruct o as [c|]; cbn in Ho |- *.
    - destruct (run_wcall_ok vt R cap amax None HL c t b1 Ho HR Logic.I) as (b2 & HR2 & ->). eauto.
    - eauto.
  Qed.
End H.

Lemma history_text_unique ops : Forall op_ok ops -> forall t u, history_text ops t -> history_text ops u -> t = u.
Proof.
  induction ops as [|o ops IH] using rev_ind; intros HF t u H1 H2.
  - inversion H1; [|destruct ops; discriminate|destruct ops; discriminate].
    inversion H2; [reflexivity|destruct ops; discriminate|destruct ops; discriminate].
  - apply Forall_app in HF as (HF & HFo). inversion HFo as [|? ? Ho _]; subst.
    inversion H1 as [E|o1 t1 c1 u1 A1 B1 E|o1 t1 A1 E]; [destruct ops; discriminate| |].
    + apply app_inj_tail in E as (-> & <-).
      inversion H2 as [E|o2 t2 c2 u2 A2 B2 E|o2 t2 A2 E]; [destruct ops; discriminate| |].
      * apply app_inj_tail in E as (-> & E). inversion E; subst.
        f_equal; [now apply IH|]. apply call_text_iff in B1, B2; auto. congruence.
      * apply app_inj_tail in E as (_ & E). discriminate.
    + apply app_inj_tail in E as (-> & <-).
      inversion H2 as [E|o2 t2 c2 u2 A2 B2 E|o2 t2 A2 E]; [destruct ops; discriminate| |reflexivity].
      apply app_inj_tail in E as (_ & E). discriminate.
Qed.

(** ** Pieces: write_char on a chunky buffer *)
Lemma write_char_chunky {K} (vt : vtable K) R cap amax room c : chunky vt R cap room ->
  emits R cap amax room (fun b => write_char vt b c) [Chunk [c]] (Ok tt).
Proof.
  intros HK w b HR HO. rewrite exec_single. cbn in HO. unfold write_char, get_write_area_of.
  destruct (k_area _ _ _ _ HK w b 1 HR ltac:(lia) HO) as [(b' & -> & HR' & HC)|(a & b' & -> & L & B & C & P)].
  - exists b'. rewrite (exec1_full cap amax w [c] HC) by discriminate. now split.
  - cbn [sbind]. assert (L1 : s_len a = 1%nat) by lia. replace (s_len a <? 1)%nat with false by lia. cbn [sbind].
    rewrite (store_area_ok vt) by (cbn [length]; lia). rewrite (exec1_fits cap amax) by (cbn [length]; now rewrite <- L1).
    eexists. split; [apply P; cbn [length]; lia|reflexivity].
Qed.
