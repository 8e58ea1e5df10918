(** The writer on any lawful buffer. *)
From Verif Require Import Base Conversion Buffer Writer Lib SpecNum SpecEscape ConversionProofs BufferProofs Emits.

(** ** Escaping *)
Lemma byte_sweep (p : Z -> bool) : forallb p (zrange 256) = true -> forall c, is_byte c -> p c = true.
Proof. intros H c Hc. apply (sweep 256 p H). exact Hc. Qed.

Definition list_eqb (a b : list Z) : bool := if list_eq_dec Z.eq_dec a b then true else false.
Lemma list_eqb_eq a b : list_eqb a b = true -> a = b.
Proof. unfold list_eqb. destruct (list_eq_dec Z.eq_dec a b); [auto|discriminate]. Qed.

Definition esc_check (c : Z) : bool :=
  if needs_escape c then
    match escape_char c with
    | Some e => list_eqb (escape c) (ch_backslash :: e) && (1 <=? length e)%nat && (length e <=? 3)%nat &&
                (length e =? if is_simple_escape c then 1 else 3)%nat
    | None => false
    end
  else list_eqb (escape c) [c].

Lemma escape_char_spec c : is_byte c ->
  if needs_escape c then
    exists e, escape_char c = Some e /\ escape c = ch_backslash :: e /\ (1 <= length e <= 3)%nat /\
              length e = (if is_simple_escape c then 1 else 3)%nat
  else escape c = [c].
Proof.
  intros Hc. assert (S : esc_check c = true) by (apply byte_sweep; [vm_compute; reflexivity|exact Hc]).
  unfold esc_check in S. destruct (needs_escape c).
  - destruct (escape_char c) as [e|]; [|discriminate]. exists e.
    apply andb_prop in S as [S S4]. apply andb_prop in S as [S S3]. apply andb_prop in S as [S1 S2].
    apply list_eqb_eq in S1. repeat split; auto; lia.
  - now apply list_eqb_eq.
Qed.

Lemma count_escaped t : Forall is_byte t -> count_size_when_escaped t = length (escape_text t).
Proof.
  intros H. induction H as [|c t Hc Ht IH]; [reflexivity|]. cbn. rewrite app_length.
  assert (S := escape_char_spec c Hc). destruct (needs_escape c); cbn [negb].
  - destruct S as (e & _ & -> & _ & L). cbn [length]. unfold escape_text in IH. destruct (is_simple_escape c); lia.
  - rewrite S. cbn [length]. unfold escape_text in IH. lia.
Qed.

(** What remains to be written by the helper. *)
Definition esc_rest (h : esc_helper) : list Z := e_rem h ++ escape_text (e_src h).

Lemma write_escaped_loop_ok src n : Forall is_byte src ->
  exists h, write_escaped_loop src n = Some (firstn n (escape_text src), h) /\
            esc_rest h = skipn n (escape_text src) /\ Forall is_byte (e_src h).
Proof.
  intros H. revert n. induction H as [|c src Hc Hs IH]; intros n.
  - exists (mk_esc [] []). cbn. rewrite firstn_nil, skipn_nil. repeat split; auto.
  - destruct n as [|n].
    + exists (mk_esc (c :: src) []). split; [reflexivity|]. split; [reflexivity|]. cbn. now constructor.
    + cbn [write_escaped_loop]. assert (S := escape_char_spec c Hc).
      change (escape_text (c :: src)) with (escape c ++ escape_text src).
      destruct (needs_escape c); cbn [negb].
      * destruct S as (e & -> & -> & L & _). cbn [obind].
        destruct (3 <=? n)%nat eqn:E3.
        -- replace (n <? length e)%nat with false by lia.
           destruct (IH (n - length e)%nat) as (h & -> & ER & EB). exists h. cbn [obind].
           cbn [app firstn skipn]. rewrite firstn_app, skipn_app.
           rewrite (firstn_all2 e) by lia. rewrite (skipn_all2 e) by lia. repeat split; auto.
        -- destruct (length e <=? n)%nat eqn:E4.
           ++ destruct (IH (n - length e)%nat) as (h & -> & ER & EB). exists h. cbn [obind].
              cbn [app firstn skipn]. rewrite firstn_app, skipn_app.
              rewrite (firstn_all2 e) by lia. rewrite (skipn_all2 e) by lia. repeat split; auto.
           ++ exists (mk_esc src (skipn n e)). cbn [app firstn skipn]. rewrite firstn_app, skipn_app.
              replace (n - length e)%nat with O by lia. cbn [firstn skipn]. rewrite app_nil_r. repeat split; auto.
      * rewrite S. destruct (IH n) as (h & -> & ER & EB). exists h. cbn. repeat split; auto.
Qed.

Lemma write_escaped_ok h n : Forall is_byte (e_src h) ->
  exists h', write_escaped h n = Some (firstn n (esc_rest h), h') /\
             esc_rest h' = skipn n (esc_rest h) /\ Forall is_byte (e_src h').
Proof.
  intros H. unfold write_escaped. unfold esc_rest at 1 3. rewrite firstn_app, skipn_app.
  destruct (Nat.min n (length (e_rem h)) <? length (e_rem h))%nat eqn:E.
  - replace (Nat.min n (length (e_rem h))) with n by lia.
    replace (n - length (e_rem h))%nat with O by lia. cbn [firstn skipn]. rewrite app_nil_r.
    eexists. split; [reflexivity|]. split; [reflexivity|exact H].
  - replace (Nat.min n (length (e_rem h))) with (length (e_rem h)) by lia.
    destruct (write_escaped_loop_ok (e_src h) (n - length (e_rem h))%nat H) as (h' & -> & ER & EB).
    exists h'. cbn [obind]. rewrite firstn_all. rewrite (firstn_all2 (e_rem h)) by lia.
    rewrite (skipn_all2 (e_rem h)) by lia. split; [reflexivity|]. split; [exact ER|exact EB].
Qed.

(** ** Emission of the writer *)
Section C.
  Context {K : Type} (vt : vtable K) (R : list Z -> bst K -> Prop) (cap amax room : option nat).
  Context (HK : chunky vt R cap room).
  Notation emits := (emits R cap amax room).

  Lemma write_str_loop_ok fuel : forall sv w b, (length sv <= fuel)%nat -> R w b ->
    obound room (length w + length sv) ->
    exists b', R (snd (exec1 cap amax w (Chunk sv))) b' /\
      write_str_loop vt fuel b sv = (if fst (exec1 cap amax w (Chunk sv)) then Ok tt else Err eof, b').
  Proof.
    induction fuel as [|fuel IH]; intros sv w b Hf HR HO.
    - destruct sv; [|cbn in Hf; lia]. exists b. cbn. rewrite app_nil_r, Nat.add_0_r.
      assert (C := k_cap _ _ _ _ HK w b HR). unfold obound, oboundb, ofirstn in *.
      destruct cap; [|now split]. rewrite firstn_all2 by lia. split; [exact HR|].
      now replace (length w <=? n)%nat with true by lia.
    - destruct sv as [|c sv].
      + exists b. cbn. rewrite app_nil_r, Nat.add_0_r.
        assert (C := k_cap _ _ _ _ HK w b HR). unfold obound, oboundb, ofirstn in *.
        destruct cap; [|now split]. rewrite firstn_all2 by lia. split; [exact HR|].
        now replace (length w <=? n)%nat with true by lia.
      + cbn [write_str_loop]. remember (c :: sv) as d eqn:Ed.
        assert (Hd : (0 < length d)%nat) by (subst d; cbn; lia).
        destruct (k_area vt R cap room HK w b (length d) HR Hd HO)
          as [(b' & -> & HR' & HC)|(a & b' & -> & L & B & C & P)].
        * exists b'. rewrite (exec1_full cap amax w d HC) by (subst; discriminate). now split.
        * cbn [sbind]. replace (length d <? s_len a)%nat with false by lia.
          assert (LF : length (firstn (s_len a) d) = s_len a) by (rewrite firstn_length; lia).
          rewrite (store_area_ok vt) by lia. cbn [sbind].
          rewrite <- (firstn_skipn (s_len a) d).
          rewrite (exec1_split cap amax) by (rewrite LF; exact C).
          destruct (IH (skipn (s_len a) d) (w ++ firstn (s_len a) d) (put_area vt b' a (firstn (s_len a) d)))
            as (b2 & HR2 & E2).
          -- rewrite skipn_length. lia.
          -- now apply P.
          -- rewrite app_length, LF, skipn_length. eapply obound_le; [|exact HO]. lia.
          -- exists b2. split; [exact HR2|]. rewrite <- E2. now rewrite firstn_skipn.
  Qed.

  Lemma write_str_emits sv : emits (fun b => write_str vt b sv) [Chunk sv] (Ok tt).
  Proof.
    intros w b HR HO. rewrite exec_single. cbn in HO. rewrite app_nil_r in HO. now apply write_str_loop_ok.
  Qed.

  Lemma write_char_n_loop_ok c fuel : forall n w b, (n <= fuel)%nat -> R w b ->
    obound room (length w + n) ->
    exists b', R (snd (exec1 cap amax w (Chunk (repeat c n)))) b' /\
      write_char_n_loop vt fuel b c n = (if fst (exec1 cap amax w (Chunk (repeat c n))) then Ok tt else Err eof, b').
  Proof.
    induction fuel as [|fuel IH]; intros n w b Hf HR HO.
    - destruct n; [|lia]. exists b. cbn. rewrite app_nil_r, Nat.add_0_r.
      assert (C := k_cap _ _ _ _ HK w b HR). unfold obound, oboundb, ofirstn in *.
      destruct cap as [c0|]; [|now split]. rewrite firstn_all2 by lia. split; [exact HR|].
      now replace (length w <=? c0)%nat with true by lia.
    - destruct n as [|n'].
      + exists b. cbn. rewrite app_nil_r, Nat.add_0_r.
        assert (C := k_cap _ _ _ _ HK w b HR). unfold obound, oboundb, ofirstn in *.
        destruct cap as [c0|]; [|now split]. rewrite firstn_all2 by lia. split; [exact HR|].
        now replace (length w <=? c0)%nat with true by lia.
      + cbn [write_char_n_loop]. remember (S n') as n eqn:En.
        destruct (k_area vt R cap room HK w b n HR ltac:(lia) HO)
          as [(b' & -> & HR' & HC)|(a & b' & -> & L & B & C & P)].
        * exists b'. rewrite (exec1_full cap amax w _ HC) by (subst; discriminate). now split.
        * cbn [sbind]. 
          assert (LF : length (repeat c (s_len a)) = s_len a) by apply repeat_length.
          rewrite (store_area_ok vt) by lia. cbn [sbind].
          replace (n <? s_len a)%nat with false by lia.
          replace (repeat c n) with (repeat c (s_len a) ++ repeat c (n - s_len a))
            by (rewrite <- repeat_app; f_equal; lia).
          rewrite (exec1_split cap amax) by (rewrite LF; exact C).
          apply IH; [lia|now apply P|]. rewrite app_length, LF. eapply obound_le; [|exact HO]. lia.
  Qed.

  Lemma write_char_n_emits c n : emits (fun b => write_char_n vt b c n) [Chunk (repeat c n)] (Ok tt).
  Proof.
    intros w b HR HO. rewrite exec_single. cbn in HO. rewrite app_nil_r, repeat_length in HO.
    now apply write_char_n_loop_ok.
  Qed.

  (** A granted area [a0], whose first characters were filled with [pre]; [a] is
      the rest of it. *)
  Record pend (w : list Z) (b : bst K) (a : span) (b0 : bst K) (a0 : span) (pre : list Z) : Prop := {
    p_pre : (length pre <= s_len a0)%nat;
    p_pos : (0 < s_len a0)%nat;
    p_a : a = subspan a0 (length pre);
    p_b : forall d, (length d <= s_len a)%nat -> put_area vt b a d = put_area vt b0 a0 (pre ++ d);
    p_cells : length (v_cells vt (b_kind b)) = length (v_cells vt (b_kind b0));
    p_in : (s_off a0 + s_len a0 <= length (v_cells vt (b_kind b0)))%nat;
    p_cap : obound cap (length w + s_len a0);
    p_R : forall d, length d = s_len a0 -> R (w ++ d) (put_area vt b0 a0 d)
  }.

  Lemma pend_len w b a b0 a0 pre : pend w b a b0 a0 pre -> (length pre + s_len a)%nat = s_len a0.
  Proof. intros []. subst a. cbn [subspan s_len]. lia. Qed.

  Lemma pend_store w b a b0 a0 pre d : pend w b a b0 a0 pre -> (length d <= s_len a)%nat ->
    store_area vt b a d = (Ok tt, put_area vt b0 a0 (pre ++ d)).
  Proof.
    intros H Hd. assert (L := pend_len _ _ _ _ _ _ H). destruct H. rewrite (store_area_ok vt); [now rewrite p_b0|exact Hd|].
    rewrite p_cells0. subst a. cbn [subspan s_off s_len]. lia.
  Qed.

  Lemma pend_store2 w b a b0 a0 pre d e : pend w b a b0 a0 pre -> (length d + length e <= s_len a)%nat ->
    store_area vt (put_area vt b0 a0 (pre ++ d)) (subspan a (length d)) e = (Ok tt, put_area vt b0 a0 (pre ++ d ++ e)).
  Proof.
    intros H Hd. assert (L := pend_len _ _ _ _ _ _ H). destruct H. rewrite (store_area_ok vt).
    - replace (subspan a (length d)) with (subspan a0 (length (pre ++ d))).
      + rewrite (put_area_app vt R cap room HK) by (rewrite ?app_length; lia). now rewrite <- app_assoc.
      + subst a. unfold subspan. cbn [s_off s_len]. rewrite app_length. f_equal; lia.
    - cbn [subspan s_len]. lia.
    - rewrite (put_area_cells vt R cap room HK) by (rewrite app_length; lia).
      subst a. cbn [subspan s_off s_len] in *. lia.
  Qed.

  Lemma pend_new w b a : (0 < s_len a)%nat -> (s_off a + s_len a <= length (v_cells vt (b_kind b)))%nat ->
    obound cap (length w + s_len a) -> (forall d, length d = s_len a -> R (w ++ d) (put_area vt b a d)) ->
    pend w b a b a [].
  Proof.
    intros H1 H2 H3 H4. constructor; auto; [cbn; lia|]. destruct a; unfold subspan; cbn; f_equal; lia.
  Qed.

  Lemma pend_full w b a b0 a0 pre d : pend w b a b0 a0 pre -> length d = s_len a ->
    R (w ++ pre ++ d) (put_area vt b0 a0 (pre ++ d)).
  Proof.
    intros H Hd. assert (L := pend_len _ _ _ _ _ _ H). destruct H. apply p_R0. rewrite app_length. lia.
  Qed.

  (** The rest fits into the current area, up to the end quote. *)
  Lemma escaped_last quote fuel h es w b a b0 a0 pre :
    Forall is_byte (e_src h) -> es = length (esc_rest h) -> pend w b a b0 a0 pre ->
    (es <= s_len a <= es + 1)%nat ->
    obound room (length w + length pre + es + 1) ->
    exists b', R (snd (exec1 cap amax w (Chunk (pre ++ esc_rest h ++ [quote])))) b' /\
      write_str_escaped_loop vt fuel b a h es quote =
        (if fst (exec1 cap amax w (Chunk (pre ++ esc_rest h ++ [quote]))) then Ok tt else Err eof, b').
  Proof.
    intros HB Ees HP La HO. assert (LA := pend_len _ _ _ _ _ _ HP).
    destruct (write_escaped_ok h (s_len a) HB) as (h' & EW & ER & EB').
    assert (EF : firstn (s_len a) (esc_rest h) = esc_rest h) by (apply firstn_all2; lia).
    rewrite EF in EW.
    assert (EL : write_str_escaped_loop vt fuel b a h es quote =
      sbind (if (s_len (subspan a es) =? 0)%nat then get_write_area_of_max vt (put_area vt b0 a0 (pre ++ esc_rest h)) 1
             else (Ok (subspan a es), put_area vt b0 a0 (pre ++ esc_rest h)))
            (fun a b => store_area vt b a [quote])).
    { destruct fuel; cbn [write_str_escaped_loop]; rewrite EW, (pend_store _ _ _ _ _ _ _ HP) by lia; cbn [sbind];
        rewrite <- Ees; replace (es <? es)%nat with false by lia; cbv zeta;
        replace (es - es =? 0)%nat with true by lia; reflexivity. }
    rewrite EL. clear EL. cbn [subspan s_len].
    destruct (s_len a - es =? 0)%nat eqn:EA.
    - assert (HR := pend_full _ _ _ _ _ _ (esc_rest h) HP ltac:(lia)).
      rewrite app_assoc.
      rewrite (exec1_split cap amax) by (eapply obound_le; [|exact (p_cap _ _ _ _ _ _ HP)]; rewrite app_length; lia).
      destruct (k_area vt R cap room HK _ _ 1 HR ltac:(lia)) as [(b' & -> & HR' & HC)|(a' & b' & -> & L & B' & C' & P')].
      { rewrite !app_length. eapply obound_le; [|exact HO]. lia. }
      + exists b'. rewrite (exec1_full cap amax _ [quote] HC) by discriminate. now split.
      + cbn [sbind]. exists (put_area vt b' a' [quote]).
        rewrite (store_area_ok vt) by (cbn [length]; lia).
        assert (s_len a' = 1%nat) by lia.
        rewrite (exec1_fits cap amax) by (cbn [length]; eapply obound_le; [|exact C']; lia).
        split; [apply P'; cbn [length]; lia|reflexivity].
    - cbn [sbind]. exists (put_area vt b0 a0 (pre ++ esc_rest h ++ [quote])).
      replace es with (length (esc_rest h)).
      rewrite (pend_store2 _ _ _ _ _ _ _ _ HP) by (cbn [length]; lia).
      rewrite (exec1_fits cap amax) by (eapply obound_le; [|exact (p_cap _ _ _ _ _ _ HP)]; rewrite !app_length; cbn [length]; lia).
      split; [|reflexivity]. apply (p_R _ _ _ _ _ _ HP). rewrite !app_length. cbn [length]. lia.
  Qed.

  Lemma write_str_escaped_loop_ok quote fuel : forall h es w b a b0 a0 pre,
    Forall is_byte (e_src h) -> es = length (esc_rest h) ->
    (es <= fuel \/ es <= S fuel /\ 0 < s_len a)%nat -> pend w b a b0 a0 pre ->
    (s_len a <= es + 1)%nat ->
    obound room (length w + length pre + es + 1) ->
    exists b', R (snd (exec1 cap amax w (Chunk (pre ++ esc_rest h ++ [quote])))) b' /\
      write_str_escaped_loop vt fuel b a h es quote =
        (if fst (exec1 cap amax w (Chunk (pre ++ esc_rest h ++ [quote]))) then Ok tt else Err eof, b').
  Proof.
    induction fuel as [|fuel IH]; intros h es w b a b0 a0 pre HB Ees Hf HP La HO;
      (destruct (le_lt_dec es (s_len a)) as [LE|LT]; [now apply (escaped_last _ _ _ _ _ _ _ b0 a0)|]); [exfalso; lia|].
    assert (LA := pend_len _ _ _ _ _ _ HP).
    destruct (write_escaped_ok h (s_len a) HB) as (h' & EW & ER & EB').
    cbn [write_str_escaped_loop]. rewrite EW, (pend_store _ _ _ _ _ _ _ HP) by (rewrite firstn_length; lia). cbn [sbind].
    rewrite firstn_length, <- Ees. replace (Nat.min (s_len a) es) with (s_len a) in * by lia.
    replace (es <? s_len a)%nat with false by lia. cbv zeta.
    replace (es - s_len a =? 0)%nat with false by lia.
    set (now1 := firstn (s_len a) (esc_rest h)).
    assert (LN : length now1 = s_len a) by (unfold now1; rewrite firstn_length; lia).
    assert (HR := pend_full _ _ _ _ _ _ now1 HP LN).
    assert (SPL : pre ++ esc_rest h ++ [quote] = (pre ++ now1) ++ esc_rest h' ++ [quote]).
    { rewrite ER. unfold now1. rewrite <- !app_assoc. f_equal. rewrite !app_assoc. f_equal. symmetry. apply firstn_skipn. }
    rewrite SPL.
    rewrite (exec1_split cap amax) by (eapply obound_le; [|exact (p_cap _ _ _ _ _ _ HP)]; rewrite app_length; lia).
    assert (LR : length (esc_rest h') = (es - s_len a)%nat) by (rewrite ER, skipn_length; lia).
    destruct (k_area vt R cap room HK _ _ (es - s_len a + 1) HR ltac:(lia)) as [(b' & -> & HR' & HC)|(a' & b' & -> & L & B' & C' & P')].
    { rewrite !app_length. eapply obound_le; [|exact HO]. lia. }
    - exists b'. rewrite (exec1_full cap amax _ _ HC) by (destruct (esc_rest h'); discriminate). now split.
    - cbn [sbind].
      apply (IH h' (es - s_len a)%nat (w ++ pre ++ now1) b' a' b' a' []); auto; try lia.
      + apply pend_new; auto; lia.
      + rewrite !app_length. cbn [length]. eapply obound_le; [|exact HO]. lia.
  Qed.

  Lemma write_str_escaped_impl_emits sv quote : Forall is_byte sv ->
    emits (fun b => write_str_escaped_impl vt b sv (count_size_when_escaped sv) quote)
          [Chunk (quote :: escape_text sv ++ [quote])] (Ok tt).
  Proof.
    intros HB w b HR HO. rewrite exec_single. cbn in HO. rewrite app_nil_r, app_length in HO. cbn [length] in HO.
    unfold write_str_escaped_impl. rewrite count_escaped by assumption. cbn beta.
    destruct (k_area vt R cap room HK w b (length (escape_text sv) + 2) HR ltac:(lia)) as [(b' & -> & HR' & HC)|(a' & b' & -> & L & B' & C' & P')].
    { eapply obound_le; [|exact HO]. lia. }
    - exists b'. rewrite (exec1_full cap amax _ _ HC) by discriminate. now split.
    - cbn [sbind]. rewrite (store_area_ok vt) by (cbn [length]; lia). cbn [sbind].
      change (quote :: escape_text sv ++ [quote]) with ([quote] ++ esc_rest (mk_esc sv []) ++ [quote]).
      apply write_str_escaped_loop_ok with (b0 := b') (a0 := a'); auto.
      + constructor; auto; try (cbn [length]; lia).
        * intros d Hd. cbn [subspan s_len] in Hd.
          replace (subspan a' 1) with (subspan a' (length [quote])) by reflexivity.
          apply (put_area_app vt R cap room HK); [cbn [length]; lia|exact B'].
        * apply (put_area_cells vt R cap room HK). cbn [length]. lia.
      + cbn [subspan s_len]. lia.
      + cbn [length]. eapply obound_le; [|exact HO]. lia.
  Qed.

  Lemma write_char_escaped_emits c : is_byte c ->
    emits (fun b => write_char_escaped vt b c) [Chunk (ch_apos :: escape c ++ [ch_apos])] (Ok tt).
  Proof.
    intros H. assert (E := write_str_escaped_impl_emits [c] ch_apos). cbn [escape_text flat_map] in E.
    rewrite app_nil_r in E. apply E. constructor; [exact H|constructor].
  Qed.

  Lemma write_str_escaped_emits sv : Forall is_byte sv ->
    emits (fun b => write_str_escaped vt b sv) [Chunk (ch_quote :: escape_text sv ++ [ch_quote])] (Ok tt).
  Proof. apply write_str_escaped_impl_emits. Qed.

End C.

(** ** Integers *)
Definition int_text (v base : Z) (upper : bool) : list Z :=
  (if v <? 0 then [ch_minus] else []) ++ numeral base upper (Z.abs v).

Lemma splice_sign cells n d : length cells = S (length d) -> n = S (length d) ->
  splice (splice cells 0 [ch_minus]) (n - length d) d = ch_minus :: d.
Proof.
  intros H ->. replace (S (length d) - length d)%nat with (0 + length [ch_minus])%nat by (cbn [length]; lia).
  rewrite splice_app by (cbn [length]; lia). apply splice_full. cbn [app length]. lia.
Qed.

Lemma write_int_as_fill {K} (vt : vtable K) t v base upper :
  is_ity t -> in_range t v -> 2 <= base <= 36 ->
  exists f, (forall b, write_int vt b t v base upper =
    sbind (get_write_area_of vt b (length (int_text v base upper))) (fun a b => fill_area vt b a f)) /\
    forall cells, length cells = length (int_text v base upper) -> f cells = Some (int_text v base upper).
Proof.
  intros Ht Hv Hb. unfold write_int, write_int_impl.
  replace (is_valid_number_base base) with true by (unfold is_valid_number_base; lia). cbn [negb].
  assert (EA : to_absolute (upcasted t) v = Z.abs v /\ 0 <= Z.abs v < 2 ^ 64 /\ is_negative (upcasted t) v = (v <? 0)).
  { unfold in_range in Hv. unfold is_ity in Ht. cbn in Ht. unfold to_absolute, is_negative.
    decompose [or] Ht; subst; try contradiction; unfold upcasted, imin, imax in *; cbn in Hv |- *; zlit; zlit;
      (split; [|split]); try lia; destruct (v <? 0) eqn:?; try lia; reflexivity. }
  destruct EA as (-> & HA & ->).
  rewrite (get_number_of_digits_ok upper) by lia. cbv zeta.
  assert (EQ : (length (numeral base upper (Z.abs v)) + (if (v <? 0)%Z then 1 else 0))%nat = length (int_text v base upper)).
  { unfold int_text. destruct (v <? 0); cbn [app length]; lia. }
  rewrite EQ. eexists. split; [reflexivity|]. intros cells Hc.
  assert (E2 := EQ). unfold int_text in Hc |- *. destruct (v <? 0); cbn [app length] in *.
  - rewrite store_ok by lia. cbn [obind]. rewrite write_number_ok by (rewrite ?splice_length by (cbn [length]; lia); lia).
    cbn [obind]. f_equal. apply splice_sign; lia.
  - cbn [obind]. rewrite write_number_ok by lia. cbn [obind]. f_equal.
    rewrite Nat.sub_diag. apply splice_full. lia.
Qed.

Section W.
  Context {K : Type} (vt : vtable K) (R : list Z -> bst K -> Prop) (cap amax room : option nat).
  Context (HL : lawful vt R cap amax room).
  Notation emits := (emits R cap amax room).

  Lemma write_char_emits c : emits (fun b => write_char vt b c) [Atom [c]] (Ok tt).
  Proof. apply (emits_store vt R cap amax room HL [c]). Qed.

  Lemma write_int_emits t v base upper :
    is_ity t -> in_range t v -> 2 <= base <= 36 ->
    emits (fun b => write_int vt b t v base upper) [Atom (int_text v base upper)] (Ok tt).
  Proof.
    intros Ht Hv Hb. destruct (write_int_as_fill vt t v base upper Ht Hv Hb) as (f & E & Hf).
    eapply emits_ext; [exact E|]. now apply (emits_atom vt R cap amax room HL).
  Qed.

  Lemma write_int_bad_base t v base upper :
    ~ (2 <= base <= 36) -> emits (fun b => write_int vt b t v base upper) [] (Err invalid_argument).
  Proof.
    intros Hb. unfold write_int, write_int_impl.
    replace (is_valid_number_base base) with false by (unfold is_valid_number_base; lia). cbn [negb].
    apply emits_ret.
  Qed.
End W.

(** ** Un-escaping *)
Lemma unescape1_escape c r : is_byte c -> unescape1 (escape c ++ r) = Some (c, r).
Proof.
  intros Hc.
  assert (S : match unescape1 (escape c) with Some (x, []) => x =? c | _ => false end = true).
  { revert c Hc. apply byte_sweep. vm_compute. reflexivity. }
  unfold unescape1 in *. destruct (escape c) as [|x e]; [discriminate|]. cbn [app].
  destruct (negb (x =? ch_backslash)); [destruct e; [|discriminate]; cbn; f_equal; f_equal; lia|].
  destruct e as [|y e]; [discriminate|]. cbn [app].
  repeat match goal with |- context [if (y =? ?k) then _ else _] => destruct (y =? k) end;
    try (destruct e; [|discriminate]; cbn; f_equal; f_equal; lia).
  destruct e as [|h [|l e]]; try discriminate. cbn [app].
  destruct (digit_value h), (digit_value l); try discriminate. destruct e; [|discriminate]. cbn. f_equal. f_equal. lia.
Qed.

Lemma escape_nonempty c : escape c <> [].
Proof. unfold escape. repeat match goal with |- context [if ?b then _ else _] => destruct b end; discriminate. Qed.

Lemma unescape_escape t : Forall is_byte t -> forall fuel, (length (escape_text t) <= fuel)%nat -> unescape fuel (escape_text t) = Some t.
Proof.
  intros H. induction H as [|c t Hc Ht IH]; intros fuel Hf; [destruct fuel; reflexivity|].
  cbn in Hf |- *. rewrite app_length in Hf. assert (N := escape_nonempty c). assert (U := unescape1_escape c (escape_text t) Hc).
  destruct (escape c) as [|x e]; [congruence|]. cbn [length] in Hf. destruct fuel as [|fuel]; [lia|].
  cbn [app unescape] in *. fold (escape_text t). rewrite U, IH by (unfold escape_text; lia). reflexivity.
Qed.

Lemma escape_printable c : is_byte c -> forallb printable (escape c) = true.
Proof. revert c. apply (byte_sweep (fun c => forallb printable (escape c))). vm_compute. reflexivity. Qed.

Lemma escape_text_printable t : Forall is_byte t -> Forall (fun c => printable c = true) (escape_text t).
Proof.
  intros H. apply Forall_flat_map. eapply Forall_impl; [|exact H]. intros c Hc. apply Forall_forall.
  apply forallb_forall, escape_printable, Hc.
Qed.
