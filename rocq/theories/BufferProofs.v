(** Buffers obey a common law; proofs for each concrete buffer. *)
From Verif Require Import Base Lib Buffer.
#[global] Arguments Nat.ltb : simpl never.
#[global] Arguments Nat.leb : simpl never.
#[global] Arguments Nat.sub : simpl never.
#[global] Arguments Nat.max : simpl never.
#[global] Arguments Nat.min : simpl never.
#[global] Arguments Nat.eqb : simpl never.


Definition put_area {K} (vt : vtable K) (b : bst K) (a : span) (d : list Z) : bst K :=
  set_kind b (v_put vt (b_kind b) (splice (v_cells vt (b_kind b)) (s_off a) d)).

(** Optional bounds: [None] is no bound. *)
Definition obound (o : option nat) (n : nat) : Prop := match o with None => True | Some c => (n <= c)%nat end.
Definition omin (n : nat) (o : option nat) : nat := match o with None => n | Some c => Nat.min n c end.
Definition osub (o : option nat) (n : nat) : option nat := match o with None => None | Some c => Some (c - n)%nat end.

(** How much a request for [n] characters is granted after [w] characters were
    written: at most [amax] at once, at most [cap] in total. *)
Definition grant (cap amax : option nat) (w n : nat) : nat := omin (omin n amax) (osub cap w).

(** [R w b]: [b] is a valid state of the buffer in which [w] has been written.
    [cap]: total capacity; [amax]: largest area; [room]: the law only speaks
    about writes up to this total. *)
Record lawful {K} (vt : vtable K) (R : list Z -> bst K -> Prop) (cap amax room : option nat) : Prop := {
  l_put_cells : forall k c, v_cells vt (v_put vt k c) = c;
  l_put_put : forall k c c', v_put vt (v_put vt k c) c' = v_put vt k c';
  l_cap : forall w b, R w b -> obound cap (length w);
  l_amax : match amax with Some m => (1 <= m)%nat | None => True end;
  l_max : forall w b n, R w b -> obound room (length w + n) ->
    let g := grant cap amax (length w) n in
    if (g =? 0)%nat && negb (n =? 0)%nat then
      exists b', get_write_area_of_max vt b n = (Err eof, b') /\ R w b'
    else
      exists a b', get_write_area_of_max vt b n = (Ok a, b') /\ s_len a = g /\
        (s_off a + s_len a <= length (v_cells vt (b_kind b')))%nat /\
        (forall d, length d = s_len a -> R (w ++ d) (put_area vt b' a d)) /\
        R w (set_used b' (b_used b' - s_len a))
}.

(** ** Lists *)
Lemma splice_nil l i : splice l i [] = l.
Proof. unfold splice. simpl. rewrite Nat.add_0_r. apply firstn_skipn. Qed.

Lemma bst_eta {K} (b : bst K) : mk_bst (b_fixed b) (b_used b) (b_area b) (b_kind b) = b.
Proof. now destruct b. Qed.

Lemma firstn_app_length {A} (l1 l2 : list A) n : n = length l1 -> firstn n (l1 ++ l2) = l1.
Proof. intros ->. rewrite firstn_app, Nat.sub_diag, firstn_all. simpl. apply app_nil_r. Qed.

(** Storing after what is there. *)
Lemma splice_append l w d n : (n + length d <= length l)%nat -> length w = n -> firstn n l = w ->
  firstn (n + length d) (splice l n d) = w ++ d.
Proof. intros H1 H2 H3. rewrite firstn_splice_upto by lia. now rewrite H3. Qed.

(** ** memory_buffer *)
(** The size of the vector is its capacity, and the area ends there. *)
Definition mem_R (w : list Z) (b : bst mem_k) : Prop :=
  let k := b_kind b in
  b_fixed b = false /\
  m_size k = length (m_cells k) /\
  s_off (b_area b) = m_used k /\
  (m_used k + s_len (b_area b) <= m_size k)%nat /\
  (b_used b <= s_len (b_area b))%nat /\
  length w = (m_used k + b_used b)%nat /\
  firstn (length w) (m_cells k) = w.

Lemma mem_R_view w b : mem_R w b -> mem_view b = w.
Proof.
  intros (H0 & H1 & H2 & H3 & H4 & H5 & H6). unfold mem_view, get_used_count. now rewrite <- H5.
Qed.

Lemma mem_lawful : lawful mem_vt mem_R None None None.
Proof.
  constructor; [reflexivity|reflexivity| | | ].
  - intros. exact Logic.I.
  - exact Logic.I.
  - intros w b n (H0 & H1 & H2 & H3 & H4 & H5 & H6) _. unfold grant, omin, osub. cbv zeta.
    assert (E : (n =? 0)%nat && negb (n =? 0)%nat = false) by (destruct (n =? 0)%nat; reflexivity).
    rewrite E. clear E. unfold get_write_area_of_max. rewrite H0, orb_false_r.
    destruct (n <=? s_len (b_area b) - b_used b)%nat eqn:E.
    + replace ((s_len (b_area b) - b_used b =? 0)%nat && negb (n =? 0)%nat) with false
        by (symmetry; destruct (n =? 0)%nat eqn:?; simpl; [apply andb_false_r|rewrite andb_true_r; lia]).
      eexists. eexists. split; [reflexivity|]. cbn [s_len s_off].
      replace (Nat.min (s_len (b_area b) - b_used b) n) with n by lia.
      split; [reflexivity|]. cbn [b_kind set_used mem_vt v_cells]. split; [lia|]. split.
      * intros d Hd. unfold mem_R, put_area. cbn. rewrite splice_length by lia.
        repeat split; auto; try lia; rewrite ?app_length; try lia.
        rewrite H2, <- H5, Hd, <- Hd. apply splice_append; auto; lia.
      * unfold mem_R. cbn. repeat split; auto; try lia.
    + cbn [v_request mem_vt mem_request]. cbn [sbind].
      eexists. eexists. split; [reflexivity|]. cbn [s_len s_off b_kind set_used set_write_area set_kind b_used].
      split; [reflexivity|].
      set (k := b_kind b) in *.
      assert (EK : m_cells (reserve k (m_size k + n)) = m_cells k ++ repeat uninit n /\
                   m_size (reserve k (m_size k + n)) = (m_size k + n)%nat /\ m_used (reserve k (m_size k + n)) = m_used k).
      { unfold reserve. replace (length (m_cells k) <? m_size k + n)%nat with true by lia.
        cbn. rewrite H1, firstn_all. replace (length (m_cells k) + n - length (m_cells k))%nat with n by lia. auto. }
      destruct EK as (EK1 & EK2 & EK3). cbn [mem_vt v_cells m_cells m_used].
      rewrite EK1, EK3. rewrite app_length, repeat_length. split; [lia|].
      assert (HF : firstn (length w) (m_cells k ++ repeat uninit n) = w).
      { rewrite firstn_app. replace (length w - length (m_cells k))%nat with O by lia. simpl. now rewrite app_nil_r. }
      split.
      * intros d Hd. unfold mem_R, put_area. cbn. rewrite ?EK1, ?EK2, ?EK3.
        rewrite splice_length by (rewrite app_length, repeat_length; lia). rewrite !app_length, repeat_length.
        repeat split; auto; try lia. rewrite <- H5.
        apply splice_append; auto; rewrite app_length, repeat_length; lia.
      * unfold mem_R. cbn. rewrite ?EK1, ?EK2, ?EK3. rewrite !app_length, repeat_length.
        repeat split; auto; try lia.
Qed.

Lemma memory_buffer_init storage capacity : mem_R [] (memory_buffer storage capacity).
Proof.
  unfold memory_buffer, mem_request, mem_R, reserve. cbn.
  rewrite repeat_length.
  destruct (storage <? Nat.max storage capacity)%nat eqn:E; cbn; rewrite ?repeat_length; repeat split; lia.
Qed.

Lemma mem_reset_init w b : mem_R w b -> mem_R [] (mem_reset b).
Proof.
  intros (H0 & H1 & H2 & H3 & H4 & H5 & H6). unfold mem_reset, mem_request, mem_R, reserve. cbn.
  rewrite Nat.ltb_irrefl. cbn. repeat split; auto; lia.
Qed.

(** ** span_buffer *)
Definition span_R (w : list Z) (b : bst (list Z)) : Prop :=
  b_fixed b = true /\ b_area b = whole (b_kind b) /\ b_used b = length w /\
  (length w <= length (b_kind b))%nat /\ firstn (length w) (b_kind b) = w.

(** A span buffer over [c] characters. *)
Definition span_Rc (c : nat) (w : list Z) (b : bst (list Z)) : Prop := span_R w b /\ length (b_kind b) = c.

Lemma span_R_view w b : span_R w b -> span_view b = w.
Proof. intros (H1 & H2 & H3 & H4 & H5). unfold span_view, get_used_count. now rewrite H3. Qed.

Lemma span_lawful c : lawful span_vt (span_Rc c) (Some c) None None.
Proof.
  constructor; [reflexivity|reflexivity| | | ].
  - intros w b ((H1 & H2 & H3 & H4 & H5) & HC). simpl. lia.
  - exact Logic.I.
  - intros w b n ((H1 & H2 & H3 & H4 & H5) & HC) _. unfold grant, omin, osub. cbv zeta.
    unfold get_write_area_of_max. rewrite H1, orb_true_r, H2. cbn [whole s_len s_off]. rewrite H3, HC.
    destruct (Nat.min n (c - length w) =? 0)%nat eqn:E; destruct (n =? 0)%nat eqn:En; cbn [andb negb].
    + rewrite andb_false_r. eexists. eexists. split; [reflexivity|]. cbn. split; [lia|]. split; [lia|].
      split.
      * intros d Hd. assert (d = []) by (destruct d; [auto|simpl in Hd; lia]). subst d.
        rewrite app_nil_r. unfold put_area. cbn. rewrite splice_nil. unfold span_Rc, span_R. cbn.
        repeat split; auto; lia.
      * unfold span_Rc, span_R. cbn. repeat split; auto; try lia.
    + replace (c - length w =? 0)%nat with true by lia. cbn. eexists. split; [reflexivity|].
      unfold span_Rc, span_R. repeat split; auto.
    + lia.
    + replace (c - length w =? 0)%nat with false by lia. cbn.
      eexists. eexists. split; [reflexivity|]. cbn. split; [lia|]. split; [lia|]. split.
      * intros d Hd. unfold put_area, span_Rc, span_R, whole. cbn.
        rewrite splice_length by lia. rewrite app_length.
        repeat split; auto; try lia.
        apply splice_append; auto; lia.
      * unfold span_Rc, span_R. cbn. repeat split; auto; lia.
Qed.

Lemma span_buffer_init cells : span_Rc (length cells) [] (span_buffer cells).
Proof. unfold span_Rc, span_R, span_buffer, whole. cbn. repeat split; lia. Qed.

Lemma span_reset_init c w b : span_Rc c w b -> span_Rc c [] (span_reset b).
Proof.
  intros ((H1 & H2 & H3 & H4 & H5) & HC). unfold span_Rc, span_R, span_reset, whole. cbn.
  repeat split; auto; lia.
Qed.

(** ** Buffers with a cache *)

(** What all of them have in common: the area is the cache (or, for the
    counting buffer, initially empty); a request hands out the cache. *)
Lemma cached_max {K} (vt : vtable K) (b : bst K) n c :
  b_fixed b = false ->
  (b_area b = mk_span 0 c \/ b_area b = mk_span 0 0) -> (b_used b <= s_len (b_area b))%nat ->
  (n <= s_len (b_area b) - b_used b)%nat ->
  get_write_area_of_max vt b n = (Ok (mk_span (b_used b) n), set_used b (b_used b + n)).
Proof.
  intros F A U N. unfold get_write_area_of_max. rewrite F, orb_false_r.
  replace (n <=? s_len (b_area b) - b_used b)%nat with true by lia.
  replace ((s_len (b_area b) - b_used b =? 0)%nat && negb (n =? 0)%nat) with false
    by (symmetry; destruct (n =? 0)%nat eqn:?; simpl; [apply andb_false_r|rewrite andb_true_r; lia]).
  replace (Nat.min (s_len (b_area b) - b_used b) n) with n by lia.
  destruct A as [-> | ->]; reflexivity.
Qed.

(** *** iterator_buffer *)
Definition iter_R {I} (put : I -> Z -> I) (it0 : I) (c : nat) (w : list Z) (b : bst (iter_k I)) : Prop :=
  b_fixed b = false /\ b_area b = mk_span 0 c /\ (b_used b <= c)%nat /\ length (i_cache (b_kind b)) = c /\
  exists w0, w = w0 ++ firstn (b_used b) (i_cache (b_kind b)) /\ i_it (b_kind b) = fold_left put w0 it0.

Lemma iter_R_flush {I} (put : I -> Z -> I) it0 c w b : iter_R put it0 c w b ->
  iter_R put it0 c w (iter_flush put b) /\ i_it (b_kind (iter_flush put b)) = fold_left put w it0 /\
  b_used (iter_flush put b) = O /\ b_area (iter_flush put b) = mk_span 0 c.
Proof.
  intros (H1 & H2 & H3 & H4 & w0 & -> & H6). unfold iter_R, iter_flush, copy_str, whole, get_used_count. cbn.
  rewrite H6, fold_left_app, H4. repeat split; auto; try lia.
  eexists. split; [now rewrite app_nil_r|]. now rewrite fold_left_app.
Qed.

Lemma iter_lawful {I} (put : I -> Z -> I) it0 c : (1 <= c)%nat -> lawful (iter_vt put) (iter_R put it0 c) None (Some c) None.
Proof.
  intros Hc. constructor; [reflexivity|reflexivity| | | ].
  - intros. exact Logic.I.
  - exact Hc.
  - intros w b n HR _. unfold grant, omin, osub. cbv zeta.
    assert (E : (Nat.min n c =? 0)%nat && negb (n =? 0)%nat = false) by (destruct (n =? 0)%nat eqn:?; cbn; lia).
    rewrite E. clear E.
    assert (HR' := HR). destruct HR' as (H1 & H2 & H3 & H4 & w0 & Ew & H6).
    destruct (n <=? c - b_used b)%nat eqn:E.
    + rewrite (cached_max _ b n c) by (auto; rewrite H2; cbn; lia).
      eexists. eexists. split; [reflexivity|]. cbn. split; [lia|]. split; [lia|]. split.
      * intros d Hd. unfold iter_R, put_area. cbn. rewrite splice_length by lia.
        repeat split; auto; try lia. exists w0. split; [|auto].
        rewrite <- Hd, firstn_splice_upto by lia. rewrite Ew, app_assoc. reflexivity.
      * unfold iter_R. cbn. repeat split; auto; try lia. exists w0. split; [|auto].
        replace (b_used b + n - n)%nat with (b_used b) by lia. exact Ew.
    + unfold get_write_area_of_max. rewrite H1, orb_false_r, H2. cbn [s_len]. rewrite E.
      cbn [v_request iter_vt]. unfold iter_request.
      destruct (iter_R_flush put it0 c w b HR) as ((F1 & F2 & F3 & F4 & w1 & F5 & F6) & F7 & F8 & F9).
      set (b1 := iter_flush put b) in *. clearbody b1.
      cbn [s_len whole]. rewrite F4.
      set (b2 := set_write_area b1 (whole (i_cache (b_kind b1)))).
      assert (X : exists a, (if (c <? n)%nat then (Ok (whole (i_cache (b_kind b1))), b2) else (Ok (mk_span 0 n), b2))
                 = (Ok a, b2) /\ s_len a = Nat.min n c /\ s_off a = O).
      { destruct (c <? n)%nat eqn:E1; eexists; (split; [reflexivity|]); cbn; rewrite ?F4; lia. }
      destruct X as (a & -> & La & Oa). cbn [sbind].
      exists a. eexists. split; [reflexivity|]. cbn. split; [exact La|]. split; [lia|]. split.
      * intros d Hd. unfold iter_R, put_area. cbn. rewrite Oa, splice_length by lia. unfold whole. rewrite ?F4.
        repeat split; auto; try lia. exists w. split; [|exact F7].
        rewrite <- Hd. rewrite (firstn_splice_upto _ 0 d) by lia. reflexivity.
      * unfold iter_R. cbn. unfold whole. rewrite ?F4. repeat split; auto; try lia. exists w. split; [|exact F7].
        rewrite Nat.sub_diag. cbn. now rewrite app_nil_r.
Qed.

Lemma iterator_buffer_init {I} (put : I -> Z -> I) it c : iter_R put it c [] (iterator_buffer c it).
Proof.
  unfold iter_R, iterator_buffer, whole. cbn. rewrite repeat_length. repeat split; try lia.
  exists []. split; reflexivity.
Qed.

(** *** counting_buffer *)
Definition count_R (c : nat) (w : list Z) (b : bst count_k) : Prop :=
  b_fixed b = false /\ (b_area b = mk_span 0 c \/ b_area b = mk_span 0 0) /\ (b_used b <= s_len (b_area b))%nat /\
  length (c_cache (b_kind b)) = c /\ length w = (c_used (b_kind b) + b_used b)%nat.

Lemma count_R_count c w b : count_R c w b -> count_count b = length w.
Proof. intros (_ & _ & _ & _ & H). symmetry. exact H. Qed.

Lemma count_lawful c : (1 <= c)%nat -> lawful count_vt (count_R c) None (Some c) None.
Proof.
  intros Hc. constructor; [reflexivity|reflexivity| | | ].
  - intros. exact Logic.I.
  - exact Hc.
  - intros w b n HR _. unfold grant, omin, osub. cbv zeta.
    assert (E : (Nat.min n c =? 0)%nat && negb (n =? 0)%nat = false) by (destruct (n =? 0)%nat eqn:?; cbn; lia).
    rewrite E. clear E. destruct HR as (H1 & H2 & H3 & H4 & H5).
    assert (LC : (s_len (b_area b) <= c)%nat) by (destruct H2 as [-> | ->]; cbn; lia).
    destruct (n <=? s_len (b_area b) - b_used b)%nat eqn:E.
    + rewrite (cached_max _ b n c) by (auto; lia).
      eexists. eexists. split; [reflexivity|]. cbn. split; [lia|]. split; [lia|]. split.
      * intros d Hd. unfold count_R, put_area. cbn. rewrite splice_length by lia.
        repeat split; auto; try lia. rewrite app_length. lia.
      * unfold count_R. cbn. repeat split; auto; lia.
    + unfold get_write_area_of_max. rewrite H1, orb_false_r, E.
      cbn [v_request count_vt]. unfold count_request. cbn [c_cache whole s_len]. rewrite H4.
      set (b2 := set_write_area _ _).
      assert (X : exists a, (if (c <? n)%nat then (Ok (whole (c_cache (b_kind b))), b2) else (Ok (mk_span 0 n), b2))
                 = (Ok a, b2) /\ s_len a = Nat.min n c /\ s_off a = O).
      { destruct (c <? n)%nat eqn:E1; eexists; (split; [reflexivity|]); cbn; rewrite ?H4; lia. }
      destruct X as (a & -> & La & Oa). cbn [sbind].
      exists a. eexists. split; [reflexivity|]. cbn. split; [exact La|]. split; [lia|]. split.
      * intros d Hd. unfold count_R, put_area. cbn. rewrite Oa, splice_length by lia. unfold whole. rewrite ?H4.
        repeat split; auto; try lia. rewrite app_length. lia.
      * unfold count_R. cbn. unfold whole. rewrite ?H4. repeat split; auto; try lia.
Qed.

Lemma counting_buffer_init c : count_R c [] (counting_buffer c).
Proof. unfold count_R, counting_buffer. cbn. rewrite repeat_length. repeat split; auto. Qed.

(** *** file_buffer, the stream accepting everything *)
Definition file_R (out0 : list Z) (c : nat) (w : list Z) (b : bst file_k) : Prop :=
  b_fixed b = false /\ b_area b = mk_span 0 c /\ (b_used b <= c)%nat /\ length (f_cache (b_kind b)) = c /\
  f_limits (b_kind b) = [] /\
  exists w0, w = w0 ++ firstn (b_used b) (f_cache (b_kind b)) /\ f_out (b_kind b) = out0 ++ w0.

Lemma file_R_flush out0 c w b : file_R out0 c w b ->
  exists b', file_flush b = (Ok tt, b') /\ file_R out0 c w b' /\ f_out (b_kind b') = out0 ++ w /\
  b_used b' = O /\ b_area b' = mk_span 0 c.
Proof.
  intros (H1 & H2 & H3 & H4 & H5 & w0 & -> & H6).
  unfold file_flush, fwrite, whole, get_used_count. rewrite H5. cbn.
  rewrite firstn_length. replace (Nat.min (b_used b) (length (f_cache (b_kind b)))) with (b_used b) by lia.
  rewrite Nat.eqb_refl. eexists. split; [reflexivity|]. unfold file_R. cbn. rewrite H4, H6, app_assoc.
  repeat split; auto; try lia. eexists. split; [now rewrite app_nil_r|]. now rewrite app_assoc.
Qed.

Lemma file_lawful out0 c : (1 <= c)%nat -> lawful file_vt (file_R out0 c) None (Some c) None.
Proof.
  intros Hc. constructor; [reflexivity|reflexivity| | | ].
  - intros. exact Logic.I.
  - exact Hc.
  - intros w b n HR _. unfold grant, omin, osub. cbv zeta.
    assert (E : (Nat.min n c =? 0)%nat && negb (n =? 0)%nat = false) by (destruct (n =? 0)%nat eqn:?; cbn; lia).
    rewrite E. clear E.
    assert (HR' := HR). destruct HR' as (H1 & H2 & H3 & H4 & H5 & w0 & Ew & H6).
    destruct (n <=? c - b_used b)%nat eqn:E.
    + rewrite (cached_max _ b n c) by (auto; rewrite H2; cbn; lia).
      eexists. eexists. split; [reflexivity|]. cbn. split; [lia|]. split; [lia|]. split.
      * intros d Hd. unfold file_R, put_area. cbn. rewrite splice_length by lia.
        repeat split; auto; try lia. exists w0. split; [|auto].
        rewrite <- Hd, firstn_splice_upto by lia. rewrite Ew, app_assoc. reflexivity.
      * unfold file_R. cbn. repeat split; auto; try lia. exists w0. split; [|auto].
        replace (b_used b + n - n)%nat with (b_used b) by lia. exact Ew.
    + unfold get_write_area_of_max. rewrite H1, orb_false_r, H2. cbn [s_len]. rewrite E.
      cbn [v_request file_vt]. unfold file_request.
      destruct (file_R_flush out0 c w b HR) as (b1 & -> & (F1 & F2 & F3 & F4 & F5 & w1 & F6 & F7) & F8 & F9 & F10).
      cbn [sbind]. cbn [s_len whole]. rewrite F4.
      set (b2 := set_write_area b1 (whole (f_cache (b_kind b1)))).
      assert (X : exists a, (if (c <? n)%nat then (Ok (whole (f_cache (b_kind b1))), b2) else (Ok (mk_span 0 n), b2))
                 = (Ok a, b2) /\ s_len a = Nat.min n c /\ s_off a = O).
      { destruct (c <? n)%nat eqn:E1; eexists; (split; [reflexivity|]); cbn; rewrite ?F4; lia. }
      destruct X as (a & -> & La & Oa). cbn [sbind].
      exists a. eexists. split; [reflexivity|]. cbn. split; [exact La|]. split; [lia|]. split.
      * intros d Hd. unfold file_R, put_area. cbn. rewrite Oa, splice_length by lia. unfold whole. rewrite ?F4.
        repeat split; auto; try lia. exists w. split; [|exact F8].
        rewrite <- Hd. rewrite (firstn_splice_upto _ 0 d) by lia. reflexivity.
      * unfold file_R. cbn. unfold whole. rewrite ?F4. repeat split; auto; try lia. exists w. split; [|exact F8].
        rewrite Nat.sub_diag. cbn. now rewrite app_nil_r.
Qed.

Lemma file_buffer_init out c : file_R out c [] (file_buffer c out []).
Proof.
  unfold file_R, file_buffer, whole. cbn. rewrite repeat_length. repeat split; try lia.
  exists []. cbn. rewrite app_nil_r. split; reflexivity.
Qed.

(** *** pointer *)
(** Memory of [m] characters behind the pointer, area of [limit] >= m. *)
Definition ptr_R (limit m : nat) (tail0 : list Z) (w : list Z) (b : bst (list Z)) : Prop :=
  b_fixed b = false /\ b_area b = mk_span 0 limit /\ (m <= limit)%nat /\ length (b_kind b) = m /\
  b_used b = length w /\ (length w <= m)%nat /\ b_kind b = w ++ skipn (length w) tail0 /\ length tail0 = m.

Lemma splice_at_end w d l0 : (length w + length d <= length l0)%nat ->
  splice (w ++ skipn (length w) l0) (length w) d = (w ++ d) ++ skipn (length (w ++ d)) l0.
Proof.
  intros H. unfold splice. rewrite firstn_app_length by reflexivity. rewrite <- app_assoc. do 2 f_equal.
  rewrite skipn_app, skipn_all2 by lia. rewrite skipn_skipn_nat, app_length. simpl. f_equal. lia.
Qed.

Lemma ptr_lawful limit m l0 : lawful ptr_vt (ptr_R limit m l0) None None (Some m).
Proof.
  constructor; [reflexivity|reflexivity| | | ].
  - intros. exact Logic.I.
  - exact Logic.I.
  - intros w b n (H1 & H2 & H3 & H4 & H5 & H6 & H7 & H8) HO. unfold grant, omin, osub. cbv zeta.
    assert (E : (n =? 0)%nat && negb (n =? 0)%nat = false) by (destruct (n =? 0)%nat; reflexivity).
    rewrite E. clear E. cbn in HO.
    rewrite (cached_max _ b n limit) by (auto; rewrite H2; cbn; lia).
    eexists. eexists. split; [reflexivity|]. cbn. split; [lia|]. split; [lia|]. split.
    + intros d Hd. unfold ptr_R, put_area. cbn. rewrite splice_length by lia. rewrite app_length.
      repeat split; auto; try lia. rewrite H5, H7, <- app_length. apply splice_at_end. lia.
    + unfold ptr_R. cbn. repeat split; auto; lia.
Qed.

Lemma pointer_buffer_init limit cells : (length cells <= limit)%nat ->
  ptr_R limit (length cells) cells [] (pointer_buffer limit cells).
Proof. intros H. unfold ptr_R, pointer_buffer. cbn. repeat split; lia. Qed.

(** *** back_insert_iterator, as long as the initial area suffices *)
Definition back_R (m : nat) (w : list Z) (b : bst back_k) : Prop :=
  b_fixed b = false /\ b_area b = mk_span 0 m /\ length (k_cont (b_kind b)) = m /\
  b_used b = length w /\ (length w <= m)%nat /\ firstn (length w) (k_cont (b_kind b)) = w /\ k_used (b_kind b) = O.

Lemma back_lawful m : lawful back_vt (back_R m) None None (Some m).
Proof.
  constructor; [reflexivity|reflexivity| | | ].
  - intros. exact Logic.I.
  - exact Logic.I.
  - intros w b n (H1 & H2 & H3 & H4 & H5 & H6 & H7) HO. unfold grant, omin, osub. cbv zeta.
    assert (E : (n =? 0)%nat && negb (n =? 0)%nat = false) by (destruct (n =? 0)%nat; reflexivity).
    rewrite E. clear E. cbn in HO.
    rewrite (cached_max _ b n m) by (auto; rewrite H2; cbn; lia).
    eexists. eexists. split; [reflexivity|]. cbn. split; [lia|]. split; [lia|]. split.
    + intros d Hd. unfold back_R, put_area. cbn. rewrite splice_length by lia. rewrite app_length.
      repeat split; auto; try lia. rewrite H4. apply splice_append; auto; lia.
    + unfold back_R. cbn. repeat split; auto; lia.
Qed.

Lemma back_buffer_init min_cap cap : back_R (Nat.min cap min_cap) [] (back_buffer min_cap cap []).
Proof.
  unfold back_R, back_buffer, back_request, resize. cbn. rewrite firstn_nil. cbn. rewrite repeat_length.
  repeat split; try lia.
Qed.

Lemma back_flush_view m w b : back_R m w b -> k_cont (b_kind (back_flush b)) = w.
Proof.
  intros (H1 & H2 & H3 & H4 & H5 & H6 & H7). unfold back_flush, resize, get_used_count. cbn.
  rewrite H4, H7. cbn. rewrite H6. replace (length w - length (k_cont (b_kind b)))%nat with O by lia. cbn. apply app_nil_r.
Qed.
