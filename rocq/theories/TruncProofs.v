(** truncating_buffer over a lawful primary buffer that can take the limit and
    whose areas are not smaller than the cache. *)
From Verif Require Import Base Lib Buffer BufferProofs Emits.

Section T.
  Context {K : Type} (vt : vtable K) (R : list Z -> bst K -> Prop) (cap amax room : option nat).
  Context (HL : lawful vt R cap amax room).
  (** content of the primary at the start, limit, cache size *)
  Context (p0 : list Z) (limit c : nat).
  Context (Hcap : obound cap (length p0 + limit)) (Hroom : obound room (length p0 + limit)).
  Context (Hamax : match amax with Some m => (Nat.min c limit <= m)%nat | None => True end) (Hc : (1 <= c)%nat).

  Definition trunc_R (w : list Z) (b : bst (trunc_k K)) : Prop :=
    b_fixed b = false /\ b_area b = mk_span 0 c /\ (b_used b <= c)%nat /\
    length (tr_cache (b_kind b)) = c /\ tr_limit (b_kind b) = limit /\
    exists w0, w = w0 ++ firstn (b_used b) (tr_cache (b_kind b)) /\
      tr_used (b_kind b) = length w0 /\ tr_written (b_kind b) = Nat.min limit (length w0) /\
      R (p0 ++ firstn limit w0) (tr_primary (b_kind b)).

  Lemma trunc_R_flush w b : trunc_R w b ->
    exists b', trunc_flush vt b = (Ok tt, b') /\ trunc_R w b' /\ b_used b' = O /\ b_area b' = mk_span 0 c /\
      R (p0 ++ firstn limit w) (tr_primary (b_kind b')) /\ tr_used (b_kind b') = length w.
  Proof.
    intros (H1 & H2 & H3 & H4 & H5 & w0 & -> & H7 & H8 & H9).
    unfold trunc_flush, get_used_count. cbv zeta.
    set (new := firstn (b_used b) (tr_cache (b_kind b))).
    assert (LN : length new = b_used b) by (unfold new; rewrite firstn_length; lia).
    set (m := Nat.min (b_used b) (limit - Nat.min limit (length w0))).
    assert (FW : firstn limit (w0 ++ new) = firstn limit w0 ++ firstn m (tr_cache (b_kind b))).
    { rewrite firstn_app. f_equal. unfold new. rewrite firstn_firstn. f_equal. unfold m. lia. }
    assert (LP : length (p0 ++ firstn limit w0) = (length p0 + Nat.min limit (length w0))%nat)
      by (rewrite app_length, firstn_length; lia).
    assert (TL : exists p', trunc_loop vt (b_used b)
        (mk_trunc (tr_primary (b_kind b)) (tr_limit (b_kind b)) (tr_written (b_kind b))
                  (tr_used (b_kind b) + b_used b) (tr_cache (b_kind b))) (b_used b) =
        (Ok tt, mk_trunc p' limit (Nat.min limit (length (w0 ++ new))) (length (w0 ++ new)) (tr_cache (b_kind b))) /\
        R (p0 ++ firstn limit (w0 ++ new)) p').
    { rewrite H5, H7, H8, app_length, LN. rewrite FW.
      destruct (b_used b) as [|u] eqn:EU.
      - cbn [trunc_loop]. rewrite andb_false_r. exists (tr_primary (b_kind b)).
        unfold m. cbn [Nat.min firstn]. rewrite app_nil_r, Nat.add_0_r. now split.
      - cbn [trunc_loop tr_written tr_limit].
        destruct (Nat.min limit (length w0) <? limit)%nat eqn:EL; cbn [andb].
        + replace (0 <? S u)%nat with true by lia. cbn [tr_primary].
          assert (Hm : (0 < m)%nat) by (unfold m; lia).
          fold m. destruct (k_area vt R cap room (lawful_chunky vt R cap amax room HL) _ _ m H9 Hm) as [(p1 & E & _ & HC)|_].
          { rewrite LP. eapply obound_le; [|exact Hroom]. unfold m. lia. }
          { exfalso. rewrite LP in HC. rewrite HC in Hcap. cbn in Hcap. lia. }
          assert (M := l_max _ _ _ _ _ HL _ _ m H9). cbv zeta in M.
          assert (G : grant cap amax (length (p0 ++ firstn limit w0)) m = m).
          { rewrite LP. unfold grant, omin, osub. unfold obound in Hcap. unfold m in *. destruct cap, amax; lia. }
          rewrite G in M. replace ((m =? 0)%nat && negb (m =? 0)%nat) with false in M by lia.
          destruct M as (a & p1 & E & L & B & P & _).
          { rewrite LP. eapply obound_le; [|exact Hroom]. unfold m. lia. }
          rewrite E. cbn [tr_cache tr_limit tr_written tr_used]. rewrite L.
          replace (length (tr_cache (b_kind b)) <? m)%nat with false by (unfold m; lia).
          replace (S u <? m)%nat with false by (unfold m; lia). cbn [orb].
          rewrite (store_area_ok vt) by (rewrite ?firstn_length; lia).
          assert (ND : ((Nat.min limit (length w0) + m <? limit)%nat && (0 <? S u - m)%nat) = false) by (unfold m; lia).
          exists (put_area vt p1 a (firstn m (tr_cache (b_kind b)))). split.
          * destruct u; cbn [trunc_loop tr_written tr_limit]; rewrite ND; do 2 f_equal; unfold m; lia.
          * rewrite app_assoc. apply P. rewrite firstn_length. unfold m. lia.
        + exists (tr_primary (b_kind b)). split.
          * do 2 f_equal; lia.
          * replace m with O by (unfold m; lia). cbn [firstn]. now rewrite app_nil_r. }
    destruct TL as (p' & -> & HR').
    eexists. split; [reflexivity|]. unfold trunc_R. cbn. unfold whole. rewrite H4.
    repeat split; auto; try lia.
    exists (w0 ++ new). rewrite app_nil_r. repeat split; auto.
  Qed.

  Lemma trunc_lawful : lawful (trunc_vt vt) trunc_R None (Some c) None.
  Proof.
    constructor; [reflexivity|reflexivity| | | ].
    - intros. exact Logic.I.
    - exact Hc.
    - intros w b n HR _. unfold grant, omin, osub. cbv zeta.
      assert (E : (Nat.min n c =? 0)%nat && negb (n =? 0)%nat = false) by (destruct (n =? 0)%nat eqn:?; cbn; lia).
      rewrite E. clear E.
      assert (HR0 := HR). destruct HR as (H1 & H2 & H3 & H4 & H5 & w0 & -> & H7 & H8 & H9).
      destruct (le_lt_dec n (c - b_used b)) as [LE|LT].
      + rewrite (cached_max _ _ _ c) by (rewrite ?H2; auto; cbn; lia).
        eexists _, _. split; [reflexivity|]. cbn [s_len s_off]. cbn [set_used b_kind trunc_vt v_cells].
        split; [lia|]. split; [lia|]. split.
        * intros d Hd. unfold trunc_R, put_area. cbn. rewrite splice_length by lia. repeat split; auto; try lia.
          exists w0. repeat split; auto. rewrite <- app_assoc. f_equal. rewrite <- Hd.
          rewrite firstn_splice_upto by lia. reflexivity.
        * unfold set_used. cbn. replace (b_used b + n - n)%nat with (b_used b) by lia.
          unfold trunc_R. cbn. repeat split; auto; try lia. exists w0. repeat split; auto.
      + destruct (trunc_R_flush _ _ HR0) as (b' & F & (F1 & F2 & F3 & F4 & F5 & w1 & F6 & F7 & F8 & F9) & FU & FA & FP & FC).
        unfold get_write_area_of_max. rewrite H1, H2. cbn [s_len s_off].
        replace (n <=? c - b_used b)%nat with false by lia. cbn [orb].
        cbn [trunc_vt v_request]. unfold trunc_request. rewrite F. cbn [sbind]. unfold whole. rewrite F4. cbn [s_len].
        rewrite FU in *. cbn [firstn] in F6. rewrite app_nil_r in F6. subst w1.
        set (w := w0 ++ firstn (b_used b) (tr_cache (b_kind b))) in *.
        assert (G : exists bb, (if (c <? n)%nat then (Ok (mk_span 0 c), set_write_area b' (mk_span 0 c))
                     else (Ok (mk_span 0 n), set_write_area b' (mk_span 0 c))) = (Ok (mk_span 0 (Nat.min n c)), bb) /\
                     bb = set_write_area b' (mk_span 0 c)).
        { destruct (c <? n)%nat eqn:EC; eexists; (split; [|reflexivity]); do 3 f_equal; lia. }
        destruct G as (bb & -> & ->). cbn [sbind s_len].
        eexists _, _. split; [reflexivity|]. cbn [s_len s_off]. split; [reflexivity|].
        cbn [set_used set_write_area b_kind trunc_vt v_cells b_used b_fixed b_area]. split; [lia|]. split.
        * intros d Hd. unfold trunc_R, put_area. cbn. rewrite splice_length by lia. repeat split; auto; try lia.
          exists w. repeat split; auto. f_equal. rewrite <- Hd.
          change (length d) with (0 + length d)%nat. rewrite firstn_splice_upto by lia. reflexivity.
        * unfold set_used. cbn. unfold trunc_R. cbn. repeat split; auto; try lia.
          exists w. rewrite Nat.sub_diag. cbn [firstn]. rewrite app_nil_r. repeat split; auto.
  Qed.

  Lemma truncating_buffer_init p : R p0 p -> trunc_R [] (truncating_buffer c p limit).
  Proof.
    intros H. unfold trunc_R, truncating_buffer, whole. cbn. rewrite repeat_length. repeat split; try lia.
    exists []. cbn. rewrite firstn_nil, app_nil_r. repeat split; auto. lia.
  Qed.

  Lemma trunc_R_count w b : trunc_R w b -> trunc_count b = length w.
  Proof.
    intros (H1 & H2 & H3 & H4 & H5 & w0 & -> & H7 & _). unfold trunc_count, get_used_count.
    rewrite app_length, firstn_length, H7. lia.
  Qed.
End T.
