(** The functions of the user over one call: what a call emits arrives in every sink. *)
From Verif Require Import Base Conversion Reader Buffer Writer Bitset Specs FormatArg FloatArg Format FormatApi Custom Elements CustomApi.
From Verif Require Import Lib SpecNum SpecReader SpecEscape SpecWriter SpecFloat SpecFormat SpecDecimal SpecField SpecSpecs SpecString SpecCustom SpecElements SpecCustomApi.
From Verif Require Import ConversionProofs ReaderProofs SpecsProofs BufferProofs TruncProofs Emits WriterProofs CallProofs FieldProofs StringProofs StringLoop StringEmits StringTop PropsFormat PropsApi CustomProofs PropsCustom ElementsProofs PropsElements SpecString SpecCustom SpecElements SpecCustomApi.


(** ** One call, all sinks *)

Section Call.
  Context (call : forall K, vtable K -> bst K -> outcome unit * bst K) (ops : list op) (o : outcome unit).
  Context (HO : o = Ok tt \/ exists e, o = Err e).
  Context (HW : forall K (vt : vtable K) R cap amax room, lawful vt R cap amax room -> emits R cap amax room (call K vt) ops o).
  Let out := ops_data ops.

  (** From the end of the call on. *)
  Lemma cached_attempt {K} (vt : vtable K) R b (good : Prop) (bad : err -> list Z -> Prop) : lawful vt R None (Some 128%nat) None -> R [] b ->
    (forall b', R out b' -> call K vt b = (Ok tt, b') -> good) ->
    (forall e w b', R w b' -> call K vt b = (Err e, b') -> exists p q, w = p ++ q /\ bad e p) -> attempt out o good bad.
  Proof.
    intros HL HR HG HB. destruct (HW _ _ _ _ _ _ HL _ _ HR Logic.I) as (b' & HR' & E).
    destruct (exec_prefix None (Some 128%nat) [] ops Logic.I) as (n & HP). cbn [app] in HP.
    destruct (fst (exec None (Some 128%nat) [] ops)) eqn:EX.
    - rewrite (exec_ok _ _ _ _ EX) in HR'. cbn [app] in HR'. destruct HO as [-> |(e & ->)]; [left; split; [reflexivity|]; now apply (HG b')|].
      right. left. destruct (HB _ _ _ HR' E) as (p & q & HPQ & H). exists e, p, q. auto.
    - right. right. apply exec_stops in EX. split; [exact EX|]. destruct (HB _ _ _ HR' E) as (p & q & HPQ & H). exists p, (q ++ skipn n out). split; [|exact H].
      rewrite app_assoc, <- HPQ, HP. symmetry. apply firstn_skipn.
  Qed.

  Lemma every_sink_intro : every_sink call out o.
  Proof.
    split.
    - destruct (HW _ _ _ _ _ _ mem_lawful _ _ (memory_buffer_init default_cache_size 0) Logic.I) as (b & R & E). rewrite exec_unlimited in R, E. cbn [fst snd app] in R, E.
      unfold call_format. rewrite E. destruct o; cbn [finish fst bind]; try reflexivity. now rewrite (mem_R_view _ _ R).
    - unfold call_size, default_cache_size. apply (cached_attempt count_vt _ (counting_buffer 128) _ _ (count_lawful 128 ltac:(lia)) (counting_buffer_init 128)).
      + intros b R ->. cbn [finish fst]. now rewrite (count_R_count _ _ _ R).
      + intros e w b R ->. cbn [finish fst]. exists w, []. now rewrite app_nil_r.
    - intros I put it. unfold call_to_it, default_cache_size.
      apply (cached_attempt (iter_vt put) (iter_R put it 128) (iterator_buffer 128 it)); [apply iter_lawful; lia|apply iterator_buffer_init| |].
      + intros b HR ->. cbn [finish]. destruct (iter_R_flush _ _ _ _ _ HR) as (_ & E & _). cbn [iter_out fst]. now rewrite E.
      + intros e w b HR ->. cbn [finish]. destruct HR as (_ & _ & _ & _ & w0 & Ew & E). rewrite E. eauto.
    - intros I put it n.
      assert (T : forall w t, fold_left (trunc_put put) w t =
        mk_trunc_it (fold_left put (firstn (Z.to_nat (t_limit t - t_count t)) w) (t_out t)) (t_limit t) (t_count t + Z.of_nat (length w))).
      { induction w as [|c w IH]; intros [ot l k]; cbn [fold_left t_limit t_count t_out].
        - rewrite firstn_nil. cbn. f_equal. lia.
        - rewrite IH. cbn [trunc_put t_limit t_count t_out length]. f_equal; [|lia]. destruct (k <? l) eqn:E.
          + replace (Z.to_nat (l - k)) with (S (Z.to_nat (l - (k + 1)))) by lia. reflexivity.
          + replace (Z.to_nat (l - k)) with O by lia. replace (Z.to_nat (l - (k + 1))) with O by lia. reflexivity. }
      unfold call_to_n_it, default_cache_size.
      apply (cached_attempt (iter_vt (trunc_put put)) (iter_R (trunc_put put) (mk_trunc_it it n 0) 128) (iterator_buffer 128 (mk_trunc_it it n 0))); [apply iter_lawful; lia|apply iterator_buffer_init| |].
      + intros b HR ->. cbn [finish]. destruct (iter_R_flush _ _ _ _ _ HR) as (HR1 & _). destruct (iter_R_flush _ _ _ _ _ HR1) as (_ & E & _).
        cbn [iter_out fst]. rewrite E, T. cbn [t_limit t_count t_out]. rewrite Z.sub_0_r. reflexivity.
      + intros e w b HR ->. cbn [finish]. destruct HR as (_ & _ & _ & _ & w0 & Ew & E). exists w0, (firstn (b_used b) (i_cache (b_kind b))). split; [exact Ew|].
        rewrite E, T. cbn [t_limit t_count t_out]. now rewrite Z.sub_0_r.
    - intros limit cells [HLen HLim].
      destruct (HW _ _ _ _ _ _ (ptr_lawful limit (length cells) cells) _ _ (pointer_buffer_init limit cells HLim) HLen) as (b' & HR & E). rewrite exec_unlimited in HR, E. cbn [fst snd app] in HR, E.
      unfold call_to_ptr. rewrite E. destruct HR as (_ & _ & _ & _ & H1 & _ & H2 & _). unfold ptr_out, get_used_count. destruct HO as [-> |(e & ->)]; cbn [finish bind]; now rewrite ?H1, H2.
    - intros cells n HN. unfold call_to_n, default_cache_size. assert (H1 : (1 <= 128)%nat) by lia.
      apply (cached_attempt (trunc_vt span_vt) (trunc_R (span_Rc (length cells)) [] n 128) (truncating_buffer 128 (span_buffer cells) n));
        [now apply (trunc_lawful span_vt _ (Some (length cells)) None None (span_lawful _) [] n 128)|apply truncating_buffer_init; [lia|apply span_buffer_init]| |].
      + intros t HT ->. cbn [finish]. destruct (trunc_R_flush span_vt _ (Some (length cells)) None None (span_lawful _) [] n 128 HN Logic.I Logic.I H1 out t HT) as (t' & E & HT' & _ & _ & HR' & _). rewrite E. cbn [finish].
        rewrite (trunc_R_count _ _ _ _ H1 _ _ HT'). eexists. split; [reflexivity|]. exact (span_R_view _ _ (proj1 HR')).
      + intros e w t HT ->. cbn [finish]. destruct HT as (_ & _ & _ & _ & _ & w0 & Ew & _ & _ & HR'). exists w0. eexists. split; [exact Ew|]. eexists. split; [reflexivity|]. exact (span_R_view _ _ (proj1 HR')).
    - intros file. unfold call_print, default_cache_size.
      apply (cached_attempt file_vt (file_R file 128) (file_buffer 128 file [])); [apply file_lawful; lia|apply file_buffer_init| |].
      + intros b HR ->. cbn [finish]. destruct (file_R_flush _ _ _ _ HR) as (b' & -> & HR' & E & _). unfold file_of. rewrite E. destruct HR' as (_ & _ & _ & _ & -> & _). reflexivity.
      + intros e w b HR ->. cbn [finish]. destruct HR as (_ & _ & _ & _ & EL & w0 & Ew & E). exists w0. eexists. split; [exact Ew|]. unfold file_of. now rewrite EL, E.
    - intros file. unfold call_println, default_cache_size.
      assert (HL : lawful file_vt (file_R file 128) None (Some 128%nat) None) by (apply file_lawful; lia).
      apply (cached_attempt file_vt (file_R file 128) (file_buffer 128 file [])); [exact HL|apply file_buffer_init| |].
      + intros b HR ->. cbn [finish]. destruct (write_char_emits file_vt (file_R file 128) None (Some 128%nat) None HL 10 out b HR Logic.I) as (b1 & HR1 & E1).
        rewrite exec_atoms in HR1, E1 by (repeat constructor; cbn; lia). cbn [fst snd ops_data flat_map op_data app] in HR1, E1. unfold write_char in E1. rewrite E1. cbn [finish].
        destruct (file_R_flush _ _ _ _ HR1) as (b' & -> & HR' & E & _). unfold file_of. rewrite E. destruct HR' as (_ & _ & _ & _ & -> & _). reflexivity.
      + intros e w b HR ->. cbn [finish]. destruct HR as (_ & _ & _ & _ & EL & w0 & Ew & E). exists w0. eexists. split; [exact Ew|]. unfold file_of. now rewrite EL, E.
  Qed.
End Call.
