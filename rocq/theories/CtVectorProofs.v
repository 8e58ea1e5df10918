(** Ownership invariant of programs over memory_buffer objects. *)
From Verif Require Import Base Lib Buffer Writer BufferProofs Emits SpecWriter CallProofs CtVector SpecOwn.

(** ** Lists *)
Lemma nth_error_upd {A} (l : list A) i x j : (i < length l)%nat ->
  nth_error (upd l i x) j = if (j =? i)%nat then Some x else nth_error l j.
Proof.
  intros H. unfold upd. destruct (j =? i)%nat eqn:E.
  - assert (j = i) by lia. subst j. rewrite nth_error_app2 by (rewrite firstn_length; lia).
    rewrite firstn_length. replace (i - Nat.min i (length l))%nat with O by lia. reflexivity.
  - destruct (le_lt_dec i j).
    + rewrite nth_error_app2 by (rewrite firstn_length; lia). rewrite firstn_length.
      replace (j - Nat.min i (length l))%nat with (S (j - i - 1)) by lia. cbn [nth_error].
      clear -l0 H E. revert i j H l0 E. induction l as [|a l IH]; intros i j H l0 E; [cbn in H; lia|].
      destruct j as [|j]; [lia|]. destruct i as [|i].
      * cbn [skipn nth_error]. now replace (S j - 0 - 1)%nat with j by lia.
      * cbn in H. cbn [skipn nth_error]. replace (S j - S i - 1)%nat with (j - i - 1)%nat by lia. apply IH; lia.
    + rewrite nth_error_app1 by (rewrite firstn_length; lia).
      clear -l0 H. revert i j H l0. induction l as [|a l IH]; intros i j H l0; [cbn in H; lia|].
      destruct i as [|i]; [lia|]. destruct j as [|j]; [reflexivity|]. cbn. apply IH; [cbn in H; lia|lia].
Qed.

Lemma upd_length {A} (l : list A) i x : (i < length l)%nat -> length (upd l i x) = length l.
Proof. intros H. unfold upd. rewrite app_length, firstn_length. cbn [length]. rewrite skipn_length. lia. Qed.

Lemma nth_error_lt {A} (l : list A) i x : nth_error l i = Some x -> (i < length l)%nat.
Proof. intros H. apply nth_error_Some. congruence. Qed.

(** ** One object *)
Definition vinv (S : nat) (v : vec) : Prop :=
  x_inline v = S /\ x_size v = x_cap v /\ length (x_data v) = x_cap v /\
  match x_ext v with None => x_cap v = S | Some _ => (S < x_cap v)%nat end.

Definition binv (S : nat) (t : list Z) (b : bst mobj) : Prop :=
  let o := b_kind b in
  vinv S (o_vec o) /\ b_fixed b = false /\ s_off (b_area b) = o_used o /\
  (o_used o + s_len (b_area b) <= x_cap (o_vec o))%nat /\ (b_used b <= s_len (b_area b))%nat /\
  length t = (o_used o + b_used b)%nat /\ firstn (length t) (x_data (o_vec o)) = t.

(** The allocated blocks are those of others and the own one. *)
Definition owned (others : nat -> Prop) (h : heap) (ext : option nat) : Prop :=
  (forall id, alive h id = true <-> others id \/ ext = Some id) /\ (forall id, ext = Some id -> ~ others id).

Definition own_R (S : nat) (others : nat -> Prop) (t : list Z) (b : bst own_k) : Prop :=
  binv S t (snd (unload b)) /\ owned others (o_heap (b_kind b)) (x_ext (o_vec (o_obj (b_kind b)))).

Lemma alive_app h id : alive (h ++ [true]) id = (alive h id || (id =? length h)%nat).
Proof.
  unfold alive. destruct (le_lt_dec (length h) id).
  - rewrite app_nth2 by lia. rewrite (nth_overflow h) by lia. destruct (id =? length h)%nat eqn:E.
    + now replace (id - length h)%nat with O by lia.
    + cbn. now destruct (id - length h)%nat as [|[|]] eqn:E2; [lia| |].
  - rewrite app_nth1 by lia. replace (id =? length h)%nat with false by lia. now rewrite orb_false_r.
Qed.

Lemma alive_lt h id : alive h id = true -> (id < length h)%nat.
Proof. intros H. destruct (le_lt_dec (length h) id); [|assumption]. unfold alive in H. now rewrite nth_overflow in H. Qed.

Lemma alive_free h i id : (i < length h)%nat ->
  alive (firstn i h ++ false :: skipn (S i) h) id = (alive h id && negb (id =? i)%nat).
Proof.
  intros H. unfold alive. assert (E := nth_error_upd h i false id H). unfold upd in E.
  rewrite <- !nth_default_eq. unfold nth_default. rewrite E. destruct (id =? i)%nat; cbn.
  - destruct (nth_error h id) as [[|]|]; reflexivity.
  - rewrite andb_true_r. reflexivity.
Qed.

Lemma delete_ok others h v : owned others h (x_ext v) ->
  exists h', delete_data h v = Ok (h', if hold_external v then mk_vec (x_inline v) (x_ext v) [] (x_size v) (x_cap v) else v) /\
    owned others h' None /\ length h' = length h.
Proof.
  intros (H1 & H2). unfold delete_data, hold_external. destruct (x_ext v) as [i|] eqn:E.
  - assert (A : alive h i = true) by (apply H1; auto). rewrite A. assert (L := alive_lt _ _ A).
    eexists. split; [reflexivity|]. split.
    + split; [|discriminate]. intros id. rewrite alive_free by assumption.
      specialize (H1 id). specialize (H2 i eq_refl). destruct (id =? i)%nat eqn:EI; cbn.
      * rewrite andb_false_r. assert (id = i) by lia. subst. intuition discriminate.
      * rewrite andb_true_r. rewrite H1. assert (Some i <> Some id) by (intros Q; inversion Q; lia). intuition discriminate.
    + apply (upd_length h i false L).
  - exists h. split; [reflexivity|]. split; [|reflexivity]. split; assumption.
Qed.

(** Growing to at least the capacity. *)
Lemma vec_reserve_ok others S h v n :
  x_inline v = S -> length (x_data v) = x_cap v -> (x_size v <= x_cap v)%nat ->
  match x_ext v with None => x_cap v = S | Some _ => (S < x_cap v)%nat end ->
  (x_cap v <= n)%nat -> owned others h (x_ext v) ->
  exists h' v', vec_reserve h v n = Ok (h', v') /\ vinv S v' /\ x_cap v' = n /\ owned others h' (x_ext v') /\
    x_data v' = if (x_cap v <? n)%nat then firstn (x_size v) (x_data v) ++ repeat uninit (n - x_size v) else x_data v.
Proof.
  intros H1 H2 H3 H4 H5 H6. unfold vec_reserve. rewrite H1.
  assert (Sn : (S <= n)%nat) by (destruct (x_ext v); lia).
  replace (n <? S)%nat with false by lia. cbn [andb].
  destruct (x_cap v <? n)%nat eqn:E.
  - replace ((length (x_data v) <? x_size v)%nat || (n <? x_size v)%nat) with false by lia.
    destruct (delete_ok (fun id => others id \/ id = length h) (h ++ [true]) v) as (h' & ED & (O1 & O2) & _).
    { destruct H6 as (O1 & O2). split.
      - intros id. rewrite alive_app. specialize (O1 id). destruct (alive h id) eqn:EA; cbn.
        + intuition.
        + destruct (id =? length h)%nat eqn:EL; [intuition lia|]. intuition lia.
      - intros id EI [HO|HL]; [now apply (O2 id)|]. assert (alive h id = true) by (apply O1; auto).
        apply alive_lt in H. lia. }
    rewrite ED. cbn [bind fst]. eexists. eexists. split; [reflexivity|]. cbn. split; [|split; [reflexivity|split; [|reflexivity]]].
    + unfold vinv. cbn. rewrite app_length, firstn_length, repeat_length. repeat split; auto; destruct (x_ext v); lia.
    + split.
      * intros id. rewrite (O1 id). split; intros HH.
        -- destruct HH as [[HH| -> ]|HH]; auto. discriminate.
        -- destruct HH as [HH|HH]; auto. inversion HH; auto.
      * intros id Q. inversion Q; subst id. intros HO. destruct H6 as (P1 & P2).
        assert (alive h (length h) = true) by (apply P1; auto). apply alive_lt in H. lia.
  - eexists. eexists. split; [reflexivity|]. cbn. assert (n = x_cap v) by lia. subst n.
    unfold vinv. cbn. repeat split; auto; apply H6.
Qed.

Lemma own_lawful S others : lawful own_vt (own_R S others) None None None.
Proof.
  constructor; [reflexivity|reflexivity| | | ].
  - intros. exact Logic.I.
  - exact Logic.I.
  - intros w b n (((V1 & V2 & V3 & V4) & H0 & H2 & H3 & H4 & H5 & H6) & HO) _. unfold grant, omin, osub. cbv zeta.
    assert (E : (n =? 0)%nat && negb (n =? 0)%nat = false) by (destruct (n =? 0)%nat; reflexivity).
    rewrite E. clear E. unfold get_write_area_of_max. cbn in H0, H2, H3, H4, H5, H6. rewrite H0, orb_false_r.
    destruct (n <=? s_len (b_area b) - b_used b)%nat eqn:E.
    + replace ((s_len (b_area b) - b_used b =? 0)%nat && negb (n =? 0)%nat) with false
        by (symmetry; destruct (n =? 0)%nat eqn:?; simpl; [apply andb_false_r|rewrite andb_true_r; lia]).
      eexists. eexists. split; [reflexivity|]. cbn [s_len s_off].
      replace (Nat.min (s_len (b_area b) - b_used b) n) with n by lia.
      split; [reflexivity|]. cbn [b_kind set_used own_vt v_cells]. cbn in V1, V2, V3, V4. split; [lia|]. split.
      * intros d Hd. split; [|exact HO]. unfold binv, vinv, put_area. cbn. rewrite splice_length by lia.
        repeat split; auto; try lia; rewrite ?app_length; try lia.
        rewrite H2, <- H5. apply splice_append; auto; lia.
      * split; [|exact HO]. unfold binv, vinv. cbn. repeat split; auto; try lia.
    + cbn [v_request own_vt]. unfold own_request. cbv zeta. cbn in V1, V2, V3, V4.
      set (o := o_obj (b_kind b)) in *. set (v := o_vec o) in *.
      destruct (vec_reserve_ok others S (o_heap (b_kind b)) v (x_size v + n)) as (h' & v' & ER & (W1 & W2 & W3 & W4) & W5 & W6 & W7); auto; try lia.
      rewrite ER. cbn [sbind].
      eexists. eexists. split; [reflexivity|]. cbn [s_len s_off b_kind set_used set_write_area set_kind b_used].
      split; [reflexivity|]. cbn [own_vt v_cells o_obj o_vec o_used].
      assert (EK : x_data v' = x_data v ++ repeat uninit n).
      { rewrite W7. replace (x_cap v <? x_size v + n)%nat with true by lia.
        rewrite V2, <- V3, firstn_all. now replace (length (x_data v) + n - length (x_data v))%nat with n by lia. }
      assert (LK : length (x_data v') = (x_cap v + n)%nat) by (rewrite EK, app_length, repeat_length; lia).
      split; [lia|].
      assert (HF : firstn (length w) (x_data v') = w).
      { rewrite EK, firstn_app. replace (length w - length (x_data v))%nat with O by lia. simpl. now rewrite app_nil_r. }
      split.
      * intros d Hd. split; [|exact W6]. unfold binv, vinv, put_area. cbn. rewrite splice_length by lia.
        repeat split; auto; try lia; rewrite ?app_length; try lia. rewrite <- H5. apply splice_append; auto; lia.
      * split; [|exact W6]. unfold binv, vinv. cbn. repeat split; auto; try lia.
Qed.

(** ** Special member functions *)
Lemma own_view_ok S t b : binv S t b -> own_view b = t.
Proof. intros (_ & _ & _ & _ & _ & H5 & H6). unfold own_view, get_used_count. now rewrite <- H5. Qed.

Lemma own_new_ok S others h c : (forall id, alive h id = true <-> others id) ->
  exists h' b, own_new S h c = Ok (h', b) /\ binv S [] b /\ owned others h' (x_ext (o_vec (b_kind b))).
Proof.
  intros HO. unfold own_new, requested, own_request, load. cbn [b_kind o_obj o_vec o_heap o_used x_size fresh_vec x_cap].
  destruct (vec_reserve_ok others S h (fresh_vec S) (Nat.max S c)) as (h' & v' & ER & V & C & O & D); cbn; auto; try lia.
  - now rewrite repeat_length.
  - split; [|discriminate]. intros id. rewrite HO. intuition discriminate.
  - change (mk_vec S None (repeat uninit S) 0 S) with (fresh_vec S). rewrite ER. cbn. eexists. eexists. split; [reflexivity|].
    split; [|exact O]. unfold binv. cbn. repeat split; auto; try lia; try apply V.
Qed.

Lemma own_reset_ok S others h b : x_inline (o_vec (b_kind b)) = S -> length (x_data (o_vec (b_kind b))) = x_cap (o_vec (b_kind b)) ->
  match x_ext (o_vec (b_kind b)) with None => x_cap (o_vec (b_kind b)) = S | Some _ => (S < x_cap (o_vec (b_kind b)))%nat end ->
  b_fixed b = false -> owned others h (x_ext (o_vec (b_kind b))) ->
  exists b', own_reset h b = Ok (h, b') /\ binv S [] b' /\ owned others h (x_ext (o_vec (b_kind b'))) /\
    x_ext (o_vec (b_kind b')) = x_ext (o_vec (b_kind b)).
Proof.
  intros H1 H2 H3 HF HO. unfold own_reset, requested, own_request, load. cbn [b_kind set_kind o_obj o_vec o_heap o_used x_size x_cap].
  set (v := o_vec (b_kind b)) in *. cbn [Nat.add]. 
  unfold vec_reserve. cbn [x_inline x_ext hold_external x_cap x_data x_size].
  replace (x_cap v <? x_inline v)%nat with false by (destruct (x_ext v); lia). cbn [andb].
  rewrite Nat.ltb_irrefl. cbn. eexists. split; [reflexivity|]. unfold binv, vinv. cbn.
  split; [|split; [exact HO|reflexivity]]. repeat split; auto; lia.
Qed.

Lemma copy_data_full v other n : x_size other = n -> length (x_data other) = n -> length (x_data v) = n ->
  copy_data v other = Ok (mk_vec (x_inline v) (x_ext v) (x_data other) (x_size v) (x_cap v)).
Proof.
  intros H1 H2 H3. unfold copy_data. replace (length (x_data other) <? x_size other)%nat with false by lia.
  rewrite H1, <- H2, firstn_all. rewrite store_list_ok by lia. now rewrite splice_full by lia.
Qed.

Lemma rest_area_ok S t v b d : binv S t b -> vinv S v -> x_data v = d -> d = x_data (o_vec (b_kind b)) ->
  exists b', rest_area false v (total_used b) = Ok b' /\ binv S t b' /\ o_vec (b_kind b') = v.
Proof.
  intros ((V1 & V2 & V3 & V4) & H0 & H2 & H3 & H4 & H5 & H6) (W1 & W2 & W3 & W4) HD HD2. unfold rest_area, total_used, get_used_count.
  assert (x_cap v = x_cap (o_vec (b_kind b))) by congruence.
  replace (x_cap v <? o_used (b_kind b) + b_used b)%nat with false by lia.
  eexists. split; [reflexivity|]. split; [|reflexivity]. unfold binv. cbn. split; [now repeat split|].
  repeat split; auto; try lia. rewrite HD, HD2. exact H6.
Qed.

(** Copying into a vector that is not larger. *)
Lemma vec_copy_ok others S h v other : vinv S other ->
  x_inline v = S -> length (x_data v) = x_cap v -> (x_size v <= x_cap v)%nat ->
  match x_ext v with None => x_cap v = S | Some _ => (S < x_cap v)%nat end ->
  (x_cap v <= x_cap other)%nat -> owned others h (x_ext v) ->
  exists h' v', vec_copy_assign h v other = Ok (h', v') /\ vinv S v' /\ owned others h' (x_ext v') /\ x_data v' = x_data other.
Proof.
  intros (O1 & O2 & O3 & O4) H1 H2 H3 H4 H5 HO. unfold vec_copy_assign. rewrite O2.
  destruct (vec_reserve_ok others S h v (x_cap other)) as (h' & v' & ER & (W1 & W2 & W3 & W4) & W5 & W6 & W7); auto.
  rewrite ER. cbn [bind fst snd]. rewrite (copy_data_full v' other (x_cap other)) by lia. cbn [bind].
  eexists. eexists. split; [reflexivity|]. cbn. repeat split; auto; try lia; try apply W6.
  cbn. lia.
Qed.

Lemma own_copy_new_ok S others h other t : binv S t other -> (forall id, alive h id = true <-> others id) ->
  exists h' b, own_copy_new h other = Ok (h', b) /\ binv S t b /\ owned others h' (x_ext (o_vec (b_kind b))).
Proof.
  intros HB HO. unfold own_copy_new, vec_copy_new. assert (HV := HB). destruct HV as (HV & _).
  change (do hv <- vec_reserve h (fresh_vec (x_inline (o_vec (b_kind other)))) (x_size (o_vec (b_kind other))) ;;
      do v <- copy_data (snd hv) (o_vec (b_kind other)) ;; Ok (fst hv, v))
    with (vec_copy_assign h (fresh_vec (x_inline (o_vec (b_kind other)))) (o_vec (b_kind other))).
  destruct (vec_copy_ok others S h (fresh_vec (x_inline (o_vec (b_kind other)))) (o_vec (b_kind other))) as (h' & v' & E & V & O & D); auto.
  - apply HV.
  - cbn. now rewrite repeat_length.
  - cbn. lia.
  - cbn. apply HV.
  - cbn. destruct HV as (V1 & V2 & V3 & V4). destruct (x_ext (o_vec (b_kind other))); lia.
  - cbn. split; [|discriminate]. intros id. rewrite HO. intuition discriminate.
  - rewrite E. cbn [bind fst snd].
    destruct (rest_area_ok S t v' other _ HB V eq_refl D) as (b' & ER & HB' & EV). rewrite ER. cbn [bind].
    exists h', b'. rewrite EV. auto.
Qed.

Lemma own_copy_assign_ok S others h this other t u : binv S u this -> binv S t other ->
  (own_capacity this <= own_capacity other)%nat -> owned others h (x_ext (o_vec (b_kind this))) ->
  exists h' b, own_copy_assign h this other = Ok (h', b) /\ binv S t b /\ owned others h' (x_ext (o_vec (b_kind b))).
Proof.
  intros HT HB HC HO. unfold own_copy_assign, own_capacity in *.
  assert (HV := HB). destruct HV as (HV & _). assert (HVT := HT). destruct HVT as ((T1 & T2 & T3 & T4) & TF & _).
  destruct (vec_copy_ok others S h (o_vec (b_kind this)) (o_vec (b_kind other))) as (h' & v' & E & V & O & D); auto; try lia.
  rewrite E. cbn [bind fst snd]. rewrite TF.
  destruct (rest_area_ok S t v' other _ HB V eq_refl D) as (b' & ER & HB' & EV). rewrite ER. cbn [bind].
  exists h', b'. rewrite EV. auto.
Qed.

(** The transfer into a vector in its inline storage, or of an external block. *)
Lemma vec_transfer_ok S v other : vinv S other -> x_inline v = S ->
  (x_ext other = None -> x_ext v = None /\ length (x_data v) = S /\ x_cap v = S) ->
  exists v', vec_transfer v other = Ok v' /\ vinv S v' /\ x_ext v' = x_ext other /\ x_data v' = x_data other.
Proof.
  intros (O1 & O2 & O3 & O4) H1 H2. unfold vec_transfer, hold_external. destruct (x_ext other) as [id|] eqn:E.
  - eexists. split; [reflexivity|]. unfold vinv. cbn. repeat split; auto.
  - destruct (H2 eq_refl) as (A1 & A2 & A3). rewrite (copy_data_full v other S) by lia. cbn [bind].
    eexists. split; [reflexivity|]. unfold vinv. cbn. rewrite A1. repeat split; auto; lia.
Qed.

Lemma own_move_new_ok S others h other t : binv S t other -> owned others h (x_ext (o_vec (b_kind other))) ->
  exists b o, own_move_new h other = Ok (h, (b, o)) /\ binv S t b /\ binv S [] o /\
    x_ext (o_vec (b_kind b)) = x_ext (o_vec (b_kind other)) /\ x_ext (o_vec (b_kind o)) = None.
Proof.
  intros HB HO. unfold own_move_new, vec_move_new. assert (HV := HB). destruct HV as (HV & HF & _).
  destruct (vec_transfer_ok S (fresh_vec (x_inline (o_vec (b_kind other)))) (o_vec (b_kind other)) HV) as (v' & E & V & X & D).
  { apply HV. }
  { intros _. cbn. rewrite repeat_length. split; [reflexivity|]. destruct HV as (-> & _). now split. }
  rewrite E. cbn [bind fst snd].
  destruct (rest_area_ok S t v' other _ HB V eq_refl D) as (b' & ER & HB' & EV). rewrite ER. cbn [bind].
  destruct (own_reset_ok S (fun id => alive h id = true) h (set_kind other (mk_mobj (vec_moved (o_vec (b_kind other))) (o_used (b_kind other)))))
    as (o & EO & HBo & OO & XO); cbn; auto.
  - apply HV.
  - now rewrite repeat_length.
  - apply HV.
  - split; [|discriminate]. intros id. intuition discriminate.
  - rewrite EO. cbn. exists b', o. rewrite EV. repeat split; auto; try apply HB'; try apply HBo.
Qed.

Lemma own_move_assign_ok S others h this other t u : binv S u this -> binv S t other ->
  own_capacity this = S \/ (S < own_capacity other)%nat ->
  owned (fun id => others id \/ x_ext (o_vec (b_kind other)) = Some id) h (x_ext (o_vec (b_kind this))) ->
  exists h' b o, own_move_assign h this other = Ok (h', (b, o)) /\ binv S t b /\ binv S [] o /\
    x_ext (o_vec (b_kind b)) = x_ext (o_vec (b_kind other)) /\ x_ext (o_vec (b_kind o)) = None /\
    (forall id, alive h' id = true <-> others id \/ x_ext (o_vec (b_kind other)) = Some id).
Proof.
  intros HT HB HC HO. unfold own_move_assign, vec_move_assign, own_capacity in *.
  assert (HV := HB). destruct HV as (HV & HF & _). assert (HVT := HT). destruct HVT as ((T1 & T2 & T3 & T4) & TF & _).
  destruct (delete_ok _ _ _ HO) as (h' & ED & (OD & _) & _). rewrite ED. cbn [bind fst snd].
  set (this' := if hold_external (o_vec (b_kind this)) then _ else _).
  destruct (vec_transfer_ok S this' (o_vec (b_kind other)) HV) as (v' & E & V & X & D).
  { unfold this'. destruct (hold_external _); exact T1. }
  { intros XN. unfold this', hold_external. destruct HV as (V1 & V2 & V3 & V4). rewrite XN in V4.
    destruct (x_ext (o_vec (b_kind this))) eqn:XT; [lia|]. repeat split; auto; lia. }
  rewrite E. cbn [bind fst snd]. rewrite TF.
  destruct (rest_area_ok S t v' other _ HB V eq_refl D) as (b' & ER & HB' & EV). rewrite ER. cbn [bind].
  destruct (own_reset_ok S (fun id => alive h' id = true) h' (set_kind other (mk_mobj (vec_moved (o_vec (b_kind other))) (o_used (b_kind other)))))
    as (o & EO & HBo & OO & XO); cbn; auto.
  - apply HV.
  - now rewrite repeat_length.
  - apply HV.
  - split; [|discriminate]. intros id. intuition discriminate.
  - rewrite EO. cbn. exists h', b', o. rewrite EV. repeat split; auto; try apply HB'; try apply HBo.
    + intros A. apply OD in A. intuition discriminate.
    + intros A. apply OD. tauto.
Qed.

(** ** Worlds *)
Definition owns (objs : list (option (bst mobj))) (i id : nat) : Prop :=
  exists b, nth_error objs i = Some (Some b) /\ x_ext (o_vec (b_kind b)) = Some id.

Record winv (S : nat) (w : world) (l : texts) : Prop := {
  wi_len : length (w_objs w) = length l;
  wi_obj : forall i, match nth_error (w_objs w) i, nth_error l i with
                     | Some (Some b), Some (Some t) => binv S t b
                     | Some None, Some None | None, None => True
                     | _, _ => False
                     end;
  wi_alive : forall id, alive (w_heap w) id = true <-> exists i, owns (w_objs w) i id;
  wi_inj : forall i j id, owns (w_objs w) i id -> owns (w_objs w) j id -> i = j
}.

Lemma winv_get S w l i t : winv S w l -> nth_error l i = Some (Some t) ->
  exists b, object w i = Ok b /\ nth_error (w_objs w) i = Some (Some b) /\ binv S t b.
Proof.
  intros H E. assert (O := wi_obj _ _ _ H i). rewrite E in O. unfold object.
  destruct (nth_error (w_objs w) i) as [[b|]|]; try contradiction. eauto.
Qed.

(** What the other objects own. *)
Definition others_of (objs : list (option (bst mobj))) (i : nat) (id : nat) : Prop := exists j, j <> i /\ owns objs j id.

Lemma winv_owned S w l i b : winv S w l -> nth_error (w_objs w) i = Some (Some b) ->
  owned (others_of (w_objs w) i) (w_heap w) (x_ext (o_vec (b_kind b))).
Proof.
  intros H E. split.
  - intros id. rewrite (wi_alive _ _ _ H). split.
    + intros (j & O). destruct (Nat.eq_dec j i) as [-> |N]; [|left; exists j; auto].
      destruct O as (b' & E' & X). rewrite E in E'. inversion E'; subst. auto.
    + intros [(j & _ & O)|X]; [eauto|]. exists i, b. auto.
  - intros id X (j & N & O). apply N. apply (wi_inj _ _ _ H j i id); [exact O|]. exists b. auto.
Qed.

(** Replacing one object. *)
Lemma winv_set S w l i b t h' : winv S w l -> (i < length l)%nat -> binv S t b ->
  owned (others_of (w_objs w) i) h' (x_ext (o_vec (b_kind b))) ->
  winv S (mk_world h' (upd (w_objs w) i (Some b))) (upd l i (Some t)).
Proof.
  intros H HL HB (O1 & O2). assert (HL' : (i < length (w_objs w))%nat) by (rewrite (wi_len _ _ _ H); exact HL).
  assert (OW : forall j id, owns (upd (w_objs w) i (Some b)) j id <-> (j = i /\ x_ext (o_vec (b_kind b)) = Some id) \/ (j <> i /\ owns (w_objs w) j id)).
  { intros j id. unfold owns. setoid_rewrite (nth_error_upd (w_objs w) i (Some b) j HL'). destruct (j =? i)%nat eqn:E.
    - assert (j = i) by lia. subst. split.
      + intros (b' & E' & X). inversion E'; subst. auto.
      + intros [(_ & X)|(N & _)]; [eauto|congruence].
    - split; [intros HH; right; split; [lia|exact HH]|]. intros [(N & _)|(_ & HH)]; [lia|exact HH]. }
  constructor; cbn [w_heap w_objs].
  - rewrite !upd_length; auto. apply (wi_len _ _ _ H).
  - intros j. rewrite !nth_error_upd by assumption. destruct (j =? i)%nat; [exact HB|apply (wi_obj _ _ _ H)].
  - intros id. rewrite O1. split.
    + intros [(j & N & O)|X]; [exists j; apply OW; auto|exists i; apply OW; auto].
    + intros (j & O). apply OW in O as [(_ & X)|(N & O)]; [auto|left; exists j; auto].
  - intros j1 j2 id A B. apply OW in A. apply OW in B.
    destruct A as [( -> & X)|(N1 & A)], B as [( -> & Y)|(N2 & B)]; auto.
    + exfalso. apply (O2 id X). exists j2; auto.
    + exfalso. apply (O2 id Y). exists j1; auto.
    + apply (wi_inj _ _ _ H _ _ id); auto.
Qed.

(** A new object. *)
Lemma winv_add S w l b t h' : winv S w l -> binv S t b ->
  owned (fun id => exists i, owns (w_objs w) i id) h' (x_ext (o_vec (b_kind b))) ->
  winv S (mk_world h' (w_objs w ++ [Some b])) (l ++ [Some t]).
Proof.
  intros H HB (O1 & O2). assert (HL := wi_len _ _ _ H).
  assert (NE : forall {A} (l : list A) x j, nth_error (l ++ [x]) j = if (j =? length l)%nat then Some x else nth_error l j).
  { intros A l0 x j. destruct (j =? length l0)%nat eqn:E.
    - rewrite nth_error_app2 by lia. now replace (j - length l0)%nat with O by lia.
    - destruct (le_lt_dec (length l0) j); [|now rewrite nth_error_app1 by lia].
      rewrite nth_error_app2 by lia. replace (nth_error l0 j) with (@None A) by (symmetry; apply nth_error_None; lia).
      destruct (j - length l0)%nat as [|n] eqn:E2; [lia|]. cbn. now destruct n. }
  assert (OW : forall j id, owns (w_objs w ++ [Some b]) j id <-> (j = length (w_objs w) /\ x_ext (o_vec (b_kind b)) = Some id) \/ owns (w_objs w) j id).
  { intros j id. unfold owns. setoid_rewrite (NE _ (w_objs w) (Some b) j). destruct (j =? length (w_objs w))%nat eqn:E.
    - split.
      + intros (b' & E' & X). inversion E'; subst. left. split; [lia|auto].
      + intros [(_ & X)|(b' & E' & X)]; [eauto|]. apply nth_error_lt in E'. lia.
    - split; [auto|]. intros [(N & _)|HH]; [lia|exact HH]. }
  constructor; cbn [w_heap w_objs].
  - rewrite !app_length, HL. reflexivity.
  - intros j. rewrite !NE, HL. destruct (j =? length l)%nat; [exact HB|apply (wi_obj _ _ _ H)].
  - intros id. rewrite O1. split.
    + intros [(j & O)|X]; [exists j; apply OW; auto|exists (length (w_objs w)); apply OW; auto].
    + intros (j & O). apply OW in O as [(_ & X)|O]; [auto|left; exists j; auto].
  - intros j1 j2 id A B. apply OW in A. apply OW in B.
    destruct A as [( -> & X)|A], B as [( -> & Y)|B]; auto.
    + exfalso. apply (O2 id X). eauto.
    + exfalso. apply (O2 id Y). eauto.
    + apply (wi_inj _ _ _ H _ _ id); auto.
Qed.

Lemma winv_kill S w l i b t h' : winv S w l -> nth_error (w_objs w) i = Some (Some b) -> nth_error l i = Some (Some t) ->
  (forall id, alive h' id = true <-> others_of (w_objs w) i id) ->
  winv S (mk_world h' (upd (w_objs w) i None)) (upd l i None).
Proof.
  intros H E E2 O1. assert (HL' := nth_error_lt _ _ _ E). assert (HL := nth_error_lt _ _ _ E2).
  assert (OW : forall j id, owns (upd (w_objs w) i None) j id <-> (j <> i /\ owns (w_objs w) j id)).
  { intros j id. unfold owns. setoid_rewrite (nth_error_upd (w_objs w) i None j HL'). destruct (j =? i)%nat eqn:EJ.
    - split; [intros (b' & E' & _); discriminate|]. intros (N & _). lia.
    - split; [intros HH; split; [lia|exact HH]|tauto]. }
  constructor; cbn [w_heap w_objs].
  - rewrite !upd_length; auto. apply (wi_len _ _ _ H).
  - intros j. rewrite !nth_error_upd by assumption. destruct (j =? i)%nat; [exact Logic.I|apply (wi_obj _ _ _ H)].
  - intros id. rewrite O1. split; intros (j & O); exists j; apply OW; exact O.
  - intros j1 j2 id A B. apply OW in A. apply OW in B. apply (wi_inj _ _ _ H _ _ id); tauto.
Qed.

Lemma upd_same {A} (l : list A) i x : nth_error l i = Some x -> upd l i x = l.
Proof.
  intros H. unfold upd. rewrite <- (firstn_skipn i l) at 3. f_equal. symmetry. now apply skipn_cons.
Qed.

Theorem mstep_ok S w l o l' : winv S w l -> assign_guard S w o -> means l o l' ->
  exists w', mstep S w o = Ok w' /\ winv S w' l'.
Proof.
  intros H G M. destruct M as [l c|l s t E|l s t E|l d s u t ED ES|l d s u t N ED ES|l d t E|l i t c u E HC HT|l i t E|l i t E];
    cbn [mstep].
  - destruct (own_new_ok S (fun id => exists i, owns (w_objs w) i id) (w_heap w) c) as (h' & b & EN & HB & HO).
    { apply (wi_alive _ _ _ H). }
    rewrite EN. cbn. eexists. split; [reflexivity|]. now apply winv_add.
  - destruct (winv_get _ _ _ _ _ H E) as (src & EO & _ & HB). rewrite EO. cbn [bind].
    destruct (own_copy_new_ok S (fun id => exists i, owns (w_objs w) i id) (w_heap w) src t HB) as (h' & b & EN & HB' & HO).
    { apply (wi_alive _ _ _ H). }
    rewrite EN. cbn. eexists. split; [reflexivity|]. now apply winv_add.
  - destruct (winv_get _ _ _ _ _ H E) as (src & EO & EI & HB). rewrite EO. cbn [bind].
    assert (HO := winv_owned _ _ _ _ _ H EI).
    destruct (own_move_new_ok S _ _ _ _ HB HO) as (b & o & EN & HB1 & HB2 & X1 & X2).
    rewrite EN. cbn. eexists. split; [reflexivity|].
    assert (HL := nth_error_lt _ _ _ E). assert (HL' := nth_error_lt _ _ _ EI).
    (* the source first gives up its block, then the new object takes it *)
    assert (OW : forall j id, owns (upd (w_objs w) s (Some o)) j id <-> j <> s /\ owns (w_objs w) j id).
    { intros j id. unfold owns. setoid_rewrite (nth_error_upd (w_objs w) s (Some o) j HL'). destruct (j =? s)%nat eqn:EJ.
      - split; [intros (b' & E' & X); inversion E'; subst; congruence|]. intros (Nj & _). lia.
      - split; [intros HH; split; [lia|exact HH]|tauto]. }
    set (h0 := match x_ext (o_vec (b_kind src)) with Some id => firstn id (w_heap w) ++ false :: skipn (Datatypes.S id) (w_heap w) | None => w_heap w end).
    assert (A0 : forall id, alive h0 id = true <-> others_of (w_objs w) s id).
    { intros id. destruct HO as (O1 & O2). unfold h0. destruct (x_ext (o_vec (b_kind src))) as [k|] eqn:EX.
      - assert (AK : alive (w_heap w) k = true) by (apply O1; auto). rewrite alive_free by (now apply alive_lt).
        specialize (O1 id). destruct (id =? k)%nat eqn:EK; cbn.
        + rewrite andb_false_r. assert (id = k) by lia. subst. split; [discriminate|]. intros HH. exfalso. now apply (O2 k).
        + rewrite andb_true_r, O1. split; [|auto]. intros [HH|HH]; [exact HH|]. inversion HH; lia.
      - rewrite O1. intuition discriminate. }
    assert (W1 : winv S (mk_world h0 (upd (w_objs w) s (Some o))) (upd l s (Some []))).
    { apply winv_set; auto. rewrite X2. split; [|discriminate]. intros id. rewrite A0. intuition discriminate. }
    apply (winv_add S _ _ b t (w_heap w) W1 HB1). cbn [w_objs]. rewrite X1.
    destruct HO as (O1 & O2). split.
    + intros id. rewrite O1. split.
      * intros [(j & Nj & Oj)|X]; [left; exists j; now apply OW|auto].
      * intros [(j & Oj)|X]; [left; exists j; now apply OW|auto].
    + intros id X (j & Oj). apply (O2 id X). exists j. now apply OW.
  - destruct (winv_get _ _ _ _ _ H ED) as (bd & EOd & EId & HBd). destruct (winv_get _ _ _ _ _ H ES) as (bs & EOs & EIs & HBs).
    rewrite EOd, EOs. cbn [bind]. destruct (d =? s)%nat eqn:EQ.
    + assert (d = s) by lia. subst d. exists w. split; [reflexivity|]. now rewrite upd_same by assumption.
    + destruct (own_copy_assign_ok S (others_of (w_objs w) d) (w_heap w) bd bs t u HBd HBs) as (h' & b & EN & HB & HO).
      { apply (G bd bs EOd EOs). lia. }
      { now apply winv_owned with (l := l) (S := S). }
      rewrite EN. cbn. eexists. split; [reflexivity|]. apply winv_set; auto. eapply nth_error_lt; exact ED.
  - destruct (winv_get _ _ _ _ _ H ED) as (bd & EOd & EId & HBd). destruct (winv_get _ _ _ _ _ H ES) as (bs & EOs & EIs & HBs).
    rewrite EOd, EOs. cbn [bind]. replace (d =? s)%nat with false by lia.
    assert (HLd := nth_error_lt _ _ _ EId). assert (HLs := nth_error_lt _ _ _ EIs).
    assert (HLd' := nth_error_lt _ _ _ ED). assert (HLs' := nth_error_lt _ _ _ ES).
    set (oth := fun id => exists j, j <> d /\ j <> s /\ owns (w_objs w) j id).
    assert (HO : owned (fun id => oth id \/ x_ext (o_vec (b_kind bs)) = Some id) (w_heap w) (x_ext (o_vec (b_kind bd)))).
    { destruct (winv_owned _ _ _ _ _ H EId) as (O1 & O2).
      assert (EQ : forall id, others_of (w_objs w) d id <-> oth id \/ x_ext (o_vec (b_kind bs)) = Some id).
      { intros id. split.
        - intros (j & Nj & Oj). destruct (Nat.eq_dec j s) as [-> |Ns].
          + right. destruct Oj as (b' & E' & X). rewrite EIs in E'. inversion E'; subst. exact X.
          + left. exists j. auto.
        - intros [(j & N1 & N2 & Oj)|X]; [exists j; auto|]. exists s. split; [auto|]. exists bs. auto. }
      split; [intros id; rewrite O1, EQ; tauto|]. intros id X. rewrite <- EQ. auto. }
    destruct (own_move_assign_ok S oth (w_heap w) bd bs t u HBd HBs) as (h' & b & o & EN & HB1 & HB2 & X1 & X2 & AL); auto.
    rewrite EN. cbn. eexists. split; [reflexivity|].
    assert (OW : forall j id, owns (upd (upd (w_objs w) d (Some b)) s (Some o)) j id <->
        (j = d /\ x_ext (o_vec (b_kind bs)) = Some id) \/ (j <> d /\ j <> s /\ owns (w_objs w) j id)).
    { intros j id. unfold owns. rewrite nth_error_upd by (rewrite upd_length; auto). rewrite nth_error_upd by assumption.
      destruct (j =? s)%nat eqn:E1; [|destruct (j =? d)%nat eqn:E2].
      - split; [intros (b' & E' & X); inversion E'; subst; congruence|]. intros [(Q & _)|(_ & Q & _)]; lia.
      - split; [intros (b' & E' & X); inversion E'; subst; left; split; [lia|congruence]|].
        intros [(Q & X)|(Q & _)]; [|lia]. exists b. split; [reflexivity|congruence].
      - split; [intros HH; right; repeat split; [lia|lia|exact HH]|]. intros [(Q & _)|(_ & _ & HH)]; [lia|exact HH]. }
    constructor; cbn [w_heap w_objs].
    + rewrite !upd_length; rewrite ?upd_length; auto. apply (wi_len _ _ _ H).
    + intros j. rewrite !nth_error_upd by (rewrite ?upd_length; auto). destruct (j =? s)%nat; [exact HB2|].
      destruct (j =? d)%nat; [exact HB1|apply (wi_obj _ _ _ H)].
    + intros id. rewrite AL. split.
      * intros [(j & N1 & N2 & Oj)|X]; [exists j; apply OW; auto|exists d; apply OW; auto].
      * intros (j & Oj). apply OW in Oj as [(_ & X)|(N1 & N2 & Oj)]; [auto|left; exists j; auto].
    + intros j1 j2 id A B. apply OW in A. apply OW in B.
      assert (OS : x_ext (o_vec (b_kind bs)) = Some id -> owns (w_objs w) s id) by (intros X; exists bs; auto).
      destruct A as [( -> & X)|(N1 & N2 & A)], B as [( -> & Y)|(N3 & N4 & B)]; auto.
      * exfalso. apply N4. apply (wi_inj _ _ _ H _ _ id); auto.
      * exfalso. apply N2. apply (wi_inj _ _ _ H _ _ id); auto.
      * apply (wi_inj _ _ _ H _ _ id); auto.
  - destruct (winv_get _ _ _ _ _ H E) as (b & EO & _ & _). rewrite EO. cbn [bind]. rewrite Nat.eqb_refl. eauto.
  - destruct (winv_get _ _ _ _ _ H E) as (b & EO & EI & HB). rewrite EO. cbn [bind].
    assert (HR : own_R S (others_of (w_objs w) i) t (load (w_heap w) b)).
    { split; cbn; [now rewrite bst_eta|]. now apply winv_owned with (l := l) (S := S). }
    apply call_text_iff in HT; [|exact HC]. subst u.
    destruct (run_wcall_ok own_vt _ _ _ _ (own_lawful S (others_of (w_objs w) i)) c t _ HC HR Logic.I) as (b' & HR' & ER).
    assert (EX : exec1 None None t (call_op c) = (true, t ++ text_of c)).
    { unfold call_op. now destruct (needs_one_area c). }
    rewrite EX in *. cbn [fst snd] in *. rewrite ER. destruct HR' as (HB' & HO'). cbn [unload].
    eexists. split; [reflexivity|]. apply winv_set; auto. eapply nth_error_lt; exact E.
  - destruct (winv_get _ _ _ _ _ H E) as (b & EO & EI & HB). rewrite EO. cbn [bind].
    assert (HV := HB). destruct HV as ((V1 & V2 & V3 & V4) & HF & _).
    destruct (own_reset_ok S (others_of (w_objs w) i) (w_heap w) b) as (b' & ER & HB' & HO' & _); auto.
    { now apply winv_owned with (l := l) (S := S). }
    rewrite ER. cbn. eexists. split; [reflexivity|]. apply winv_set; auto. eapply nth_error_lt; exact E.
  - destruct (winv_get _ _ _ _ _ H E) as (b & EO & EI & HB). rewrite EO. cbn [bind].
    unfold own_destroy. destruct (delete_ok _ _ _ (winv_owned _ _ _ _ _ H EI)) as (h' & ED & (O1 & _) & _).
    rewrite ED. cbn. eexists. split; [reflexivity|]. apply winv_kill with (b := b) (t := t); auto.
    intros id. rewrite O1. intuition discriminate.
Qed.

Theorem mrun_ok S w l ops l' : winv S w l -> runs S w l ops l' -> exists w', mrun S w ops = Ok w' /\ winv S w' l'.
Proof.
  intros H R. revert H. induction R as [w l|w l o l1 ops l2 G M _ IH]; intros H.
  - exists w. auto.
  - destruct (mstep_ok _ _ _ _ _ H G M) as (w1 & E & H1). cbn. rewrite E. cbn. now apply (IH w1 E).
Qed.

Lemma winv_init S : winv S (mk_world [] []) [].
Proof.
  constructor; cbn.
  - reflexivity.
  - intros [|i]; exact Logic.I.
  - intros id. split.
    + unfold alive. now destruct id.
    + intros (i & b & E & _). now destruct i.
  - intros i j id (b & E & _). now destruct i.
Qed.
