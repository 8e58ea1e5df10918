(** Property C11: copies and moves of memory_buffer. *)
From Verif Require Import Base Lib Buffer Writer BufferProofs SpecWriter CtVector SpecOwn CtVectorProofs.

(** ** C11 memory_buffer copies and moves are memory safe

    Any program over any number of memory_buffer objects - construction, copy
    and move construction and assignment, writer calls, reset, destruction -
    whose assignments respect [assign_guard]: no access outside the memory an
    object owns and no invalid delete (both are [Undef]), each object shows the
    text it has as a value, and the allocated blocks are exactly those owned
    by one object each. *)
Theorem C11_copies_and_moves_partial : forall storage ops l,
  runs storage (mk_world [] []) [] ops l ->
  exists w, mrun storage (mk_world [] []) ops = Ok w /\
    length (w_objs w) = length l /\
    (forall i t, nth_error l i = Some (Some t) -> exists b, object w i = Ok b /\ own_view b = t) /\
    (forall id, alive (w_heap w) id = true <-> exists i b, object w i = Ok b /\ x_ext (o_vec (b_kind b)) = Some id) /\
    (Forall (fun x => x = None) l -> forall id, alive (w_heap w) id = false).
Proof.
  intros storage ops l H. destruct (mrun_ok _ _ _ _ _ (winv_init storage) H) as (w & E & W). exists w.
  split; [exact E|]. split; [apply (wi_len _ _ _ W)|].
  assert (HA : forall id, alive (w_heap w) id = true <-> exists i b, object w i = Ok b /\ x_ext (o_vec (b_kind b)) = Some id).
  { intros id. rewrite (wi_alive _ _ _ W). unfold owns, object. split.
    - intros (i & b & EI & X). exists i, b. now rewrite EI.
    - intros (i & b & EI & X). exists i, b. destruct (nth_error (w_objs w) i) as [[b'|]|]; try discriminate. now inversion EI. }
  split; [|split; [exact HA|]].
  - intros i t EI. destruct (winv_get _ _ _ _ _ W EI) as (b & EO & _ & HB). exists b. split; [exact EO|]. eapply own_view_ok. exact HB.
  - intros HF id. destruct (alive (w_heap w) id) eqn:EA; [|reflexivity]. exfalso. apply HA in EA as (i & b & EO & _).
    unfold object in EO. assert (O := wi_obj _ _ _ W i). destruct (nth_error (w_objs w) i) as [[b'|]|] eqn:EI; try discriminate.
    destruct (nth_error l i) as [[t|]|] eqn:EL; try contradiction.
    rewrite Forall_forall in HF. apply nth_error_In in EL. now apply HF in EL.
Qed.
Print Assumptions C11_copies_and_moves_partial.

(** Non-trivial programs of this kind exist: an external block is created, copied,
    moved, written on and freed. *)
Example C11_case :
  let prog := [MNew 0; MCall 0 (WStr (str "abcdefgh")); MCopyNew 0; MMoveNew 0; MCall 1 (WStr (str "12345678"));
               MNew 0; MMoveAssign 3 2; MCopyAssign 2 3; MCall 3 (WChar 33); MDestroy 0] in
  exists l, runs 4 (mk_world [] []) [] prog l /\ l = [None; Some (str "abcdefgh12345678"); Some (str "abcdefgh"); Some (str "abcdefgh!")] /\
  exists w, mrun 4 (mk_world [] []) prog = Ok w /\ w_heap w = [true; false; true; true].
Proof.
  cbv zeta. eexists. split; [|split; [reflexivity|eexists; split; [vm_compute; reflexivity|reflexivity]]].
  Ltac step M := eapply rn_cons; [try exact I| |intros w1 E1; vm_compute in E1; injection E1 as <-].
  step tt. { apply mn_new. }
  step tt. { eapply mn_call; [reflexivity| |reflexivity]. repeat (apply Forall_cons; [vm_compute; intuition discriminate|]). apply Forall_nil. }
  step tt. { eapply mn_copy. reflexivity. }
  step tt. { eapply mn_move. reflexivity. }
  step tt. { eapply mn_call; [reflexivity| |reflexivity]. repeat (apply Forall_cons; [vm_compute; intuition discriminate|]). apply Forall_nil. }
  step tt. { apply mn_new. }
  step tt. { intros bd bs E1 E2 _. vm_compute in E1, E2. injection E1 as <-. injection E2 as <-. left. reflexivity. }
  { eapply mn_move_assign; [discriminate|reflexivity|reflexivity]. }
  step tt. { intros bd bs E1 E2 _. vm_compute in E1, E2. injection E1 as <-. injection E2 as <-. cbn. lia. }
  { eapply mn_copy_assign; reflexivity. }
  step tt. { eapply mn_call; [reflexivity| |reflexivity]. unfold call_ok, is_byte. lia. }
  step tt. { eapply mn_destroy. reflexivity. }
  apply rn_nil.
Qed.

(** A copy assignment always shows the right text at once, even into an object
    of larger capacity. *)
Theorem C11_copy_assign_content : forall storage ops l d s u t,
  runs storage (mk_world [] []) [] ops l -> d <> s ->
  nth_error l d = Some (Some u) -> nth_error l s = Some (Some t) ->
  exists w b, mrun storage (mk_world [] []) (ops ++ [MCopyAssign d s]) = Ok w /\ object w d = Ok b /\ own_view b = t.
Proof.
  intros storage ops l d s u t H N ED ES.
  destruct (mrun_ok _ _ _ _ _ (winv_init storage) H) as (w & E & W).
  assert (EA : forall ops1 ops2 w0, mrun storage w0 (ops1 ++ ops2) = do w1 <- mrun storage w0 ops1 ;; mrun storage w1 ops2).
  { induction ops1 as [|o ops1 IH]; intros ops2 w0; [reflexivity|]. cbn. destruct (mstep storage w0 o); cbn; auto. }
  destruct (winv_get _ _ _ _ _ W ED) as (bd & EOd & EId & HBd). destruct (winv_get _ _ _ _ _ W ES) as (bs & EOs & EIs & HBs).
  rewrite EA, E. cbn [bind mrun mstep]. rewrite EOd, EOs. cbn [bind]. replace (d =? s)%nat with false by lia.
  assert (HL := nth_error_lt _ _ _ EId).
  enough (G : exists h b, own_copy_assign (w_heap w) bd bs = Ok (h, b) /\ own_view b = t).
  { destruct G as (h & b & EG & V). rewrite EG. cbn. do 2 eexists. split; [reflexivity|]. split; [|exact V].
    unfold object. cbn [w_objs]. rewrite nth_error_upd by assumption. now rewrite Nat.eqb_refl. }
  destruct (le_lt_dec (own_capacity bd) (own_capacity bs)) as [L|L].
  - destruct (own_copy_assign_ok storage (others_of (w_objs w) d) (w_heap w) bd bs t u HBd HBs L) as (h & b & EG & HB & _).
    { now apply winv_owned with (l := l) (S := storage). }
    exists h, b. split; [exact EG|]. eapply own_view_ok. exact HB.
  - destruct HBd as ((T1 & T2 & T3 & T4) & TF & _). destruct HBs as ((V1 & V2 & V3 & V4) & H0 & H2 & H3 & H4 & H5 & H6).
    unfold own_copy_assign, vec_copy_assign, vec_reserve, own_capacity in *. rewrite V2.
    assert (SN : (storage <= x_cap (o_vec (b_kind bs)))%nat) by (destruct (x_ext (o_vec (b_kind bs))); lia).
    replace (x_cap (o_vec (b_kind bs)) <? x_inline (o_vec (b_kind bd)))%nat with false by lia. cbn [andb].
    replace (x_cap (o_vec (b_kind bd)) <? x_cap (o_vec (b_kind bs)))%nat with false by lia. cbn [bind snd fst].
    unfold copy_data. rewrite V2. replace (length (x_data (o_vec (b_kind bs))) <? x_cap (o_vec (b_kind bs)))%nat with false by lia.
    rewrite <- V3, firstn_all. cbn [x_data]. rewrite store_list_ok by lia. cbn [bind fst snd].
    unfold rest_area. cbn [x_cap]. replace (x_cap (o_vec (b_kind bd)) <? total_used bs)%nat with false
      by (unfold total_used, get_used_count; lia).
    cbn [bind]. do 2 eexists. split; [reflexivity|]. unfold own_view, get_used_count. cbn.
    rewrite Nat.add_0_r. unfold splice. cbn [firstn app]. rewrite firstn_app.
    unfold total_used, get_used_count. rewrite <- H5.
    replace (length t - length (x_data (o_vec (b_kind bs))))%nat with O by lia. cbn. now rewrite app_nil_r.
Qed.
Print Assumptions C11_copy_assign_content.

(** Without the guard the property is false. Copying into an object of larger
    capacity keeps that capacity but takes the smaller size; the object then
    hands out memory beyond its allocation. *)
Theorem C11_copy_assign_refuted :
  exists ops, mrun 4 (mk_world [] []) ops = Undef /\
    ops = [MNew 40; MNew 0; MCall 1 (WStr (str "abc")); MCopyAssign 0 1;
           MCall 0 (WCharN 46 30); MCall 0 (WCharN 46 10)].
Proof. eexists. split; [|reflexivity]. vm_compute. reflexivity. Qed.
Print Assumptions C11_copy_assign_refuted.

(** Moving into an object with external storage from one with inline storage
    writes into the memory that was just freed. *)
Theorem C11_move_assign_refuted :
  exists ops, mrun 4 (mk_world [] []) ops = Undef /\
    ops = [MNew 40; MNew 0; MCall 1 (WStr (str "abc")); MMoveAssign 0 1].
Proof. eexists. split; [|reflexivity]. vm_compute. reflexivity. Qed.
Print Assumptions C11_move_assign_refuted.
