(** Ownership of memory: include/emio/detail/ct_vector.hpp in full, and the
    special member functions of memory_buffer (include/emio/buffer.hpp:132-233).

    A [vec] carries the contents of the memory its [data_] points to. External
    blocks have a number; the heap says which blocks are allocated. Deleting a
    block empties the contents seen through the pointer, so that any later
    access through it is out of bounds; deleting a block that is not allocated
    is undefined. Every access is bounds-checked against the contents. *)
From Verif Require Import Base Buffer Writer.

Definition heap := list bool.
Definition alive (h : heap) (id : nat) : bool := nth id h false.

(** ct_vector.hpp:143-146. [x_inline] is StorageSize, [x_ext] the block number
    when [data_] does not point to [storage_] (lines 139-141), [x_data] what
    [data_] points to. *)
Record vec := mk_vec { x_inline : nat; x_ext : option nat; x_data : list Z; x_size : nat; x_cap : nat }.

(** ct_vector.hpp:26-30 *)
Definition fresh_vec (storage : nat) : vec := mk_vec storage None (repeat uninit storage) 0 storage.

(** ct_vector.hpp:139-141 *)
Definition hold_external (v : vec) : bool := match x_ext v with Some _ => true | None => false end.

(** [delete[] data_] of an external block: the memory is gone. *)
Definition delete_data (h : heap) (v : vec) : outcome (heap * vec) :=
  match x_ext v with
  | Some id =>
    if alive h id then
      Ok (firstn id h ++ false :: skipn (S id) h, mk_vec (x_inline v) (x_ext v) [] (x_size v) (x_cap v))
    else Undef
  | None => Ok (h, v)
  end.

(** ct_vector.hpp:94-116 *)
Definition vec_reserve (h : heap) (v : vec) (new_size : nat) : outcome (heap * vec) :=
  if (new_size <? x_inline v)%nat && negb (hold_external v) then
    Ok (h, mk_vec (x_inline v) (x_ext v) (x_data v) new_size (x_cap v))
  else if (x_cap v <? new_size)%nat then
    if (length (x_data v) <? x_size v)%nat || (new_size <? x_size v)%nat then Undef
    else
      let data := firstn (x_size v) (x_data v) ++ repeat uninit (new_size - x_size v) in
      do hv <- delete_data (h ++ [true]) v ;;
      Ok (fst hv, mk_vec (x_inline v) (Some (length h)) data new_size new_size)
  else Ok (h, mk_vec (x_inline v) (x_ext v) (x_data v) new_size (x_cap v)).

(** [copy_n(other.data_, other.size_, data_)] *)
Definition copy_data (v other : vec) : outcome vec :=
  if (length (x_data other) <? x_size other)%nat then Undef
  else
    match store_list (x_data v) 0 (firstn (x_size other) (x_data other)) with
    | Some data => Ok (mk_vec (x_inline v) (x_ext v) data (x_size v) (x_cap v))
    | None => Undef
    end.

(** ct_vector.hpp:32-35 *)
Definition vec_copy_new (h : heap) (other : vec) : outcome (heap * vec) :=
  do hv <- vec_reserve h (fresh_vec (x_inline other)) (x_size other) ;;
  do v <- copy_data (snd hv) other ;;
  Ok (fst hv, v).

(** ct_vector.hpp:53-60, not for self assignment *)
Definition vec_copy_assign (h : heap) (v other : vec) : outcome (heap * vec) :=
  do hv <- vec_reserve h v (x_size other) ;;
  do v <- copy_data (snd hv) other ;;
  Ok (fst hv, v).

(** The transfer part of a move (38-45 and 72-79): [v] is the target. *)
Definition vec_transfer (v other : vec) : outcome vec :=
  if hold_external other then
    Ok (mk_vec (x_inline v) (x_ext other) (x_data other) (x_size other) (x_cap other))
  else
    do v <- copy_data v other ;;
    Ok (mk_vec (x_inline v) (x_ext v) (x_data v) (x_size other) (x_cap v)).

(** The source after a move (47-50 and 81-84): its inline storage, whose stale
    contents are not modelled. *)
Definition vec_moved (other : vec) : vec := fresh_vec (x_inline other).

(** ct_vector.hpp:37-51; result: target and source *)
Definition vec_move_new (other : vec) : outcome (vec * vec) :=
  do v <- vec_transfer (fresh_vec (x_inline other)) other ;; Ok (v, vec_moved other).

(** ct_vector.hpp:62-86, not for self assignment *)
Definition vec_move_assign (h : heap) (v other : vec) : outcome (heap * (vec * vec)) :=
  do hv <- delete_data h v ;;
  do v <- vec_transfer (snd hv) other ;;
  Ok (fst hv, (v, vec_moved other)).

(** ** memory_buffer *)

(** A memory_buffer object (buffer.hpp:231-232 with its base class part). *)
Record mobj := mk_mobj { o_vec : vec; o_used : nat }.

(** The same together with the heap, for the calls that may allocate. *)
Record own_k := mk_own { o_heap : heap; o_obj : mobj }.

Definition load (h : heap) (b : bst mobj) : bst own_k :=
  mk_bst (b_fixed b) (b_used b) (b_area b) (mk_own h (b_kind b)).
Definition unload (b : bst own_k) : heap * bst mobj :=
  (o_heap (b_kind b), mk_bst (b_fixed b) (b_used b) (b_area b) (o_obj (b_kind b))).

(** buffer.hpp:221-228 *)
Definition own_request (b : bst own_k) (used size : nat) : outcome span * bst own_k :=
  let o := o_obj (b_kind b) in
  match vec_reserve (o_heap (b_kind b)) (o_vec o) (x_size (o_vec o) + size) with
  | Ok (h, v) =>
    let o := mk_mobj v (o_used o + used) in
    let area := mk_span (o_used o) size in
    (Ok area, set_write_area (set_kind b (mk_own h o)) area)
  | _ => (Undef, b)
  end.

Definition own_vt : vtable own_k := {|
  v_request := own_request;
  v_cells k := x_data (o_vec (o_obj k));
  v_put k c := let v := o_vec (o_obj k) in
               mk_own (o_heap k) (mk_mobj (mk_vec (x_inline v) (x_ext v) c (x_size v) (x_cap v)) (o_used (o_obj k)))
|}.

(** buffer.hpp:189-191 *)
Definition own_view (b : bst mobj) : list Z :=
  firstn (o_used (b_kind b) + get_used_count b) (x_data (o_vec (b_kind b))).

(** buffer.hpp:216-218 *)
Definition own_capacity (b : bst mobj) : nat := x_cap (o_vec (b_kind b)).

(** A request whose area is not used: [request_write_area(..).value()]. *)
Definition requested (h : heap) (b : bst mobj) (size : nat) : outcome (heap * bst mobj) :=
  match own_request (load h b) 0 size with
  | (Ok _, b) => Ok (unload b)
  | (o, _) => do _ <- value_of o ;; Undef
  end.

(** buffer.hpp:144-147 *)
Definition own_new (storage : nat) (h : heap) (capacity : nat) : outcome (heap * bst mobj) :=
  let v := fresh_vec storage in
  requested h (mk_bst false 0 (mk_span 0 0) (mk_mobj v 0)) (Nat.max (x_cap v) capacity).

(** buffer.hpp:206-210 *)
Definition own_reset (h : heap) (b : bst mobj) : outcome (heap * bst mobj) :=
  let v := o_vec (b_kind b) in
  let v := mk_vec (x_inline v) (x_ext v) (x_data v) 0 (x_cap v) in
  requested h (set_kind b (mk_mobj v 0)) (x_cap v).

(** [set_write_area({vec_.data() + used_, vec_.data() + vec_.capacity()})]; a
    negative distance would be undefined. *)
Definition rest_area (fixed : bool) (v : vec) (used : nat) : outcome (bst mobj) :=
  if (x_cap v <? used)%nat then Undef
  else Ok (mk_bst fixed 0 (mk_span used (x_cap v - used)) (mk_mobj v used)).

Definition total_used (b : bst mobj) : nat := (o_used (b_kind b) + get_used_count b)%nat.

(** buffer.hpp:149-152 *)
Definition own_copy_new (h : heap) (other : bst mobj) : outcome (heap * bst mobj) :=
  do hv <- vec_copy_new h (o_vec (b_kind other)) ;;
  do b <- rest_area false (snd hv) (total_used other) ;;
  Ok (fst hv, b).

(** buffer.hpp:160-169 *)
Definition own_copy_assign (h : heap) (this other : bst mobj) : outcome (heap * bst mobj) :=
  do hv <- vec_copy_assign h (o_vec (b_kind this)) (o_vec (b_kind other)) ;;
  do b <- rest_area (b_fixed this) (snd hv) (total_used other) ;;
  Ok (fst hv, b).

(** buffer.hpp:154-158; result: heap, new object, source *)
Definition own_move_new (h : heap) (other : bst mobj) : outcome (heap * (bst mobj * bst mobj)) :=
  do vv <- vec_move_new (o_vec (b_kind other)) ;;
  do b <- rest_area false (fst vv) (total_used other) ;;
  do ho <- own_reset h (set_kind other (mk_mobj (snd vv) (o_used (b_kind other)))) ;;
  Ok (fst ho, (b, snd ho)).

(** buffer.hpp:171-181 *)
Definition own_move_assign (h : heap) (this other : bst mobj) : outcome (heap * (bst mobj * bst mobj)) :=
  do hvv <- vec_move_assign h (o_vec (b_kind this)) (o_vec (b_kind other)) ;;
  let (h, vv) := hvv in
  do b <- rest_area (b_fixed this) (fst vv) (total_used other) ;;
  do ho <- own_reset h (set_kind other (mk_mobj (snd vv) (o_used (b_kind other)))) ;;
  Ok (fst ho, (b, snd ho)).

(** ct_vector.hpp:88-92 *)
Definition own_destroy (h : heap) (b : bst mobj) : outcome heap :=
  do hv <- delete_data h (o_vec (b_kind b)) ;; Ok (fst hv).

(** ** Programs with any number of memory_buffer objects *)

Inductive mop :=
| MNew (capacity : nat)
| MCopyNew (src : nat)
| MMoveNew (src : nat)
| MCopyAssign (dst src : nat)
| MMoveAssign (dst src : nat)
| MCall (i : nat) (c : wcall)
| MReset (i : nat)
| MDestroy (i : nat).

(** Heap and objects; [None] is an object whose lifetime has ended. *)
Record world := mk_world { w_heap : heap; w_objs : list (option (bst mobj)) }.

Definition upd {A} (l : list A) (i : nat) (x : A) : list A := firstn i l ++ x :: skipn (S i) l.

(** Using an object that does not exist is undefined. *)
Definition object (w : world) (i : nat) : outcome (bst mobj) :=
  match nth_error (w_objs w) i with Some (Some b) => Ok b | _ => Undef end.

Definition mstep (storage : nat) (w : world) (o : mop) : outcome world :=
  match o with
  | MNew c =>
    do hb <- own_new storage (w_heap w) c ;;
    Ok (mk_world (fst hb) (w_objs w ++ [Some (snd hb)]))
  | MCopyNew s =>
    do src <- object w s ;;
    do hb <- own_copy_new (w_heap w) src ;;
    Ok (mk_world (fst hb) (w_objs w ++ [Some (snd hb)]))
  | MMoveNew s =>
    do src <- object w s ;;
    do hb <- own_move_new (w_heap w) src ;;
    Ok (mk_world (fst hb) (upd (w_objs w) s (Some (snd (snd hb))) ++ [Some (fst (snd hb))]))
  | MCopyAssign d s =>
    do dst <- object w d ;; do src <- object w s ;;
    if (d =? s)%nat then Ok w
    else
      do hb <- own_copy_assign (w_heap w) dst src ;;
      Ok (mk_world (fst hb) (upd (w_objs w) d (Some (snd hb))))
  | MMoveAssign d s =>
    do dst <- object w d ;; do src <- object w s ;;
    if (d =? s)%nat then Ok w
    else
      do hb <- own_move_assign (w_heap w) dst src ;;
      Ok (mk_world (fst hb) (upd (upd (w_objs w) d (Some (fst (snd hb)))) s (Some (snd (snd hb)))))
  | MCall i c =>
    do b <- object w i ;;
    match run_wcall own_vt (load (w_heap w) b) c with
    | (Ok _, b) => let (h, b) := unload b in Ok (mk_world h (upd (w_objs w) i (Some b)))
    | (Err e, _) => Err e
    | (Undef, _) => Undef
    | (Abort, _) => Abort
    end
  | MReset i =>
    do b <- object w i ;;
    do hb <- own_reset (w_heap w) b ;;
    Ok (mk_world (fst hb) (upd (w_objs w) i (Some (snd hb))))
  | MDestroy i =>
    do b <- object w i ;;
    do h <- own_destroy (w_heap w) b ;;
    Ok (mk_world h (upd (w_objs w) i None))
  end.

Fixpoint mrun (storage : nat) (w : world) (ops : list mop) : outcome world :=
  match ops with
  | [] => Ok w
  | o :: ops => do w <- mstep storage w o ;; mrun storage w ops
  end.
