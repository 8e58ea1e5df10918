(** Specification: programs over memory_buffer objects as values. *)
From Verif Require Import Base Writer SpecWriter CtVector.

(** The text of each object; [None] when its lifetime has ended. *)
Definition texts := list (option (list Z)).

(** [means l o l']: the operation turns the texts [l] into [l']. *)
Inductive means : texts -> mop -> texts -> Prop :=
| mn_new l c : means l (MNew c) (l ++ [Some []])
| mn_copy l s t : nth_error l s = Some (Some t) -> means l (MCopyNew s) (l ++ [Some t])
| mn_move l s t : nth_error l s = Some (Some t) -> means l (MMoveNew s) (upd l s (Some []) ++ [Some t])
| mn_copy_assign l d s u t : nth_error l d = Some (Some u) -> nth_error l s = Some (Some t) ->
    means l (MCopyAssign d s) (upd l d (Some t))
| mn_move_assign l d s u t : d <> s -> nth_error l d = Some (Some u) -> nth_error l s = Some (Some t) ->
    means l (MMoveAssign d s) (upd (upd l d (Some t)) s (Some []))
| mn_move_self l d t : nth_error l d = Some (Some t) -> means l (MMoveAssign d d) l
| mn_call l i t c u : nth_error l i = Some (Some t) -> call_ok c -> call_text c u ->
    means l (MCall i c) (upd l i (Some (t ++ u)))
| mn_reset l i t : nth_error l i = Some (Some t) -> means l (MReset i) (upd l i (Some []))
| mn_destroy l i t : nth_error l i = Some (Some t) -> means l (MDestroy i) (upd l i None).

(** The assignments the code gets right, in terms of capacity(): a copy must
    not go to an object of larger capacity, and an object that has left its
    inline storage must not be moved to from one that has not. *)
Definition assign_guard (storage : nat) (w : world) (o : mop) : Prop :=
  match o with
  | MCopyAssign d s => forall bd bs, object w d = Ok bd -> object w s = Ok bs -> d <> s -> (own_capacity bd <= own_capacity bs)%nat
  | MMoveAssign d s => forall bd bs, object w d = Ok bd -> object w s = Ok bs -> d <> s ->
                       own_capacity bd = storage \/ (storage < own_capacity bs)%nat
  | _ => True
  end.

(** A program that respects the guard at each step (and uses only objects that
    exist), with the texts at its end. *)
Inductive runs (storage : nat) : world -> texts -> list mop -> texts -> Prop :=
| rn_nil w l : runs storage w l [] l
| rn_cons w l o l1 ops l2 : assign_guard storage w o -> means l o l1 ->
    (forall w1, mstep storage w o = Ok w1 -> runs storage w1 l1 ops l2) ->
    runs storage w l (o :: ops) l2.
