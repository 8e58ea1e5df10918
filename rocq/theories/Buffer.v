(** Model of include/emio/buffer.hpp (and the parts of detail/ct_vector.hpp and
    iterator.hpp it uses).

    The C++ class hierarchy is modelled by explicit dictionaries: the state of a
    buffer is the base class part ([fixed_size_], [used_], [area_]) together with
    the part of the concrete class ([K]); a [vtable K] holds the virtual function
    [request_write_area] and says which memory the areas of this class point
    into. Sizes are unbounded naturals: the model has no [size_t] wrap-around,
    which needs an object of 2^64 bytes. *)
From Verif Require Import Base.

(** A [std::span<char>]: offset and length in the memory of the buffer. *)
Record span := mk_span { s_off : nat; s_len : nat }.

(** buffer.hpp:123-125 *)
Record bst (K : Type) := mk_bst { b_fixed : bool; b_used : nat; b_area : span; b_kind : K }.
Arguments mk_bst {K}.
Arguments b_fixed {K}.
Arguments b_used {K}.
Arguments b_area {K}.
Arguments b_kind {K}.

Record vtable (K : Type) := {
  (** buffer.hpp:99, with the buffer itself as [this] *)
  v_request : bst K -> nat -> nat -> outcome span * bst K;
  (** the memory that areas of this buffer point into *)
  v_cells : K -> list Z;
  (** the same with other contents *)
  v_put : K -> list Z -> K
}.
Arguments v_request {K}.
Arguments v_cells {K}.
Arguments v_put {K}.

Section Base.
  Context {K : Type} (vt : vtable K).

  Definition set_used (b : bst K) (u : nat) : bst K := mk_bst (b_fixed b) u (b_area b) (b_kind b).
  Definition set_kind (b : bst K) (k : K) : bst K := mk_bst (b_fixed b) (b_used b) (b_area b) k.

  (** buffer.hpp:109-112 *)
  Definition set_write_area (b : bst K) (a : span) : bst K := mk_bst (b_fixed b) 0 a (b_kind b).

  (** buffer.hpp:118-120 *)
  Definition get_used_count (b : bst K) : nat := b_used b.

  (** buffer.hpp:62-81 *)
  Definition get_write_area_of_max (b : bst K) (size : nat) : outcome span * bst K :=
    let remaining := (s_len (b_area b) - b_used b)%nat in
    if (size <=? remaining)%nat || b_fixed b then
      if (remaining =? 0)%nat && negb (size =? 0)%nat then (Err eof, b)
      else
        let m := Nat.min remaining size in
        (Ok (mk_span (s_off (b_area b) + b_used b) m), set_used b (b_used b + m))
    else
      sdo (area, b) <- v_request vt b (b_used b) size ;;
      (Ok area, set_used b (b_used b + s_len area)).

  (** buffer.hpp:46-53 *)
  Definition get_write_area_of (b : bst K) (size : nat) : outcome span * bst K :=
    sdo (area, b) <- get_write_area_of_max b size ;;
    if (s_len area <? size)%nat then (Err eof, set_used b (b_used b - s_len area))
    else (Ok area, b).

  (** Stores [d] at the start of the area [a]. A store outside the area or
      outside the memory of the buffer is undefined. (C++ would let a store
      outside the area but inside the same array pass: the model is stricter.) *)
  Definition store_area (b : bst K) (a : span) (d : list Z) : outcome unit * bst K :=
    if (length d <=? s_len a)%nat then
      match store_list (v_cells vt (b_kind b)) (s_off a) d with
      | Some cells => (Ok tt, set_kind b (v_put vt (b_kind b) cells))
      | None => (Undef, b)
      end
    else (Undef, b).

  (** Runs a function over the cells of the area [a] (a function that writes
      through pointers into the area). [None] is a store outside. *)
  Definition fill_area (b : bst K) (a : span) (f : list Z -> option (list Z)) : outcome unit * bst K :=
    let cells := v_cells vt (b_kind b) in
    if (s_off a + s_len a <=? length cells)%nat then
      match f (firstn (s_len a) (skipn (s_off a) cells)) with
      | Some d => if (length d =? s_len a)%nat then store_area b a d else (Undef, b)
      | None => (Undef, b)
      end
    else (Undef, b).

  (** [span::subspan(n)] *)
  Definition subspan (a : span) (n : nat) : span := mk_span (s_off a + n) (s_len a - n).
End Base.

(** Contents of memory that was never written. *)
Definition uninit : Z := -1.

(** ** memory_buffer (buffer.hpp:132-233) over ct_vector (detail/ct_vector.hpp)

    [m_cells] is the current allocation (inline storage or external), its length
    the capacity. The distinction between inline and external storage does not
    matter for the behaviour of [reserve]: its first branch (ct_vector.hpp:95-98)
    does what the second does when the capacity suffices, and the capacity is
    never below StorageSize. Ownership is modelled in CtVector.v. *)
Record mem_k := mk_mem { m_cells : list Z; m_size : nat; m_used : nat }.

(** ct_vector.hpp:94-116 *)
Definition reserve (k : mem_k) (new_size : nat) : mem_k :=
  if (length (m_cells k) <? new_size)%nat then
    mk_mem (firstn (m_size k) (m_cells k) ++ repeat uninit (new_size - m_size k)) new_size (m_used k)
  else mk_mem (m_cells k) new_size (m_used k).

(** buffer.hpp:221-228 *)
Definition mem_request (b : bst mem_k) (used size : nat) : outcome span * bst mem_k :=
  let k := reserve (b_kind b) (m_size (b_kind b) + size) in
  let k := mk_mem (m_cells k) (m_size k) (m_used k + used) in
  let area := mk_span (m_used k) size in
  (Ok area, set_write_area (set_kind b k) area).

Definition mem_vt : vtable mem_k := {|
  v_request := mem_request;
  v_cells := m_cells;
  v_put k c := mk_mem c (m_size k) (m_used k)
|}.

(** buffer.hpp:138-147; [.value()] cannot fail because the request never does. *)
Definition memory_buffer (storage capacity : nat) : bst mem_k :=
  let b := mk_bst false 0 (mk_span 0 0) (mk_mem (repeat uninit storage) 0 0) in
  snd (mem_request b 0 (Nat.max storage capacity)).

(** buffer.hpp:189-191 *)
Definition mem_view (b : bst mem_k) : list Z :=
  firstn (m_used (b_kind b) + get_used_count b) (m_cells (b_kind b)).

(** buffer.hpp:206-210 *)
Definition mem_reset (b : bst mem_k) : bst mem_k :=
  let k := mk_mem (m_cells (b_kind b)) 0 0 in
  snd (mem_request (set_kind b k) 0 (length (m_cells k))).

(** ** span_buffer (buffer.hpp:238-314) and static_buffer (323-359) *)

Definition span_vt : vtable (list Z) := {|
  (** inherited: buffer.hpp:99-103 *)
  v_request b _ _ := (Err eof, b);
  v_cells c := c;
  v_put _ c := c
|}.

(** buffer.hpp:249-251; static_buffer 329: the memory is uninitialised. *)
Definition span_buffer (cells : list Z) : bst (list Z) :=
  mk_bst true 0 (mk_span 0 (length cells)) cells.

(** buffer.hpp:243: a default constructed span_buffer *)
Definition empty_span_buffer : bst (list Z) := mk_bst true 0 (mk_span 0 0) [].

(** buffer.hpp:283-285 *)
Definition span_view (b : bst (list Z)) : list Z := firstn (get_used_count b) (b_kind b).

(** buffer.hpp:300-302 *)
Definition span_reset (b : bst (list Z)) : bst (list Z) :=
  set_write_area b (mk_span 0 (length (b_kind b))).

(** buffer.hpp:331-334 and 344-347: copying a static_buffer. [.value()] on the
    area of the used count; both have the same capacity. *)
Definition static_copy (this other : bst (list Z)) : outcome (bst (list Z)) :=
  let b := set_write_area this (mk_span 0 (length (b_kind this))) in
  match get_write_area_of span_vt b (get_used_count other) with
  | (Ok a, b) =>
    match store_area span_vt b a (firstn (s_len a) (b_kind other)) with
    | (Ok _, b) => Ok b
    | _ => Undef
    end
  | (o, _) => do _ <- value_of o ;; Undef
  end.

(** ** iterator_buffer over an output iterator (buffer.hpp:416-469)

    The iterator is any type [I] with the effect of [*it++ = c]. *)
Record iter_k (I : Type) := mk_iter { i_cache : list Z; i_it : I }.
Arguments mk_iter {I}.
Arguments i_cache {I}.
Arguments i_it {I}.

Section Iter.
  Context {I : Type} (put : I -> Z -> I).

  (** buffer.hpp:395-401 *)
  Definition copy_str (d : list Z) (it : I) : I := fold_left put d it.

  Definition whole (c : list Z) : span := mk_span 0 (length c).

  (** buffer.hpp:440-444 *)
  Definition iter_flush (b : bst (iter_k I)) : bst (iter_k I) :=
    let k := b_kind b in
    let k := mk_iter (i_cache k) (copy_str (firstn (get_used_count b) (i_cache k)) (i_it k)) in
    set_write_area (set_kind b k) (whole (i_cache k)).

  (** buffer.hpp:456-464 *)
  Definition iter_request (b : bst (iter_k I)) (_ size : nat) : outcome span * bst (iter_k I) :=
    let b := iter_flush b in
    let area := whole (i_cache (b_kind b)) in
    let b := set_write_area b area in
    if (s_len area <? size)%nat then (Ok area, b) else (Ok (mk_span 0 size), b).

  Definition iter_vt : vtable (iter_k I) := {|
    v_request := iter_request;
    v_cells := i_cache;
    v_put k c := mk_iter c (i_it k)
  |}.

  (** buffer.hpp:426-428; the cache is uninitialised. *)
  Definition iterator_buffer (cache_size : nat) (it : I) : bst (iter_k I) :=
    let c := repeat uninit cache_size in
    mk_bst false 0 (whole c) (mk_iter c it).

  (** buffer.hpp:450-453 *)
  Definition iter_out (b : bst (iter_k I)) : I * bst (iter_k I) :=
    let b := iter_flush b in (i_it (b_kind b), b).
End Iter.

(** An output iterator that appends to a sequence. *)
Definition sink_put (out : list Z) (c : Z) : list Z := out ++ [c].

(** ** truncating_iterator (iterator.hpp:18-138)

    iterator.hpp:77-101, for output-only iterators: assigning writes while
    [count_ < limit_]. The effect of [*it++ = c] of the variant for other
    iterators (107-138) is the same: the postfix increment advances [out_] only
    while [count_ < limit_], and the copy it returns dereferences to the old
    position or to a dummy. [limit_] is the requested size converted to the
    signed difference type. *)
Record trunc_it (I : Type) := mk_trunc_it { t_out : I; t_limit : Z; t_count : Z }.
Arguments mk_trunc_it {I}.
Arguments t_out {I}.
Arguments t_limit {I}.
Arguments t_count {I}.

Definition trunc_put {I} (put : I -> Z -> I) (t : trunc_it I) (c : Z) : trunc_it I :=
  mk_trunc_it (if t_count t <? t_limit t then put (t_out t) c else t_out t)
              (t_limit t) (t_count t + 1).

(** ** iterator_buffer over a pointer (buffer.hpp:475-513)

    [limit] is SIZE_MAX; the memory behind the pointer has [length cells]
    accessible characters. *)
Definition ptr_vt : vtable (list Z) := span_vt.

(** buffer.hpp:484-486 (not fixed-size: a request beyond SIZE_MAX would fail) *)
Definition pointer_buffer (limit : nat) (cells : list Z) : bst (list Z) :=
  mk_bst false 0 (mk_span 0 limit) cells.

(** buffer.hpp:507-509, as offset from the original pointer *)
Definition ptr_out (b : bst (list Z)) : nat := get_used_count b.

(** ** iterator_buffer over a back_insert_iterator (buffer.hpp:520-570)

    [k_cont] is the container's content ([size()] characters); its memory beyond
    [size()] must not be accessed. [resize] fills with zero. *)
Record back_k := mk_back { k_cont : list Z; k_used : nat }.

Definition resize (l : list Z) (n : nat) : list Z := firstn n l ++ repeat 0 (n - length l).

(** buffer.hpp:558-565 *)
Definition back_request (b : bst back_k) (used size : nat) : outcome span * bst back_k :=
  let k := b_kind b in
  let new_size := (length (k_cont k) + size)%nat in
  let k := mk_back (resize (k_cont k) new_size) (k_used k + used) in
  let area := mk_span (k_used k) new_size in
  (Ok (mk_span (k_used k) size), set_write_area (set_kind b k) area).

Definition back_vt : vtable back_k := {|
  v_request := back_request;
  v_cells := k_cont;
  v_put k c := mk_back c (k_used k)
|}.

(** buffer.hpp:528-531; [capacity] is the container's capacity. *)
Definition back_buffer (min_capacity capacity : nat) (cont : list Z) : bst back_k :=
  let b := mk_bst false 0 (mk_span 0 0) (mk_back cont 0) in
  snd (back_request b 0 (Nat.min capacity min_capacity)).

(** buffer.hpp:543-546 *)
Definition back_flush (b : bst back_k) : bst back_k :=
  let k := b_kind b in
  set_kind b (mk_back (resize (k_cont k) (k_used k + get_used_count b)) (k_used k)).

(** ** file_buffer (buffer.hpp:579-632)

    [f_limits] is the oracle for std::fwrite: how many characters each
    following call accepts (all of them when the list is used up). *)
Record file_k := mk_file { f_cache : list Z; f_out : list Z; f_limits : list nat }.

Definition fwrite (k : file_k) (d : list Z) : nat * file_k :=
  match f_limits k with
  | [] => (length d, mk_file (f_cache k) (f_out k ++ d) [])
  | l :: ls => let n := Nat.min l (length d) in
               (n, mk_file (f_cache k) (f_out k ++ firstn n d) ls)
  end.

(** buffer.hpp:601-608 *)
Definition file_flush (b : bst file_k) : outcome unit * bst file_k :=
  let (written, k) := fwrite (b_kind b) (firstn (get_used_count b) (f_cache (b_kind b))) in
  let b := set_kind b k in
  if (written =? get_used_count b)%nat then (Ok tt, set_write_area b (whole (f_cache k)))
  else (Err eof, b).

(** buffer.hpp:619-627 *)
Definition file_request (b : bst file_k) (_ size : nat) : outcome span * bst file_k :=
  sdo (_, b) <- file_flush b ;;
  let area := whole (f_cache (b_kind b)) in
  let b := set_write_area b area in
  if (s_len area <? size)%nat then (Ok area, b) else (Ok (mk_span 0 size), b).

Definition file_vt : vtable file_k := {|
  v_request := file_request;
  v_cells := f_cache;
  v_put k c := mk_file c (f_out k) (f_limits k)
|}.

(** buffer.hpp:587-589 *)
Definition file_buffer (cache_size : nat) (out : list Z) (limits : list nat) : bst file_k :=
  let c := repeat uninit cache_size in
  mk_bst false 0 (whole c) (mk_file c out limits).

(** ** truncating_buffer (buffer.hpp:639-699) *)
Record trunc_k (K : Type) := mk_trunc {
  tr_primary : bst K; tr_limit : nat; tr_written : nat; tr_used : nat; tr_cache : list Z
}.
Arguments mk_trunc {K}.
Arguments tr_primary {K}.
Arguments tr_limit {K}.
Arguments tr_written {K}.
Arguments tr_used {K}.
Arguments tr_cache {K}.

Section Trunc.
  Context {K : Type} (vt : vtable K).

  (** buffer.hpp:672-677. Every iteration writes at least one character unless
      the primary hands out an empty area; then the C++ loop does not end. *)
  Fixpoint trunc_loop (fuel : nat) (k : trunc_k K) (bytes : nat) : outcome unit * trunc_k K :=
    if (tr_written k <? tr_limit k)%nat && (0 <? bytes)%nat then
      match fuel with
      | O => (Undef, k)
      | S fuel =>
        let (o, p) := get_write_area_of_max vt (tr_primary k) (Nat.min bytes (tr_limit k - tr_written k)) in
        let k := mk_trunc p (tr_limit k) (tr_written k) (tr_used k) (tr_cache k) in
        match o with
        | Ok area =>
          if (length (tr_cache k) <? s_len area)%nat || (bytes <? s_len area)%nat then (Undef, k)
          else
            let (o, p) := store_area vt p area (firstn (s_len area) (tr_cache k)) in
            let k := mk_trunc p (tr_limit k) (tr_written k + s_len area) (tr_used k) (tr_cache k) in
            match o with
            | Ok _ => trunc_loop fuel k (bytes - s_len area)
            | o => (o, k)
            end
        | Err e => (Err e, k)
        | Undef => (Undef, k)
        | Abort => (Abort, k)
        end
      end
    else (Ok tt, k).

  (** buffer.hpp:669-680 *)
  Definition trunc_flush (b : bst (trunc_k K)) : outcome unit * bst (trunc_k K) :=
    let k := b_kind b in
    let bytes := get_used_count b in
    let k := mk_trunc (tr_primary k) (tr_limit k) (tr_written k) (tr_used k + bytes) (tr_cache k) in
    let (o, k) := trunc_loop bytes k bytes in
    let b := set_kind b k in
    match o with
    | Ok _ => (Ok tt, set_write_area b (whole (tr_cache k)))
    | o => (o, b)
    end.

  (** buffer.hpp:683-691 *)
  Definition trunc_request (b : bst (trunc_k K)) (_ size : nat) : outcome span * bst (trunc_k K) :=
    sdo (_, b) <- trunc_flush b ;;
    let area := whole (tr_cache (b_kind b)) in
    let b := set_write_area b area in
    if (s_len area <? size)%nat then (Ok area, b) else (Ok (mk_span 0 size), b).

  Definition trunc_vt : vtable (trunc_k K) := {|
    v_request := trunc_request;
    v_cells := tr_cache;
    v_put k c := mk_trunc (tr_primary k) (tr_limit k) (tr_written k) (tr_used k) c
  |}.

  (** buffer.hpp:648-650 *)
  Definition truncating_buffer (cache_size : nat) (primary : bst K) (limit : nat) : bst (trunc_k K) :=
    let c := repeat uninit cache_size in
    mk_bst false 0 (whole c) (mk_trunc primary limit 0 0 c).

  (** buffer.hpp:662-664 *)
  Definition trunc_count (b : bst (trunc_k K)) : nat := (tr_used (b_kind b) + get_used_count b)%nat.
End Trunc.

(** ** counting_buffer (buffer.hpp:708-741) *)
Record count_k := mk_count { c_cache : list Z; c_used : nat }.

(** buffer.hpp:728-736 *)
Definition count_request (b : bst count_k) (used size : nat) : outcome span * bst count_k :=
  let k := mk_count (c_cache (b_kind b)) (c_used (b_kind b) + used) in
  let area := whole (c_cache k) in
  let b := set_write_area (set_kind b k) area in
  if (s_len area <? size)%nat then (Ok area, b) else (Ok (mk_span 0 size), b).

Definition count_vt : vtable count_k := {|
  v_request := count_request;
  v_cells := c_cache;
  v_put k c := mk_count c (c_used k)
|}.

(** buffer.hpp:712: no write area is set at construction. *)
Definition counting_buffer (cache_size : nat) : bst count_k :=
  mk_bst false 0 (mk_span 0 0) (mk_count (repeat uninit cache_size) 0).

(** buffer.hpp:723-725 *)
Definition count_count (b : bst count_k) : nat := (c_used (b_kind b) + get_used_count b)%nat.
