(** Model of include/emio/format.hpp: the functions of the user.

    [s] is the format string after its validation and [args] are the arguments,
    together the [format_args] that make_format_args (format.hpp:42-46) returns.
    During constant evaluation detail/format/format_to.hpp:50-57 is called in place of
    vformat_to; it parses the same string with the same formatters: Direct.v. *)
From Verif Require Import Base Buffer Writer Bitset Specs FormatArg FloatArg Format.

(** buffer.hpp:27 *)
Definition default_cache_size : nat := 128.

(** EMIO_TRYV of a result together with what is left of the sink. *)
Definition finish {A B K} (r : outcome unit * bst K) (ok : bst K -> outcome A * B) (sink : bst K -> B) : outcome A * B :=
  match r with
  | (Ok _, b) => ok b
  | (Err e, b) => (Err e, sink b)
  | (Undef, b) => (Undef, sink b)
  | (Abort, b) => (Abort, sink b)
  end.

(** format.hpp:53-57 and 88-95, 106-113 *)
Definition vformatted_size (s : vstr) (args : list (fty * fval)) : outcome nat :=
  fst (finish (vformat_to count_vt (counting_buffer default_cache_size) s args) (fun b => (Ok (count_count b), tt)) (fun _ => tt)).
(** format.hpp:66-77 *)
Definition formatted_size (s : vstr) (args : list (fty * fval)) : outcome nat := value_of (vformatted_size s args).

(** format.hpp:211-217 and 243-246, 256-259 *)
Definition vformat (s : vstr) (args : list (fty * fval)) : outcome (list Z) :=
  fst (finish (vformat_to mem_vt (memory_buffer default_cache_size 0) s args) (fun b => (Ok (mem_view b), tt)) (fun _ => tt)).
(** format.hpp:226-231 *)
Definition format (s : vstr) (args : list (fty * fval)) : outcome (list Z) := value_of (vformat s args).

Section Iterators.
  Context {I : Type} (put : I -> Z -> I).

  (** format.hpp:140-146 and 191-202 for an output iterator with its own cache;
      with the iterator at the end.  What is in the cache of a buffer is lost
      when the call fails. *)
  Definition vformat_to_it (it : I) (s : vstr) (args : list (fty * fval)) : outcome I * I :=
    finish (vformat_to (iter_vt put) (iterator_buffer default_cache_size it) s args)
      (fun b => let it := fst (iter_out put b) in (Ok it, it)) (fun b => i_it (b_kind b)).

  (** format.hpp:277-287 and 315-330; [n] is signed, the conversion to size_t
      and back leaves it unchanged *)
  Definition vformat_to_n_it (it : I) (n : Z) (s : vstr) (args : list (fty * fval)) : outcome (I * Z) * I :=
    finish (vformat_to (iter_vt (trunc_put put)) (iterator_buffer default_cache_size (mk_trunc_it it n 0)) s args)
      (fun b => let b := iter_flush (trunc_put put) b in
                let tout := fst (iter_out (trunc_put put) b) in (Ok (t_out tout, t_count tout), t_out tout))
      (fun b => t_out (i_it (b_kind b))).
End Iterators.

(** format.hpp:140-146 for a pointer to memory; the result as offset *)
Definition vformat_to_ptr (limit : nat) (cells : list Z) (s : vstr) (args : list (fty * fval)) : outcome nat * list Z :=
  finish (vformat_to ptr_vt (pointer_buffer limit cells) s args) (fun b => (Ok (ptr_out b), b_kind b)) (fun b => b_kind b).

(** format.hpp:140-146 for a back_insert_iterator; the container at the end *)
Definition vformat_to_back (min_capacity capacity : nat) (cont : list Z) (s : vstr) (args : list (fty * fval)) : outcome unit * list Z :=
  finish (vformat_to back_vt (back_buffer min_capacity capacity cont) s args)
    (fun b => (Ok tt, k_cont (b_kind (back_flush b)))) (fun b => k_cont (b_kind b)).

(** format.hpp:298-304 and 342-353 *)
Definition vformat_to_n {K} (vt : vtable K) (b : bst K) (n : nat) (s : vstr) (args : list (fty * fval)) : outcome nat * bst K :=
  finish (vformat_to (trunc_vt vt) (truncating_buffer default_cache_size b n) s args)
    (fun t => finish (trunc_flush vt t) (fun t => (Ok (trunc_count t), tr_primary (b_kind t))) (fun t => tr_primary (b_kind t)))
    (fun t => tr_primary (b_kind t)).

(** A file: what has been written to it and the oracle for std::fwrite. *)
Definition file := option (list Z * list nat).
Definition file_of (b : bst file_k) : file := Some (f_out (b_kind b), f_limits (b_kind b)).

(** format.hpp:361-369 *)
Definition vprint (f : file) (s : vstr) (args : list (fty * fval)) : outcome unit * file :=
  match f with
  | None => (Err invalid_data, None)
  | Some (out, limits) =>
    finish (vformat_to file_vt (file_buffer default_cache_size out limits) s args)
      (fun b => let (o, b) := file_flush b in (o, file_of b)) file_of
  end.
(** format.hpp:379-383 *)
Definition print (f : file) (s : vstr) (args : list (fty * fval)) : outcome unit * file :=
  let (o, f) := vprint f s args in (value_of o, f).

(** format.hpp:427-437 *)
Definition vprintln (f : file) (s : vstr) (args : list (fty * fval)) : outcome unit * file :=
  match f with
  | None => (Err invalid_data, None)
  | Some (out, limits) =>
    finish (vformat_to file_vt (file_buffer default_cache_size out limits) s args)
      (fun b =>
         finish (sdo (area, b) <- get_write_area_of file_vt b 1 ;; store_area file_vt b area [10])
           (fun b => let (o, b) := file_flush b in (o, file_of b)) file_of)
      file_of
  end.
