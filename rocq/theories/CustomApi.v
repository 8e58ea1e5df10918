(** Model of include/emio/format.hpp for arguments with user-defined formatters.

    The functions are templates over the arguments, see FormatApi.v for those of the
    library's types; here the call of vformat_to is a parameter. *)
From Verif Require Import Base Buffer Writer Bitset Specs FormatArg FloatArg Format FormatApi Custom.

Section Functions.
  (** detail/format/vformat_to.hpp: writing to a buffer *)
  Context (call : forall K, vtable K -> bst K -> outcome unit * bst K).

  (** format.hpp:53-57 and 88-95, 106-113 *)
  Definition call_size : outcome nat :=
    fst (finish (call _ count_vt (counting_buffer default_cache_size)) (fun b => (Ok (count_count b), tt)) (fun _ => tt)).
  (** format.hpp:211-217 and 243-246, 256-259 *)
  Definition call_format : outcome (list Z) :=
    fst (finish (call _ mem_vt (memory_buffer default_cache_size 0)) (fun b => (Ok (mem_view b), tt)) (fun _ => tt)).

  (** format.hpp:140-146 and 191-202 *)
  Definition call_to_it {I} (put : I -> Z -> I) (it : I) : outcome I * I :=
    finish (call _ (iter_vt put) (iterator_buffer default_cache_size it))
      (fun b => let it := fst (iter_out put b) in (Ok it, it)) (fun b => i_it (b_kind b)).
  (** format.hpp:277-287 and 315-330 *)
  Definition call_to_n_it {I} (put : I -> Z -> I) (it : I) (n : Z) : outcome (I * Z) * I :=
    finish (call _ (iter_vt (trunc_put put)) (iterator_buffer default_cache_size (mk_trunc_it it n 0)))
      (fun b => let b := iter_flush (trunc_put put) b in
                let tout := fst (iter_out (trunc_put put) b) in (Ok (t_out tout, t_count tout), t_out tout))
      (fun b => t_out (i_it (b_kind b))).
  (** format.hpp:140-146 for a pointer to memory *)
  Definition call_to_ptr (limit : nat) (cells : list Z) : outcome nat * list Z :=
    finish (call _ ptr_vt (pointer_buffer limit cells)) (fun b => (Ok (ptr_out b), b_kind b)) (fun b => b_kind b).
  (** format.hpp:298-304 and 342-353 *)
  Definition call_to_n {K} (vt : vtable K) (b : bst K) (n : nat) : outcome nat * bst K :=
    finish (call _ (trunc_vt vt) (truncating_buffer default_cache_size b n))
      (fun t => finish (trunc_flush vt t) (fun t => (Ok (trunc_count t), tr_primary (b_kind t))) (fun t => tr_primary (b_kind t)))
      (fun t => tr_primary (b_kind t)).
  (** format.hpp:361-369 *)
  Definition call_print (f : file) : outcome unit * file :=
    match f with
    | None => (Err invalid_data, None)
    | Some (out, limits) =>
      finish (call _ file_vt (file_buffer default_cache_size out limits))
        (fun b => let (o, b) := file_flush b in (o, file_of b)) file_of
    end.
  (** format.hpp:427-437 *)
  Definition call_println (f : file) : outcome unit * file :=
    match f with
    | None => (Err invalid_data, None)
    | Some (out, limits) =>
      finish (call _ file_vt (file_buffer default_cache_size out limits))
        (fun b =>
           finish (sdo (area, b) <- get_write_area_of file_vt b 1 ;; store_area file_vt b area [10])
             (fun b => let (o, b) := file_flush b in (o, file_of b)) file_of)
        file_of
    end.
End Functions.

(** The call with the format string [v] and the arguments [us] *)
Definition user_call (v : vstr) (us : list user) : forall K, vtable K -> bst K -> outcome unit * bst K :=
  fun K vt b => user_format_to vt b v us.
