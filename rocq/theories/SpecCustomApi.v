(** Specification of the functions of the user for any call that writes a text. *)
From Verif Require Import Base Buffer BufferProofs FormatApi CustomApi.

(** A call that is to write [out] and to return [o], for a sink with a cache: it does,
    or it stops with eof; the latter only if the output is longer than the cache.
    What has arrived in the sink before an error is a part of the output. *)
Definition attempt (out : list Z) (o : outcome unit) (good : Prop) (bad : err -> list Z -> Prop) : Prop :=
  (o = Ok tt /\ good) \/
  (exists e p q, o = Err e /\ out = p ++ q /\ bad e p) \/
  ((128 < length out)%nat /\ exists p q, out = p ++ q /\ bad eof p).

Record every_sink (call : forall K, vtable K -> bst K -> outcome unit * bst K) (out : list Z) (o : outcome unit) : Prop := {
  es_format : call_format call = (do _ <- o ;; Ok out);
  es_size : attempt out o (call_size call = Ok (length out)) (fun e _ => call_size call = Err e);
  es_iterator : forall I (put : I -> Z -> I) it,
    attempt out o (call_to_it call put it = (Ok (fold_left put out it), fold_left put out it)) (fun e p => call_to_it call put it = (Err e, fold_left put p it));
  es_iterator_n : forall I (put : I -> Z -> I) it n,
    attempt out o (let it' := fold_left put (firstn (Z.to_nat n) out) it in call_to_n_it call put it n = (Ok (it', Z.of_nat (length out)), it'))
      (fun e p => call_to_n_it call put it n = (Err e, fold_left put (firstn (Z.to_nat n) p) it));
  es_pointer : forall limit cells, (length out <= length cells <= limit)%nat ->
    call_to_ptr call limit cells = ((do _ <- o ;; Ok (length out)), out ++ skipn (length out) cells);
  es_fixed_n : forall cells n, (n <= length cells)%nat ->
    attempt out o (exists b', call_to_n call span_vt (span_buffer cells) n = (Ok (length out), b') /\ span_view b' = firstn n out)
      (fun e p => exists b', call_to_n call span_vt (span_buffer cells) n = (Err e, b') /\ span_view b' = firstn n p);
  es_file : forall file,
    attempt out o (call_print call (Some (file, [])) = (Ok tt, Some (file ++ out, []))) (fun e p => call_print call (Some (file, [])) = (Err e, Some (file ++ p, [])));
  es_file_line : forall file,
    attempt out o (call_println call (Some (file, [])) = (Ok tt, Some (file ++ out ++ [10], []))) (fun e p => call_println call (Some (file, [])) = (Err e, Some (file ++ p, [])))
}.
