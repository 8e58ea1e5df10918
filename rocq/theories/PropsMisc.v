(** C43: result; C44: bitset. *)
From Verif Require Import Base Lib Bitset CtVector CtVectorProofs BitsetProofs Result.

(** * C44 *)

(** A set over [nbits] positions on which [ps] were set, one after the other:
    no step ends abnormally, and the two queries tell the truth. *)
Theorem C44_bitset_tracks_positions : forall nbits ps,
  (forall p, In p ps -> (p < nbits)%nat) ->
  exists b, bitset_set_all (bitset_new nbits) ps = Ok b /\
    (forall n, exists r, bitset_all_first b n = Ok r /\
        (r = true <-> (n <= nbits)%nat /\ forall i, (i < n)%nat -> In i ps)) /\
    exists r, bitset_all b = Ok r /\ (r = true <-> forall i, (i < nbits)%nat -> In i ps).
Proof.
  intros nbits ps H. destruct (new_ok nbits) as (HB & H0).
  destruct (set_all_ok ps (bitset_new nbits) HB) as (b & E & HB' & L & B); [now apply Forall_forall|].
  assert (B' : forall i, bit (bs_words b) i = true <-> In i ps).
  { intros i. rewrite B, H0. intuition discriminate. }
  exists b. split; [exact E|]. split.
  - intros n. destruct (all_first_ok b n HB') as (r & ER & HR). exists r. split; [exact ER|]. rewrite HR, L. cbn [bs_bits bitset_new].
    split; intros (A & C); (split; [exact A|]); intros i Hi; apply B'; auto.
  - destruct (all_ok b HB') as (r & ER & HR). exists r. split; [exact ER|]. rewrite HR, L. cbn [bs_bits bitset_new].
    split; intros A i Hi; apply B'; auto.
Qed.
Print Assumptions C44_bitset_tracks_positions.

Example C44_case :
  (do b <- bitset_set_all (bitset_new 128) (seq 0 100) ;; bitset_all_first b 100) = Ok true /\
  (do b <- bitset_set_all (bitset_new 128) (seq 0 100) ;; bitset_all_first b 101) = Ok false /\
  (do b <- bitset_set_all (bitset_new 128) (seq 1 127) ;; bitset_all_first b 70) = Ok false /\
  (do b <- bitset_set_all (bitset_new 65) (rev (seq 0 65)) ;; bitset_all b) = Ok true.
Proof. now vm_compute. Qed.

(** A position outside of the set ends the program. *)
Theorem C44_bitset_set_outside : forall b pos, (bs_bits b <= pos)%nat -> bitset_set b pos = Abort.
Proof. intros b pos H. unfold bitset_set. now replace (bs_bits b <=? pos)%nat with true by lia. Qed.
Print Assumptions C44_bitset_set_outside.

Example C44_outside_case : bitset_set (bitset_new 128) 128 = Abort.
Proof. reflexivity. Qed.

(** * C43 *)

(** What was stored: a value or an error code. *)
Definition build {A} (c : A + err) : result A :=
  match c with inl a => of_value a | inr e => of_error (err_code e) end.
Definition vbuild (c : unit + err) : vresult :=
  match c with inl _ => vsuccess | inr e => vof_error (err_code e) end.

Lemma err_code_inj e e' : err_code e = err_code e' -> e = e'.
Proof. destruct e, e'; cbn; congruence. Qed.

Theorem C43_result_observers : forall A (c : A + err),
  match c with
  | inl a =>
      has_value (build c) = true /\ has_error (build c) = false /\
      result_value (build c) = Ok a /\ assume_value (build c) = Ok a /\ result_error (build c) = Abort /\
      (forall d, value_or (build c) d = a)
  | inr e =>
      has_value (build c) = false /\ has_error (build c) = true /\
      result_value (build c) = Abort /\ assume_value (build c) = Undef /\ result_error (build c) = Ok (err_code e) /\
      assume_error (build c) = err_code e /\ (forall d, value_or (build c) d = d)
  end.
Proof. intros A [a|e]; cbn; repeat split; reflexivity. Qed.
Print Assumptions C43_result_observers.

Example C43_observers_case :
  result_value (build (inl 7)) = Ok 7 /\ result_error (build (A := Z) (inr out_of_range)) = Ok 4 /\
  value_or (build (inr eof)) 9 = 9.
Proof. repeat split. Qed.

(** [==] on two results, on a result and a value, and on a result and an error. *)
Theorem C43_result_equality : forall A (eqb : A -> A -> bool),
  (forall a b, eqb a b = true <-> a = b) ->
  forall c d : A + err,
  (exists r, result_eq eqb (build c) (build d) = Ok r /\ (r = true <-> c = d)) /\
  (forall a, exists r, result_eq_value eqb (build c) a = Ok r /\ (r = true <-> c = inl a)) /\
  (forall e, exists r, result_eq_err (build c) (err_code e) = Ok r /\ (r = true <-> c = inr e)).
Proof.
  intros A eqb H c d. split; [|split].
  - destruct c as [a|e], d as [b|f]; cbn; eexists; (split; [reflexivity|]); try (split; congruence).
    + rewrite H. split; congruence.
    + rewrite Z.eqb_eq. split; [intros E; f_equal; now apply err_code_inj|congruence].
  - intros b. destruct c as [a|e]; cbn; eexists; (split; [reflexivity|]); try (split; congruence). rewrite H. split; congruence.
  - intros f. destruct c as [a|e]; cbn; eexists; (split; [reflexivity|]); try (split; congruence).
    rewrite Z.eqb_eq. split; [intros E; f_equal; now apply err_code_inj|congruence].
Qed.
Print Assumptions C43_result_equality.

Example C43_equality_case :
  result_eq Z.eqb (build (inl 0)) (build (inr eof)) = Ok false /\
  result_eq Z.eqb (build (inr eof)) (build (inr eof)) = Ok true /\
  result_eq_err (build (A := Z) (inr invalid_data)) (err_code invalid_format) = Ok false.
Proof. repeat split. Qed.

(** The same for [result<void>], and the conversion into it. *)
Theorem C43_void_result : forall c : unit + err,
  match c with
  | inl _ => vhas_value (vbuild c) = true /\ vvalue (vbuild c) = Ok tt /\ verror (vbuild c) = Abort
  | inr e => vhas_value (vbuild c) = false /\ vvalue (vbuild c) = Abort /\ verror (vbuild c) = Ok (err_code e)
  end /\
  (forall A (x : A + err), c = match x with inl _ => inl tt | inr e => inr e end -> vof_result (build x) = vbuild c) /\
  forall d, exists r, vresult_eq (vbuild c) (vbuild d) = Ok r /\ (r = true <-> c = d).
Proof.
  intros c. split; [|split].
  - destruct c as [[]|[]]; cbn; auto.
  - intros A [a|e] -> ; reflexivity.
  - intros d. destruct c as [[]|[]], d as [[]|[]]; cbn; eexists; (split; [reflexivity|]); cbn; split; intros E; (discriminate E || reflexivity).
Qed.
Print Assumptions C43_void_result.

Example C43_void_case : vof_result (build (inl 5)) = vsuccess /\ verror (vof_result (build (A := Z) (inr eof))) = Ok 1.
Proof. repeat split. Qed.

(** A chain of guarded calls returns all values, or the first error unchanged. *)
Fixpoint first_error {A} (cs : list (A + err)) : list A + err :=
  match cs with
  | [] => inl []
  | inr e :: _ => inr e
  | inl a :: cs => match first_error cs with inl l => inl (a :: l) | inr e => inr e end
  end.

Theorem C43_try_returns_first_error : forall A (cs : list (A + err)),
  try_all (map build cs) = Ok (build (first_error cs)) /\
  (forall l, first_error cs = inl l <-> cs = map inl l) /\
  (forall e, first_error cs = inr e <-> exists l rest, cs = map inl l ++ inr e :: rest).
Proof.
  intros A cs. split; [|split].
  - induction cs as [|[a|e] cs IH]; [reflexivity| |reflexivity]. cbn [map try_all]. unfold try_value at 1. cbn [build has_error has_value negb of_value r_value assume_value bind].
    rewrite IH. cbn [bind first_error]. destruct (first_error cs) as [l|e]; reflexivity.
  - induction cs as [|[a|e] cs IH]; intros l.
    + cbn. split; [intros [= <-]; reflexivity|]. destruct l; cbn; congruence.
    + cbn. destruct (first_error cs) as [k|e] eqn:E.
      * split; [intros [= <-]; cbn; f_equal; now apply IH|]. destruct l as [|b l]; cbn; [congruence|]. intros [= -> EQ].
        apply IH in EQ. congruence.
      * split; [congruence|]. destruct l as [|b l]; cbn; [congruence|]. intros [= -> EQ]. apply IH in EQ. congruence.
    + cbn. split; [congruence|]. destruct l; cbn; congruence.
  - induction cs as [|[a|e] cs IH]; intros f.
    + cbn. split; [congruence|]. intros ([|] & rest & E); cbn in E; congruence.
    + cbn. destruct (first_error cs) as [k|e] eqn:E.
      * split; [congruence|]. intros ([|b l] & rest & EQ); cbn in EQ; [congruence|]. injection EQ as -> EQ.
        enough (X : @inl (list A) err k = inr f) by congruence. apply IH. eauto.
      * split.
        -- intros [= <-]. destruct (proj1 (IH e) eq_refl) as (l & rest & -> ). exists (a :: l), rest. reflexivity.
        -- intros ([|b l] & rest & EQ); cbn in EQ; [congruence|]. injection EQ as -> EQ.
           enough (X : @inr (list A) err e = inr f) by congruence. apply IH. eauto.
    + cbn. split.
      * intros [= <-]. exists [], cs. reflexivity.
      * intros ([|b l] & rest & EQ); cbn in EQ; congruence.
Qed.
Print Assumptions C43_try_returns_first_error.

Example C43_try_case :
  try_all (map build [inl 1; inr invalid_data; inl 2; inr eof]) = Ok (build (inr invalid_data)) /\
  try_all (map build [inl 1; inl 2]) = Ok (build (inl [1; 2])).
Proof. repeat split. Qed.

(** Each error has its own name and none is called [no error]. *)
Theorem C43_error_names : forall e e' s,
  to_string_err (err_code e) = Ok s -> to_string_err (err_code e') = Ok s -> e = e' /\ to_string_err no_err <> Ok s.
Proof. intros [] [] s; cbn; intros [= <-]; intros E; try discriminate E; (split; [reflexivity|intros F; discriminate F]). Qed.
Print Assumptions C43_error_names.

Example C43_error_names_case : to_string_err (err_code out_of_range) = Ok (str "out of range").
Proof. reflexivity. Qed.

(** The claim about errors needs an actual error: [err{}] stored in a result
    is lost when the result is converted to [result<void>].  Development
    builds reject it by an assertion (result.hpp:173). *)
Theorem C43_empty_error_refuted :
  exists x : result Z, has_error x = true /\ vhas_error (vof_result x) = false.
Proof. exists (of_error no_err). split; reflexivity. Qed.
Print Assumptions C43_empty_error_refuted.
