(** Specification of format strings with user-defined formatters. *)
From Verif Require Import Base SpecNum SpecSpecs Reader Buffer BufferProofs Emits Format SpecString Custom.

(** The call writes [out] (in whatever pieces) and returns [o], for every kind of
    buffer; it stops with eof where the buffer is full. *)
Definition acts (m : forall K, vtable K -> bst K -> outcome unit * bst K) (out : list Z) (o : outcome unit) : Prop :=
  exists ops, ops_data ops = out /\
    forall K (vt : vtable K) R cap amax room, lawful vt R cap amax room -> emits R cap amax room (m K vt) ops o.

(** What a formatter promises for a value: the specifications it reads (with their
    closing brace), and what formatting with such a specification writes and returns. *)
Record contract := mk_contract {
  c_reads : list Z -> Prop;
  c_does : list Z -> list Z -> outcome unit -> Prop
}.

(** The formatter keeps the promise:
    - a specification ends with the first closing brace;
    - validating stops behind a specification that is read, or it fails;
    - it succeeds with every one (numbers of 2^32 and more excepted);
    - parsing what has been validated succeeds and stops at the same place;
    - formatting then does what was promised, which may be to fail. *)
Record keeps (u : user) (c : contract) : Prop := {
  k_closed : forall sp, c_reads c sp -> exists x, sp = x ++ [125] /\ ~ In 125 x;
  k_sound : forall T n, Forall is_byte T -> (n <= length T)%nat ->
    match validate_trait u (mk_reader T n) with
    | (Ok _, r) => exists sp rest, skipn n T = sp ++ rest /\ c_reads c sp /\ r = mk_reader T (n + length sp)
    | (Err _, _) => True
    | _ => False
    end;
  k_complete : forall T n sp rest, Forall is_byte T -> skipn n T = sp ++ rest -> c_reads c sp -> small_numbers sp ->
    validate_trait u (mk_reader T n) = (Ok tt, mk_reader T (n + length sp));
  k_format : forall T n sp rest, Forall is_byte T -> skipn n T = sp ++ rest -> c_reads c sp ->
    validate_trait u (mk_reader T n) = (Ok tt, mk_reader T (n + length sp)) ->
    exists m out o, u_parse u (mk_reader T n) = (Ok m, mk_reader T (n + length sp)) /\
      c_does c sp out o /\ (o = Ok tt \/ exists e, o = Err e) /\ acts (fun K vt b => u_format u K vt m b) out o
}.

(** The format strings for arguments with these formatters. *)
Definition user_items (cs : list contract) (its : list item) (ns : list nat) : Prop :=
  Forall item_ok its /\ numbering (indices its) ns /\
  Forall2 (fun n spec => exists c, nth_error cs n = Some c /\ c_reads c spec) ns (field_specs its).
Definition user_well_formed (s : list Z) (cs : list contract) : Prop :=
  exists its ns, s = text_of its /\ user_items cs its ns /\ forall n, (n < length cs)%nat -> In n ns.
Definition user_cut_short (s : list Z) (cs : list contract) : Prop :=
  exists its ns e, s = text_of its ++ e /\ user_items cs its ns /\ (forall n, (n < length cs)%nat -> In n ns) /\
    field_255 e /\ Forall digits_text (indices its).

(** The strings the library accepts. *)
Definition user_accepted (s : list Z) (us : list user) : Prop := exists v, user_string s us = Ok v /\ vs_str v = Ok s.

(** What formatting does: the characters and what the formatters write, in order, up
    to the first formatter that fails. *)
Inductive user_shows (cs : list contract) : list item -> list nat -> list Z -> outcome unit -> Prop :=
| us_nil : user_shows cs [] [] [] (Ok tt)
| us_literal c its ns out o : user_shows cs its ns out o -> user_shows cs (Literal c :: its) ns (c :: out) o
| us_brace c its ns out o : user_shows cs its ns out o -> user_shows cs (Brace c :: its) ns (c :: out) o
| us_field index colon sp its n ns c out1 out o : nth_error cs n = Some c -> c_does c sp out1 (Ok tt) ->
    user_shows cs its ns out o -> user_shows cs (Field index colon sp :: its) (n :: ns) (out1 ++ out) o
| us_fails index colon sp its n ns c out1 e : nth_error cs n = Some c -> c_does c sp out1 (Err e) ->
    user_shows cs (Field index colon sp :: its) (n :: ns) out1 (Err e).
