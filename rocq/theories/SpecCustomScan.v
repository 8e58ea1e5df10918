(** Specification of scan strings with user-defined scanners. *)
From Verif Require Import Base SpecNum SpecSpecs Reader Format SpecString Scan SpecScan Custom SpecCustom CustomScan.

(** What a scanner promises: the specifications it reads (with their closing brace);
    that with such a specification, in front of the items [following] of the scan
    string, a variable with the value [old] gets the value [v] from [piece] if [rest]
    is the input behind it; and when it may fail, with which result, and what the
    variable is then. *)
Record scan_contract (V : Type) := mk_scan_contract {
  sc_reads : list Z -> Prop;
  sc_takes : list Z -> list item -> V -> list Z -> list Z -> V -> Prop;
  sc_fails : list Z -> list item -> V -> list Z -> outcome unit -> V -> Prop
}.
Arguments mk_scan_contract {V}.
Arguments sc_reads {V}.
Arguments sc_takes {V}.
Arguments sc_fails {V}.

(** The scanner keeps the promise:
    - a specification ends with the first closing brace;
    - validating stops behind a specification that is read, or it fails;
    - it succeeds with every one (numbers of 2^32 and more excepted);
    - parsing what has been validated succeeds and stops at the same place;
    - scanning then takes a piece from the input, or fails somewhere in the input. *)
Record keeps_scan {V} (u : suser V) (c : scan_contract V) : Prop := {
  ks_closed : forall sp, sc_reads c sp -> exists x, sp = x ++ [125] /\ ~ In 125 x;
  ks_sound : forall T n, Forall is_byte T -> (n <= length T)%nat ->
    match validate_trait (checked u) (mk_reader T n) with
    | (Ok _, r) => exists sp rest, skipn n T = sp ++ rest /\ sc_reads c sp /\ r = mk_reader T (n + length sp)
    | (Err _, _) => True
    | _ => False
    end;
  ks_complete : forall T n sp rest, Forall is_byte T -> skipn n T = sp ++ rest -> sc_reads c sp -> small_numbers sp ->
    validate_trait (checked u) (mk_reader T n) = (Ok tt, mk_reader T (n + length sp));
  ks_parse : forall T n sp rest, Forall is_byte T -> skipn n T = sp ++ rest -> sc_reads c sp ->
    validate_trait (checked u) (mk_reader T n) = (Ok tt, mk_reader T (n + length sp)) ->
    exists m, su_parse u (mk_reader T n) = (Ok m, mk_reader T (n + length sp));
  ks_scan : forall T n sp following m, Forall is_byte T -> skipn n T = sp ++ text_of following -> Forall open_item following -> sc_reads c sp ->
    validate_trait (checked u) (mk_reader T n) = (Ok tt, mk_reader T (n + length sp)) ->
    su_parse u (mk_reader T n) = (Ok m, mk_reader T (n + length sp)) ->
    forall I i old, Forall is_byte I -> Z.of_nat (length I) < 2 ^ 64 -> (i <= length I)%nat ->
    match su_scan u m old (mk_reader I i) with
    | (Ok _, (r, v)) => exists piece rest, skipn i I = piece ++ rest /\ r = mk_reader I (i + length piece) /\ sc_takes c sp following old piece rest v
    | (o, (r, v)) => sc_fails c sp following old (skipn i I) o v /\ exists j, r = mk_reader I j /\ (i <= j <= length I)%nat
    end
}.

(** The scan strings for variables with these scanners. *)
Definition user_scan_items {V} (cs : list (scan_contract V)) (its : list item) (ns : list nat) : Prop :=
  Forall item_ok its /\ numbering (indices its) ns /\
  Forall2 (fun n spec => exists c, nth_error cs n = Some c /\ sc_reads c spec) ns (field_specs its).
Definition user_scan_well_formed {V} (s : list Z) (cs : list (scan_contract V)) : Prop :=
  exists its ns, s = text_of its /\ user_scan_items cs its ns /\ forall n, (n < length cs)%nat -> In n ns.
Definition user_scan_cut_short {V} (s : list Z) (cs : list (scan_contract V)) : Prop :=
  exists its ns e, s = text_of its ++ e /\ user_scan_items cs its ns /\ (forall n, (n < length cs)%nat -> In n ns) /\
    field_255 e /\ Forall digits_text (indices its).

(** The strings the library accepts. *)
Definition user_scan_accepted {V} (s : list Z) (us : list (suser V)) : Prop := exists v, user_scan_string s us = Ok v /\ vs_str v = Ok s.

(** The variables [vars'] are [vars] but for the one with the number [n], which is
    [old] before and [new] afterwards. *)
Definition changes {V} (vars : list V) (n : nat) (old new : V) (vars' : list V) : Prop :=
  exists a b, length a = n /\ vars = a ++ old :: b /\ vars' = a ++ new :: b.

(** [input] is the text of the items, in which every field stands for a piece;
    [rest] is what follows.  The variables change from [vars] to [vars'], one after
    the other.  [e] are items behind the items. *)
Inductive user_scans {V} (cs : list (scan_contract V)) (e : list item) : list item -> list nat -> list Z -> list Z -> list V -> list V -> Prop :=
| usc_nil rest vars : user_scans cs e [] [] rest rest vars vars
| usc_literal c its ns input rest vars vars' : user_scans cs e its ns input rest vars vars' ->
    user_scans cs e (Literal c :: its) ns (c :: input) rest vars vars'
| usc_brace c its ns input rest vars vars' : user_scans cs e its ns input rest vars vars' ->
    user_scans cs e (Brace c :: its) ns (c :: input) rest vars vars'
| usc_field index colon sp its n ns c old v piece input rest vars vars1 vars' :
    nth_error cs n = Some c -> sc_takes c sp (its ++ e) old piece input v -> changes vars n old v vars1 ->
    user_scans cs e its ns input rest vars1 vars' ->
    user_scans cs e (Field index colon sp :: its) (n :: ns) (piece ++ input) rest vars vars'.

(** A scan that fails: the leading items [its1] were read at their places.  Then the
    text between the fields is missing, or the scanner of the next field fails. *)
Definition user_stops {V} (cs : list (scan_contract V)) (e : list item) (its : list item) (ns : list nat) (input : list Z)
  (o : outcome unit) (vars vars' : list V) : Prop :=
  exists its1 its2 ns1 ns2 mid vars1, its = its1 ++ its2 /\ ns = ns1 ++ ns2 /\
    user_scans cs (its2 ++ e) its1 ns1 input mid vars vars1 /\
    ((~ text_follows its2 mid /\ (o = Err eof \/ o = Err invalid_data) /\ vars' = vars1) \/
     exists index colon sp its3 n ns3 c old v, its2 = Field index colon sp :: its3 /\ ns2 = n :: ns3 /\ nth_error cs n = Some c /\
       sc_fails c sp (its3 ++ e) old mid o v /\ changes vars1 n old v vars').

(** The part of a promise that leaves nothing open: the piece and the value are
    determined by the input, and the scanner does not fail. *)
Definition certain {V} (c : scan_contract V) : scan_contract V :=
  mk_scan_contract (sc_reads c)
    (fun sp following old piece rest v => sc_takes c sp following old piece rest v /\
      (forall piece' rest' v', sc_takes c sp following old piece' rest' v' -> piece' ++ rest' = piece ++ rest -> piece' = piece /\ v' = v) /\
      (forall o v', ~ sc_fails c sp following old (piece ++ rest) o v'))
    (sc_fails c).
