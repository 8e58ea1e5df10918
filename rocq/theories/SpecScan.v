(** Specification of scanning: the syntax of scan strings, and what their fields
    read. *)
From Verif Require Import Base Format SpecNum SpecDigits SpecReader SpecSpecs SpecString Scan.

(** ** Syntax: [#][width][type] closed by a brace *)
Definition scan_width_part (t : list Z) (w : Z) : Prop :=
  (t = [] /\ w = -1) \/ (number_read t w /\ 1 <= w).
Definition scan_type_part (t : list Z) (type : Z) : Prop :=
  (t = [] /\ type = 0) \/ (t = [type] /\ is_letter type).
Definition scan_spec_text (t : list Z) (s : scan_specs) : Prop :=
  exists al wd ty alt w type,
    t = al ++ wd ++ ty ++ [125] /\ flag_part 35 al alt /\ scan_width_part wd w /\ scan_type_part ty type /\
    s = mk_scan alt type w.

Definition scan_allowed (t : sty) (s : scan_specs) : Prop :=
  match t with
  | SChar => (sc_type s = 0 \/ sc_type s = 99) /\ sc_alternate s = false /\ sc_width s <= 1
  | SInt _ => In (sc_type s) (0 :: str "bdox")
  | SStr => (sc_type s = 0 \/ sc_type s = 115) /\ sc_alternate s = false
  end.
Definition scan_field_spec (t : sty) (spec : list Z) : Prop := exists s, scan_spec_text spec s /\ scan_allowed t s.

Definition scan_items (tys : list sty) (its : list item) (ns : list nat) : Prop :=
  Forall item_ok its /\ numbering (indices its) ns /\
  Forall2 (fun n spec => exists t, nth_error tys n = Some t /\ scan_field_spec t spec) ns (field_specs its).
Definition scan_well_formed (s : list Z) (tys : list sty) : Prop :=
  exists its ns, s = text_of its /\ scan_items tys its ns /\ forall n, (n < length tys)%nat -> In n ns.
(** The same up to a field for the argument 255; what follows is anything. *)
Definition scan_cut_short (s : list Z) (tys : list sty) : Prop :=
  exists its ns e, s = text_of its ++ e /\ scan_items tys its ns /\ (forall n, (n < length tys)%nat -> In n ns) /\
    field_255 e /\ Forall digits_text (indices its).

(** ** Numbers *)
Definition signed_text (neg : bool) (sign : list Z) : Prop :=
  if neg then sign = [45] else sign = [] \/ sign = [43].
Definition digits_of (base : Z) (ds : list Z) : Prop := ds <> [] /\ Forall (fun c => taken_digit base c = true) ds.

(** The base a type letter stands for, and the prefixes of a base. *)
Definition letter_base (type base : Z) : Prop := In (type, base) [(0, 10); (100, 10); (98, 2); (111, 8); (120, 16)].
Definition base_prefix (base : Z) (p : list Z) : Prop :=
  (base = 2 /\ (p = str "0b" \/ p = str "0B")) \/ (base = 8 /\ p = str "0") \/
  (base = 16 /\ (p = str "0x" \/ p = str "0X")) \/ (base = 10 /\ p = []).

(** [p] and [ds] are prefix and digits of a number that the specification
    allows.  With # and no type the prefix determines the base; a decimal number
    does not start with zero then, except for a zero which is the [last] of the
    text. *)
Definition number_form (s : scan_specs) (base : Z) (p ds : list Z) (last : Prop) : Prop :=
  if (sc_type s =? 0) && sc_alternate s
  then base_prefix base p /\ (base = 10 -> hd 0 ds <> 48 \/ (ds = [48] /\ last))
  else letter_base (sc_type s) base /\ (if sc_alternate s then base_prefix base p else p = []).

(** The field reads [piece], a number in front of [rest].  With a width it is as
    long as the width; otherwise it is not followed by another digit. *)
Definition reads_number (s : scan_specs) (piece rest : list Z) (neg : bool) (base : Z) (ds : list Z) : Prop :=
  exists sign p,
    piece = sign ++ p ++ ds /\ signed_text neg sign /\ digits_of base ds /\
    number_form s base p ds (rest = [] \/ sc_width s <> -1) /\
    (if sc_width s =? -1 then forall c l, rest = c :: l -> taken_digit base c = false
     else Z.of_nat (length piece) = sc_width s).
Definition number_value (neg : bool) (base : Z) (ds : list Z) : Z :=
  if neg then - taken_number base ds else taken_number base ds.

(** What the target of type [t] becomes: the number, unless it does not fit; then
    the arithmetic may have wrapped around unnoticed for a type of 32 or 64 bits
    if the overflow is defined. *)
Definition wraps (m : overflow_mode) (t : ity) (V v : Z) : Prop :=
  32 <= bits t /\ ~ in_range t V /\ ~ (m = iso /\ signed t = true) /\ exists k, v = V + k * 2 ^ bits t.
Definition reads_int (m : overflow_mode) (t : ity) (s : scan_specs) (piece rest : list Z) (v : Z) : Prop :=
  exists neg base ds,
    reads_number s piece rest neg base ds /\ (neg = true -> signed t = true) /\ in_range t v /\
    (v = number_value neg base ds \/ wraps m t (number_value neg base ds) v).

(** [input] contains a number which is not a value of the type [t]. *)
Definition overlong (t : ity) (input : list Z) : Prop :=
  exists a sign p ds b neg base,
    input = a ++ sign ++ p ++ ds ++ b /\ signed_text neg sign /\ (p = [] \/ base_prefix base p) /\
    In base [2; 8; 10; 16] /\ digits_of base ds /\ ~ in_range t (number_value neg base ds).

(** ** Texts *)

(** The text up to the next field, and whether it contains doubled braces. *)
Fixpoint literal_text (its : list item) : list Z :=
  match its with
  | Literal c :: its | Brace c :: its => c :: literal_text its
  | _ => []
  end.
Fixpoint braces_follow (its : list item) : bool :=
  match its with
  | Brace _ :: _ => true
  | Literal _ :: its => braces_follow its
  | _ => false
  end.
Fixpoint field_follows (its : list item) : bool :=
  match its with
  | Field _ _ _ :: _ => true
  | _ :: its => field_follows its
  | [] => false
  end.

(** The input [p] that a search for [l] passes, if it compares from the front and
    goes on behind the character that differs: failed attempts, each of them the
    first [k] characters of [l] and a character that is not the next one. *)
Inductive attempts (l : list Z) : list Z -> Prop :=
| attempts_nil : attempts l []
| attempts_fail k x p : (k < length l)%nat -> nth_error l k <> Some x -> attempts l p -> attempts l (firstn k l ++ x :: p).
(** The piece that a field for a text, without width, takes in front of the items
    [following]: all that is left; or the input before the first occurrence of
    the text that follows.  With doubled braces in this text they must stand
    right behind the field, the search does not go back after failed attempts,
    and there must be input for a field behind the text. *)
Definition takes (following : list item) (piece rest : list Z) : Prop :=
  match following with
  | [] => rest = []
  | _ =>
    piece ++ rest <> [] /\ (exists b, rest = literal_text following ++ b) /\
    if braces_follow following
    then (exists c l, following = Brace c :: l) /\ attempts (literal_text following) piece /\
         (field_follows following = true -> rest <> literal_text following)
    else before_first (piece ++ rest) (literal_text following) piece
  end.

(** ** Fields *)

(** The number is read without a loss. *)
Definition reads_exactly (t : ity) (s : scan_specs) (piece rest : list Z) (v : Z) : Prop :=
  exists neg base ds,
    reads_number s piece rest neg base ds /\ (neg = true -> signed t = true) /\ in_range t v /\ v = number_value neg base ds.
(** The field takes [piece] in front of [rest], and its target of type [t]
    becomes [v].  Parameters: how numbers are read, and which text is taken if
    there is no width. *)
Definition field_reads (number : ity -> scan_specs -> list Z -> list Z -> Z -> Prop) (text : list item -> list Z -> list Z -> Prop)
  (t : sty) (s : scan_specs) (following : list item) (piece rest : list Z) (v : sval) : Prop :=
  match t, v with
  | SChar, NChar c => piece = [c]
  | SInt t, NInt z => number t s piece rest z
  | SStr, NStr x => x = piece /\ (if sc_width s =? -1 then text following piece rest else Z.of_nat (length piece) = sc_width s)
  | _, _ => False
  end.
(** The text up to the next field follows. *)
Definition text_follows (following : list item) (rest : list Z) : Prop := exists b, rest = literal_text following ++ b.
(** What a field has read if it is not known that the scan succeeds. *)
Definition takes_then (following : list item) (piece rest : list Z) : Prop := text_follows following rest -> takes following piece rest.

(** The field with the number of its target and the text of its specification.
    [e] are items behind the items of the string. *)
Definition target_reads (reads : sty -> scan_specs -> list item -> list Z -> list Z -> sval -> Prop) (tys : list sty) (e : list item)
  (n : nat) (spec : list Z) (following : list item) (piece rest : list Z) (v : sval) : Prop :=
  exists t s, nth_error tys n = Some t /\ scan_spec_text spec s /\ reads t s (following ++ e) piece rest v.

Definition sty_ok (t : sty) : Prop := match t with SInt t => is_ity t | _ => True end.

(** ** Whole strings *)

(** [input] is the text of the items, in which every field stands for a piece;
    [rest] is what follows.  [reads n spec following piece rest v]: the field
    with this specification, in front of the items [following], takes [piece]
    in front of [rest], and the argument [n] gets the value [v]. *)
Inductive scans (reads : nat -> list Z -> list item -> list Z -> list Z -> sval -> Prop)
  : list item -> list nat -> list Z -> list Z -> list (nat * sval) -> Prop :=
| scans_nil rest : scans reads [] [] rest rest []
| scans_literal c its ns input rest vs :
    scans reads its ns input rest vs -> scans reads (Literal c :: its) ns (c :: input) rest vs
| scans_brace c its ns input rest vs :
    scans reads its ns input rest vs -> scans reads (Brace c :: its) ns (c :: input) rest vs
| scans_field i colon spec its n ns piece input rest v vs :
    reads n spec its piece input v -> scans reads its ns input rest vs ->
    scans reads (Field i colon spec :: its) (n :: ns) (piece ++ input) rest ((n, v) :: vs).

(** The variables after assignments, the last of which counts. *)
Definition assigned (vars : list sval) (vs : list (nat * sval)) : list sval :=
  fold_left (fun vars nv => update vars (fst nv) (snd nv)) vs vars.

(** A scan that fails: the leading items [its1] were read at their places and
    only their targets have changed; the target of the next field may have
    changed too if it is an integer of 32 or 64 bits and the field has a width. *)
Definition wide_field (tys : list sty) (n : nat) (spec : list Z) : Prop :=
  exists t s, nth_error tys n = Some (SInt t) /\ 32 <= bits t /\ scan_spec_text spec s /\ sc_width s <> -1.
Definition stops (m : overflow_mode) (tys : list sty) (its : list item) (ns : list nat) (e : list item) (input : list Z) (vars vars' : list sval) : Prop :=
  exists its1 its2 ns1 ns2 mid vs,
    its = its1 ++ its2 /\ ns = ns1 ++ ns2 /\
    scans (target_reads (field_reads (reads_int m) takes_then) tys (its2 ++ e)) its1 ns1 input mid vs /\
    (vars' = assigned vars vs \/
     exists index colon spec its3 n ns3 v, its2 = Field index colon spec :: its3 /\ ns2 = n :: ns3 /\ wide_field tys n spec /\
       vars' = update (assigned vars vs) n v).

(** The strings the library accepts. *)
Definition scan_accepted (s : list Z) (tys : list sty) : Prop := exists v, scan_string s tys = Ok v /\ vs_str v = Ok s.

(** No width, or one that a specification can have. *)
Definition width_ok (s : scan_specs) : Prop := sc_width s = -1 \/ 1 <= sc_width s <= imax i32.

(** The items that follow a field; the text of a field is not that of a brace. *)
Definition open_item (i : item) : Prop :=
  match i with
  | Field _ _ _ => exists c l, item_text i = 123 :: c :: l /\ c <> 123
  | i => item_ok i
  end.
