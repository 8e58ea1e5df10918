(** Model of include/emio/reader.hpp. *)
From Verif Require Import Base Conversion.

(** A reader is the text [begin_ .. end_) and the offset [it_ - begin_]
    (reader.hpp:380-382). *)
Record reader := mk_reader { rtext : list Z; rpos : nat }.

(** reader.hpp:72 *)
Definition reader_of (sv : list Z) : reader := mk_reader sv 0.

Definition set_pos (r : reader) (p : nat) : reader := mk_reader (rtext r) p.

(** reader.hpp:78-80 *)
Definition pos (r : reader) : nat := rpos r.

(** reader.hpp:86-88 *)
Definition at_eof (r : reader) : bool := (length (rtext r) =? rpos r)%nat.

(** reader.hpp:94-96 *)
Definition cnt_remaining (r : reader) : nat := (length (rtext r) - rpos r)%nat.

(** reader.hpp:102-104 *)
Definition view_remaining (r : reader) : list Z := skipn (rpos r) (rtext r).

(** reader.hpp:110-114 *)
Definition read_remaining (r : reader) : list Z * reader :=
  (view_remaining r, set_pos r (length (rtext r))).

(** reader.hpp:121-127 *)
Definition pop (r : reader) (cnt : nat) : reader :=
  if (cnt <=? cnt_remaining r)%nat then set_pos r (rpos r + cnt)
  else set_pos r (length (rtext r)).

(** reader.hpp:134-140 *)
Definition unpop (r : reader) (cnt : nat) : reader :=
  if (cnt <=? rpos r)%nat then set_pos r (rpos r - cnt) else set_pos r 0.

(** reader.hpp:149-156. [base] is the address of [begin_]; [it_ + pos] is
    computed modulo 2^64 as on a flat 64-bit machine. The view
    [{next_it, rlen}] is undefined unless it lies inside the text. [len] is
    [None] for the default [npos]. *)
Definition subreader (base : Z) (r : reader) (p : Z) (len : option Z) : outcome reader :=
  let it := base + Z.of_nat (rpos r) in
  let end_ := base + Z.of_nat (length (rtext r)) in
  let next_it := (it + p) mod 2 ^ 64 in
  if end_ <? next_it then Err eof
  else
    let avail := (end_ - next_it) mod 2 ^ 64 in
    let rlen := match len with None => avail | Some l => Z.min l avail end in
    if (base <=? next_it) && (next_it + rlen <=? end_) then
      Ok (reader_of (firstn (Z.to_nat rlen) (skipn (Z.to_nat (next_it - base)) (rtext r))))
    else Undef.

(** reader.hpp:162-167. Dereferencing outside the text is undefined. *)
Definition peek (r : reader) : outcome Z :=
  if at_eof r then Err eof
  else match nth_error (rtext r) (rpos r) with Some c => Ok c | None => Undef end.

(** reader.hpp:173-178 *)
Definition read_char (r : reader) : outcome Z * reader :=
  match peek r with
  | Ok c => (Ok c, set_pos r (rpos r + 1))
  | o => (o, r)
  end.

(** reader.hpp:185-192 *)
Definition read_n_chars (r : reader) (n : nat) : outcome (list Z) * reader :=
  if (n <=? cnt_remaining r)%nat then
    (Ok (firstn n (view_remaining r)), set_pos r (rpos r + n))
  else (Err eof, r).

(** reader.hpp:395-405 *)
Definition parse_sign (r : reader) : outcome bool * reader :=
  match peek r with
  | Ok c =>
    if c =? ch_plus then (Ok false, pop r 1)
    else if c =? ch_minus then (Ok true, pop r 1)
    else (Ok false, r)
  | Err e => (Err e, r)
  | Undef => (Undef, r)
  | Abort => (Abort, r)
  end.

(** reader.hpp:443-464, the two loops with the [has_next_digit] lambda
    (427-441) inlined. [value] and [maybe] are [value] and
    [maybe_overflowed_value]. Every iteration consumes a character, so the
    length of the text bounds the iterations; [Undef] when it does not. *)
Fixpoint parse_int_loop (fuel : nat) (m : overflow_mode) (t : ity) (base : Z) (neg : bool)
         (r : reader) (value maybe digit : Z) : outcome Z * reader :=
  match fuel with
  | O => (Undef, r)
  | S fuel =>
    match arith m t (if neg then maybe - digit else maybe + digit) with
    | Ok maybe =>
      if (if neg then value <? maybe else maybe <? value) then (Err out_of_range, r)
      else
        let value := maybe in
        match peek r with
        | Ok c =>
          match char_to_digit c base with
          | None => (Ok value, r)
          | Some digit =>
            let r := pop r 1 in
            match arith m t (value * base) with
            | Ok maybe => parse_int_loop fuel m t base neg r value maybe digit
            | Err e => (Err e, r)
            | Undef => (Undef, r)
            | Abort => (Abort, r)
            end
          end
        | Undef => (Undef, r)
        | _ => (Ok value, r)
        end
    | Err e => (Err e, r)
    | Undef => (Undef, r)
    | Abort => (Abort, r)
    end
  end.

(** reader.hpp:407-465, [detail::parse_int]. *)
Definition detail_parse_int (m : overflow_mode) (t : ity) (base : Z) (neg : bool) (r : reader)
  : outcome Z * reader :=
  if negb (is_valid_number_base base) then (Err invalid_argument, r)
  else
    sdo (c, r) <- read_char r ;;
    match char_to_digit c base with
    | None => (Err invalid_data, r)
    | Some digit =>
      if negb (signed t) && neg then (Err out_of_range, r)
      else parse_int_loop (S (length (rtext r))) m t base (signed t && neg) r 0 0 digit
    end.

(** reader.hpp:342-346 *)
Definition parse_sign_and_int (m : overflow_mode) (t : ity) (base : Z) (r : reader)
  : outcome Z * reader :=
  sdo (neg, r) <- parse_sign r ;;
  detail_parse_int m t base neg r.

(** reader.hpp:201-225, [reader::parse_int<T>]. The range check (209-219) is
    only compiled in when the upcasted type differs from T; for the other types
    it is always false here, because the value is one of the type. *)
Definition parse_int (m : overflow_mode) (t : ity) (base : Z) (r : reader) : outcome Z * reader :=
  match parse_sign_and_int m (upcasted t) base r with
  | (Ok v, r') =>
    if (v <? imin t) || (imax t <? v) then (Err out_of_range, r) else (Ok v, r')
  | (Err e, r') => (Err e, r)
  | o => o
  end.

(** reader.hpp:230-234 *)
Record read_until_options := {
  include_delimiter : bool;
  keep_delimiter : bool;
  ignore_eof : bool
}.
Definition default_read_until_options : read_until_options :=
  {| include_delimiter := false; keep_delimiter := false; ignore_eof := false |}.

(** reader.hpp:357-378. [mtch] is the offset of [match] in the text. *)
Definition read_until_match (r : reader) (mtch : nat) (o : read_until_options) (delimiter_size : nat)
  : outcome (list Z) * reader :=
  if at_eof r then (Err eof, r)
  else
    let b := rpos r in
    if (mtch =? length (rtext r))%nat then
      if negb (ignore_eof o) then (Ok (view_remaining r), set_pos r (length (rtext r)))
      else (Err invalid_data, r)
    else
      let it := if negb (keep_delimiter o) then (mtch + delimiter_size)%nat else mtch in
      let mtch := if include_delimiter o then (mtch + delimiter_size)%nat else mtch in
      (Ok (firstn (mtch - b) (skipn b (rtext r))), set_pos r it).

(** reader.hpp:348-355 *)
Definition read_until_pos (r : reader) (p : option nat) (o : read_until_options) (delimiter_size : nat)
  : outcome (list Z) * reader :=
  let mtch := match p with Some p => (rpos r + p)%nat | None => length (rtext r) end in
  read_until_match r mtch o delimiter_size.

(** std::find_if / find / find_first_of / find_first_not_of: index of the first
    element satisfying [p]. *)
Fixpoint find_index (p : Z -> bool) (l : list Z) : option nat :=
  match l with
  | [] => None
  | c :: l => if p c then Some O else option_map S (find_index p l)
  end.

Fixpoint prefixb (d l : list Z) : bool :=
  match d, l with
  | [], _ => true
  | _ :: _, [] => false
  | x :: d, y :: l => (x =? y) && prefixb d l
  end.

(** std::string_view::find(str): index of the first occurrence. *)
Fixpoint find_str (d l : list Z) : option nat :=
  if prefixb d l then Some O
  else match l with [] => None | _ :: l => option_map S (find_str d l) end.

Definition mem (g : list Z) (c : Z) : bool := existsb (Z.eqb c) g.

(** reader.hpp:290-296; std::find_if returns [end_] when there is none. *)
Definition read_until (r : reader) (p : Z -> bool) (o : read_until_options)
  : outcome (list Z) * reader :=
  let mtch := match find_index p (view_remaining r) with
              | Some i => (rpos r + i)%nat
              | None => length (rtext r)
              end in
  read_until_match r mtch o 1.

(** reader.hpp:243-246 *)
Definition read_until_char (r : reader) (c : Z) (o : read_until_options) :=
  read_until r (Z.eqb c) o.

(** reader.hpp:255-258 *)
Definition read_until_str (r : reader) (d : list Z) (o : read_until_options) :=
  read_until_pos r (find_str d (view_remaining r)) o (length d).

(** reader.hpp:266-269 *)
Definition read_until_any_of (r : reader) (g : list Z) (o : read_until_options) :=
  read_until_pos r (find_index (mem g) (view_remaining r)) o 1.

(** reader.hpp:278-281 *)
Definition read_until_none_of (r : reader) (g : list Z) (o : read_until_options) :=
  read_until_pos r (find_index (fun c => negb (mem g c)) (view_remaining r)) o 1.

(** reader.hpp:303-312 *)
Definition read_if_match_char (r : reader) (c : Z) : outcome Z * reader :=
  match peek r with
  | Ok x => if x =? c then (Ok c, set_pos r (rpos r + 1)) else (Err invalid_data, r)
  | o => (o, r)
  end.

(** reader.hpp:319-330; [equal_n] compares [n] bytes (conversion.hpp:306-317). *)
Definition read_if_match_str (r : reader) (s : list Z) : outcome (list Z) * reader :=
  let n := length s in
  if (cnt_remaining r <? n)%nat then (Err eof, r)
  else if prefixb s (view_remaining r) then (Ok (firstn n (view_remaining r)), set_pos r (rpos r + n))
  else (Err invalid_data, r).

(** ** A call of the reader's interface, as a value *)

Inductive rop :=
| RPop (n : nat)
| RUnpop (n : nat)
| RPeek
| RReadChar
| RReadN (n : nat)
| RReadRemaining
| RParseInt (m : overflow_mode) (t : ity) (base : Z)
| RUntil (p : Z -> bool) (o : read_until_options)
| RUntilChar (c : Z) (o : read_until_options)
| RUntilStr (d : list Z) (o : read_until_options)
| RUntilAnyOf (g : list Z) (o : read_until_options)
| RUntilNoneOf (g : list Z) (o : read_until_options)
| RMatchChar (c : Z)
| RMatchStr (s : list Z).

(** What a call hands back to the caller. *)
Inductive rval :=
| VUnit
| VChar (c : Z)
| VView (s : list Z)
| VInt (z : Z).

Definition rmap {A} (f : A -> rval) (o : outcome A * reader) : outcome rval * reader :=
  sdo (x, r) <- o ;; (Ok (f x), r).

Definition run_rop (r : reader) (op : rop) : outcome rval * reader :=
  match op with
  | RPop n => (Ok VUnit, pop r n)
  | RUnpop n => (Ok VUnit, unpop r n)
  | RPeek => rmap VChar (peek r, r)
  | RReadChar => rmap VChar (read_char r)
  | RReadN n => rmap VView (read_n_chars r n)
  | RReadRemaining => let (s, r) := read_remaining r in (Ok (VView s), r)
  | RParseInt m t base => rmap VInt (parse_int m t base r)
  | RUntil p o => rmap VView (read_until r p o)
  | RUntilChar c o => rmap VView (read_until_char r c o)
  | RUntilStr d o => rmap VView (read_until_str r d o)
  | RUntilAnyOf g o => rmap VView (read_until_any_of r g o)
  | RUntilNoneOf g o => rmap VView (read_until_none_of r g o)
  | RMatchChar c => rmap VChar (read_if_match_char r c)
  | RMatchStr s => rmap VView (read_if_match_str r s)
  end.

(** A history of calls; a failed call does not end it. *)
Fixpoint run_rops (r : reader) (ops : list rop) : list (outcome rval) * reader :=
  match ops with
  | [] => ([], r)
  | op :: ops =>
    let (o, r) := run_rop r op in
    let (os, r) := run_rops r ops in
    (o :: os, r)
  end.

(** Calls with one of the integer types (parse_int is a template, reader.hpp:201-203). *)
Definition rop_ok (op : rop) : Prop :=
  match op with RParseInt _ t _ => is_ity t | _ => True end.
