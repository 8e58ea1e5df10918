(** Model of tuples and pairs whose elements have user-defined formatters.

    [P] stands for the type of the tuple.  The formatter of an element is given the
    tuple and formats the element: a formatter [F] of the element's type becomes
    [derived_of F get], where [get] is std::get. *)
From Verif Require Import Base Conversion Reader Buffer Writer Bitset Specs FormatArg FloatArg Format Custom Elements.

Section Tuple.
  Context {P : Type}.

  (** detail/format/ranges.hpp:110-115: one formatter object for each element *)
  Fixpoint objects (Fs : list (formatter P)) : Type :=
    match Fs with [] => unit | F :: Fs => (f_object F * objects Fs)%type end.
  Fixpoint new_objects (Fs : list (formatter P)) : objects Fs :=
    match Fs with [] => tt | F :: Fs => (f_new F, new_objects Fs) end.

  (** ranges.hpp:174-192.  Each element validates a copy of the reader.  An element type
      whose formatter has no validate function does not compile: [Undef]. *)
  Fixpoint validate_each (Fs : list (formatter P)) (r : reader) (reader_pos : nat) : outcome nat :=
    match Fs with
    | [] => Ok reader_pos
    | F :: Fs =>
      match f_validate F with
      | None => Undef
      | Some validate =>
        let (o, r') := validate r in
        do _ <- o ;;
        if (reader_pos =? 0)%nat then validate_each Fs r (pos r')
        else if (reader_pos =? pos r')%nat then validate_each Fs r reader_pos
        else Err invalid_format
      end
    end.

  (** ranges.hpp:201-219 *)
  Fixpoint parse_each (Fs : list (formatter P)) : objects Fs -> reader -> bool -> nat -> outcome (objects Fs * nat) :=
    match Fs return objects Fs -> reader -> bool -> nat -> outcome (objects Fs * nat) with
    | [] => fun ms r set reader_pos => Ok (tt, reader_pos)
    | F :: Fs => fun ms r set reader_pos =>
      let (o, r') := f_parse F (set_debug F (fst ms) set) r in
      do m <- o ;;
      do msp <- parse_each Fs (snd ms) r set (pos r') ;;
      Ok ((m, fst msp), snd msp)
    end.

  (** ranges.hpp:230-255 *)
  Fixpoint format_each {K} (vt : vtable K) (first : bool) (sep : list Z) (Fs : list (formatter P))
    : objects Fs -> P -> bst K -> outcome unit * bst K :=
    match Fs return objects Fs -> P -> bst K -> outcome unit * bst K with
    | [] => fun _ _ b => (Ok tt, b)
    | F :: Fs => fun ms v b =>
      sdo (_, b) <- (if first then (Ok tt, b) else write_str vt b sep) ;;
      sdo (_, b) <- f_format F K vt (fst ms) v b ;;
      format_each vt false sep Fs (snd ms) v b
    end.

  (** How the reader is moved when the elements have stopped at a position *)
  Context (leave : reader -> nat -> reader).

  (** ranges.hpp:131-144, 171-198 *)
  Definition validate_tuple_of (Fs : list (formatter P)) (r : reader) : outcome unit * reader :=
    sdo (c, r) <- read_char r ;;
    sdo (c, r) <- (if c =? 110 then read_char r else (Ok c, r)) ;;
    if c =? ch_rbrace then (Ok tt, r)
    else if c =? ch_colon then
      match Fs with
      | [] => (Err invalid_format, r)
      | _ =>
        match validate_each Fs r 0 with
        | Ok reader_pos => if (reader_pos =? 0)%nat then (Ok tt, r) else (Ok tt, leave r reader_pos)
        | Err e => (Err e, r)
        | Undef => (Undef, r)
        | Abort => (Abort, r)
        end
      end
    else (Err invalid_format, r).

  (** ranges.hpp:146-160, 200-228 *)
  Definition parse_tuple_of (Fs : list (formatter P)) (m : ranges_specs * objects Fs) (r : reader) : outcome (ranges_specs * objects Fs) * reader :=
    let (rs, ms) := m in
    sdo (c, r) <- assume (peek_s r) ;;
    let rs := if c =? 110 then mk_rs [] [] (rs_sep rs) else rs in
    let r := if c =? 110 then pop r 1 else r in
    sdo (c, r) <- (if c =? 110 then assume (peek_s r) else (Ok c, r)) ;;
    let set := c =? ch_rbrace in
    let r := if set then r else pop r 1 in
    match Fs with
    | [] => if set then (Ok (rs, ms), pop r 1) else (Err invalid_format, r)
    | _ =>
      match parse_each Fs ms r set 0 with
      | Ok (ms, reader_pos) => (Ok (rs, ms), leave r reader_pos)
      | Err e => (Err e, r)
      | Undef => (Undef, r)
      | Abort => (Abort, r)
      end
    end.

  (** ranges.hpp:118-129, 162-168, 257-258 *)
  Definition tuple_with (Fs : list (formatter P)) (rs : ranges_specs) : formatter P :=
    mk_formatter (ranges_specs * objects Fs) (rs, new_objects Fs) None (Some (validate_tuple_of Fs)) (parse_tuple_of Fs)
      (fun K vt m v b =>
         sdo (_, b) <- write_str vt b (rs_open (fst m)) ;;
         sdo (_, b) <- format_each vt true (rs_sep (fst m)) Fs (snd m) v b ;;
         write_str vt b (rs_close (fst m))).
End Tuple.

(** The code pops as many characters as the position has (ranges.hpp:194, 215). *)
Definition tuple_of {P} (Fs : list (formatter P)) (rs : ranges_specs) : formatter P := tuple_with pop Fs rs.

(** Not in the code: the formatter that moves the reader to the position. *)
Definition tuple_repaired {P} (Fs : list (formatter P)) (rs : ranges_specs) : formatter P := tuple_with set_pos Fs rs.

(** The default constructor: ranges.hpp:120 *)
Definition tuple_specs : ranges_specs := mk_rs (str "(") (str ")") (str ", ").
