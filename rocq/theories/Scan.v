(** Model of include/emio/scan.hpp, include/emio/scanner.hpp and
    include/emio/detail/scan/{args,parser,scan_from,scanner,specs}.hpp.

    Scanners of users are in CustomScan.v.  Not modelled: the difference between
    std::string and std::string_view targets (a view is modelled by the text it
    shows). *)
From Verif Require Import Base Conversion Reader Bitset Specs Format.

(** detail/scan/specs.hpp:15-22: no_type is the character 0, no_width is -1. *)
Record scan_specs := mk_scan { sc_alternate : bool; sc_type : Z; sc_width : Z }.
Notation no_width := (-1) (only parsing).
Definition default_scan : scan_specs := mk_scan false no_type no_width.

(** detail/scan/scanner.hpp:243-270 *)
Definition validate_scan_specs (r : reader) (s : scan_specs) : outcome scan_specs * reader :=
  sdo (c, r) <- read_char r ;;
  if c =? ch_rbrace then (Ok s, r)
  else
    sdo (cs, r) <-
      (if c =? ch_hash then sdo (c', r) <- read_char r ;; (Ok (c', mk_scan true (sc_type s) (sc_width s)), r)
       else (Ok (c, s), r)) ;;
    let (c, s) := cs in
    sdo (cs, r) <-
      (if isdigit c then
         let r := unpop r 1 in
         sdo (size, r) <- parse_int fwrapv u32 10 r ;;
         if (size =? 0) || (imax i32 <? size) then (Err invalid_format, r)
         else sdo (c', r) <- read_char r ;; (Ok (c', mk_scan (sc_alternate s) (sc_type s) size), r)
       else (Ok (c, s), r)) ;;
    let (c, s) := cs in
    sdo (cs, r) <-
      (if isalpha c then sdo (c', r) <- read_char r ;; (Ok (c', mk_scan (sc_alternate s) c (sc_width s)), r)
       else (Ok (c, s), r)) ;;
    let (c, s) := cs in
    if c =? ch_rbrace then (Ok s, r) else (Err invalid_format, r).

(** detail/scan/scanner.hpp:272-292 *)
Definition parse_scan_specs (r : reader) (s : scan_specs) : outcome scan_specs * reader :=
  sdo (c, r) <- assume (read_char r) ;;
  if c =? ch_rbrace then (Ok s, r)
  else
    sdo (cs, r) <-
      (if c =? ch_hash then sdo (c', r) <- assume (read_char r) ;; (Ok (c', mk_scan true (sc_type s) (sc_width s)), r)
       else (Ok (c, s), r)) ;;
    let (c, s) := cs in
    sdo (cs, r) <-
      (if isdigit c then
         let r := unpop r 1 in
         sdo (size, r) <- assume (parse_int fwrapv u32 10 r) ;;
         sdo (c', r) <- assume (read_char r) ;; (Ok (c', mk_scan (sc_alternate s) (sc_type s) (wrap i32 size)), r)
       else (Ok (c, s), r)) ;;
    let (c, s) := cs in
    if isalpha c then (Ok (mk_scan (sc_alternate s) c (sc_width s)), pop r 1) else (Ok s, r).

(** detail/scan/scanner.hpp:294-299 *)
Definition check_scan_char (s : scan_specs) : outcome unit :=
  if (negb (sc_type s =? no_type) && negb (sc_type s =? 99)) || sc_alternate s || (1 <? sc_width s)
  then Err invalid_format else Ok tt.
(** detail/scan/scanner.hpp:301-312 *)
Definition check_scan_integral (s : scan_specs) : outcome unit :=
  if mem [no_type; 98; 100; 111; 120] (sc_type s) then Ok tt else Err invalid_format.
(** detail/scan/scanner.hpp:314-319 *)
Definition check_scan_string (s : scan_specs) : outcome unit :=
  if (negb (sc_type s =? no_type) && negb (sc_type s =? 115)) || sc_alternate s
  then Err invalid_format else Ok tt.

(** The scannable types: char, the integer types, and texts (scanner.hpp:72-163).
    An integer type of 32 or 64 bits stands for int32_t, uint32_t, int64_t and
    uint64_t; other types of these sizes (long long) differ in not being assigned
    before the width is checked. *)
Inductive sty := SChar | SInt (t : ity) | SStr.
Inductive sval := NChar (c : Z) | NInt (z : Z) | NStr (s : list Z).

(** scanner.hpp:76-87, 105-106, 128-133 *)
Definition validate_sty (t : sty) (r : reader) : outcome unit * reader :=
  sdo (s, r) <- validate_scan_specs r default_scan ;;
  (match t with
   | SChar => check_scan_char s
   | SInt _ => check_scan_integral s
   | SStr => check_scan_string s
   end, r).

(** ** Reading the input *)

(** detail/scan/scanner.hpp:23-29 *)
Definition disallow_sign (r : reader) : outcome unit * reader :=
  sdo (c, r) <- peek_s r ;;
  if (c =? ch_plus) || (c =? ch_minus) then (Err invalid_data, r) else (Ok tt, r).

(** detail/scan/scanner.hpp:31-50; the reader is passed by value *)
Definition determine_base (r : reader) : outcome Z :=
  match read_char r with
  | (Ok c, r) =>
    if negb (c =? 48) then Ok 10
    else
      match read_char r with
      | (Ok c, _) =>
        if (c =? 98) || (c =? 66) then Ok 2
        else if (c =? 120) || (c =? 88) then Ok 16
        else Ok 8
      | (Err _, _) => Ok 10
      | (o, _) => o
      end
  | (o, _) => o
  end.

(** detail/scan/scanner.hpp:52-67; the default case is unreachable code *)
Definition get_base (type : Z) : outcome Z :=
  if type =? 98 then Ok 2
  else if type =? 111 then Ok 8
  else if (type =? 100) || (type =? no_type) then Ok 10
  else if type =? 120 then Ok 16
  else Undef.

(** detail/scan/scanner.hpp:69-89 *)
Definition parse_alternate_form (r : reader) (base : Z) : outcome unit * reader :=
  sdo (_, r) <- read_if_match_char r 48 ;;
  if base =? 8 then (Ok tt, r)
  else
    sdo (c, r) <- read_char r ;;
    if base =? 2 then
      if (c =? 98) || (c =? 66) then (Ok tt, r) else (Err invalid_data, r)
    else if (c =? 120) || (c =? 88) then (Ok tt, r) else (Err invalid_data, r).

(** detail/scan/scanner.hpp:102-123: from the sign to the digits *)
Definition read_number (m : overflow_mode) (t : ity) (s : scan_specs) (r : reader) : outcome Z * reader :=
  sdo (neg, r) <- parse_sign r ;;
  sdo (base, r) <-
    (if (sc_type s =? no_type) && sc_alternate s then
       sdo (base, r) <- (determine_base r, r) ;;
       if base =? 10 then (Ok base, r)
       else
         let r := pop r (if base =? 8 then 1 else 2) in
         sdo (_, r) <- disallow_sign r ;; (Ok base, r)
     else
       sdo (base, r) <- (get_base (sc_type s), r) ;;
       if sc_alternate s && negb (base =? 10) then
         sdo (_, r) <- parse_alternate_form r base ;;
         sdo (_, r) <- disallow_sign r ;; (Ok base, r)
       else (Ok base, r)) ;;
  detail_parse_int m t base neg r.

(** detail/scan/scanner.hpp:91-134.  The result is the outcome, the reader
    afterwards, and the value that was assigned to the target, if any.  The
    address of the input is taken as 0 in the call of subreader; it has no
    influence as the offset is 0. *)
Definition read_arg_int (m : overflow_mode) (t : ity) (s : scan_specs) (orig : reader)
  : outcome unit * (reader * option Z) :=
  match (if sc_width s =? no_width then Ok orig
         else if Z.of_nat (cnt_remaining orig) <? sc_width s then Err eof
         else subreader 0 orig 0 (Some (sc_width s))) with
  | Ok r =>
    match read_number m t s r with
    | (Ok v, r) =>
      if sc_width s =? no_width then (Ok tt, (r, Some v))
      else if negb (at_eof r) then (Err invalid_data, (orig, Some v))
      else (Ok tt, (pop orig (Z.to_nat (sc_width s)), Some v))
    | (Err e, _) => (Err e, (orig, None))
    | (Undef, _) => (Undef, (orig, None))
    | (Abort, _) => (Abort, (orig, None))
    end
  | Err e => (Err e, (orig, None))
  | Undef => (Undef, (orig, None))
  | Abort => (Abort, (orig, None))
  end.

(** scanner.hpp:93-95 and, for the types of 8 and 16 bits, 111-119 *)
Definition scan_int (m : overflow_mode) (t : ity) (s : scan_specs) (r : reader)
  : outcome unit * (reader * option Z) :=
  let (o, ra) := read_arg_int m (upcasted t) s r in
  if 32 <=? bits t then (o, ra)
  else
    match o, snd ra with
    | Ok _, Some v =>
      if (v <? imin t) || (imax t <? v) then (Err out_of_range, (fst ra, None)) else (Ok tt, (fst ra, Some v))
    | Ok _, None => (Undef, (fst ra, None))
    | o, _ => (o, (fst ra, None))
    end.

(** detail/scan/scanner.hpp:136-141 *)
Definition scan_char (r : reader) : outcome unit * (reader * option Z) :=
  match read_char r with
  | (Ok c, r) => (Ok tt, (r, Some c))
  | (Err e, r) => (Err e, (r, None))
  | (Undef, r) => (Undef, (r, None))
  | (Abort, r) => (Abort, (r, None))
  end.

(** detail/scan/scanner.hpp:166-196: the loop.  [fi] and [ii] are the offsets of
    format_it and in_it; the result is in_it and matches_cnt.  Every iteration
    moves in_it.  Reading behind the end of the format string is undefined. *)
Fixpoint match_complex (fuel : nat) (fmt inp : list Z) (fi ii matches : nat) : outcome (nat * nat) :=
  match fuel with
  | O => Undef
  | S fuel =>
    match nth_error fmt fi with
    | None => Ok (ii, matches)
    | Some f =>
      match nth_error inp ii with
      | None => Err invalid_data
      | Some c =>
        let compare (fi : nat) (f : Z) :=
          if c =? f then match_complex fuel fmt inp (S fi) (S ii) (S matches)
          else match_complex fuel fmt inp O (S ii) O in
        if f =? ch_lbrace then
          match nth_error fmt (S fi) with
          | None => Undef
          | Some f2 => if negb (f2 =? ch_lbrace) then Ok (ii, matches) else compare (S fi) f2
          end
        else if f =? ch_rbrace then
          match nth_error fmt (S fi) with
          | None => Undef
          | Some f2 => compare (S fi) f2
          end
        else compare fi f
      end
    end
  end.

(** detail/scan/scanner.hpp:143-201 *)
Definition read_string_complex (r : reader) (fmt : list Z) : outcome unit * (reader * option (list Z)) :=
  let inp := view_remaining r in
  match match_complex (S (length inp)) fmt inp 0 0 0 with
  | Ok (ii, matches) =>
    let arg := firstn (ii - matches) inp in
    (Ok tt, (pop r (length arg), Some arg))
  | Err e => (Err e, (r, None))
  | Undef => (Undef, (r, None))
  | Abort => (Abort, (r, None))
  end.

Definition keep : read_until_options :=
  {| include_delimiter := false; keep_delimiter := true; ignore_eof := false |}.

Definition assign_view (o : outcome (list Z) * reader) : outcome unit * (reader * option (list Z)) :=
  match o with
  | (Ok v, r) => (Ok tt, (r, Some v))
  | (Err e, r) => (Err e, (r, None))
  | (Undef, r) => (Undef, (r, None))
  | (Abort, r) => (Abort, (r, None))
  end.

(** detail/scan/scanner.hpp:203-236; [fr] is the rest of the format string.
    assume_value is undefined on an error. *)
Definition read_string (s : scan_specs) (fr r : reader) : outcome unit * (reader * option (list Z)) :=
  if negb (sc_width s =? no_width) then assign_view (read_n_chars r (Z.to_nat (sc_width s)))
  else
    match read_until_any_of fr [ch_lbrace; ch_rbrace] keep with
    | (Err eof, _) => let (v, r) := read_remaining r in (Ok tt, (r, Some v))
    | (Ok until, fr) =>
      let until_str := assign_view (read_until_str r until keep) in
      match read_char fr with
      | (Err eof, _) => until_str
      | (Ok next, fr) =>
        match read_char fr with
        | (Ok over_next, fr) =>
          if (next =? ch_lbrace) && negb (over_next =? ch_lbrace) then until_str
          else read_string_complex r (view_remaining (unpop fr 2))
        | _ => (Undef, (r, None))
        end
      | _ => (Undef, (r, None))
      end
    | _ => (Undef, (r, None))
    end.

Definition into {A} (f : A -> sval) (o : outcome unit * (reader * option A)) : outcome unit * (reader * option sval) :=
  let (o, ra) := o in (o, (fst ra, option_map f (snd ra))).

(** scanner.hpp:93-95, 111-119, 141-143 *)
Definition scan_value (m : overflow_mode) (t : sty) (s : scan_specs) (fr r : reader)
  : outcome unit * (reader * option sval) :=
  match t with
  | SChar => into NChar (scan_char r)
  | SInt i => into NInt (scan_int m i s r)
  | SStr => into NStr (read_string s fr r)
  end.

(** detail/scan/args.hpp:36-40: the format reader, the input reader, and the
    value assigned *)
Definition scan_field (m : overflow_mode) (t : sty) (fr r : reader)
  : outcome unit * (reader * (reader * option sval)) :=
  match parse_scan_specs fr default_scan with
  | (Ok s, fr) => let (o, ra) := scan_value m t s fr r in (o, (fr, ra))
  | (Err e, fr) => (Err e, (fr, (r, None)))
  | (Undef, fr) => (Undef, (fr, (r, None)))
  | (Abort, fr) => (Abort, (fr, (r, None)))
  end.

(** ** The parser *)

(** The format reader, the input reader, and the variables. *)
Definition sst := (reader * (reader * list sval))%type.

(** detail/scan/parser.hpp:26-28 *)
Definition match_part (st : sst) (begin it : nat) : outcome unit * sst :=
  let '(fr, (r, vars)) := st in
  let (o, r) := read_if_match_str r (firstn (it - begin) (skipn begin (rtext fr))) in
  (do _ <- o ;; Ok tt, (fr, (r, vars))).

(** detail/parser.hpp:117-148, as [parse_text] *)
Fixpoint scan_text (fuel : nat) (st : sst) (begin : nat) : outcome bool * sst :=
  match fuel with
  | O => (Undef, st)
  | S fuel =>
    let (fr, rv) := st in
    match nth_error (rtext fr) (rpos fr) with
    | None =>
      sdo (_, st) <- (if (begin =? rpos fr)%nat then (Ok tt, st) else match_part st begin (rpos fr)) ;;
      (Ok false, st)
    | Some c =>
      let it := S (rpos fr) in
      if c =? ch_lbrace then
        match nth_error (rtext fr) it with
        | None => (Undef, st)
        | Some c2 =>
          if c2 =? ch_lbrace then
            sdo (_, st) <- match_part (set_pos fr it, rv) begin it ;;
            scan_text fuel (set_pos fr (S it), snd st) (S it)
          else
            sdo (_, st) <- (if (begin =? it - 1)%nat then (Ok tt, (set_pos fr it, rv))
                            else match_part (set_pos fr it, rv) begin (it - 1)) ;;
            (Ok true, st)
        end
      else if c =? ch_rbrace then
        sdo (_, st) <- match_part (set_pos fr it, rv) begin it ;;
        if (it <? length (rtext fr))%nat then scan_text fuel (set_pos fr (S it), snd st) (S it)
        else (Undef, st)
      else scan_text fuel (set_pos fr it, rv) begin
    end
  end.

(** The variables after an assignment to the one with the number [n]. *)
Fixpoint update (vars : list sval) (n : nat) (v : sval) : list sval :=
  match vars, n with
  | [], _ => []
  | _ :: vars, O => v :: vars
  | x :: vars, S n => x :: update vars n v
  end.
Definition assign (vars : list sval) (n : nat) (v : option sval) : list sval :=
  match v with Some v => update vars n v | None => vars end.

(** detail/parser.hpp:251-267 with apply (203-205) *)
Fixpoint scan_loop (fuel : nat) (m : overflow_mode) (tys : list sty) (inc : Z) (st : sst) : outcome unit * sst :=
  match fuel with
  | O => (Undef, st)
  | S fuel =>
    sdo (field, st) <- scan_text (S (length (rtext (fst st)))) st (rpos (fst st)) ;;
    if negb field then (Ok tt, st)
    else
      let '(fr, (r, vars)) := st in
      let (o, fr) := parse_field fr inc in
      sdo (ni, st) <- (o, (fr, (r, vars))) ;;
      let (n, inc) := ni in
      if n =? no_more_args then (Ok tt, st)
      else
        match nth_error tys (Z.to_nat n) with
        | None => (Undef, st)
        | Some t =>
          let '(o, (fr, (r, v))) := scan_field m t fr r in
          sdo (_, st) <- (o, (fr, (r, assign vars (Z.to_nat n) v))) ;;
          scan_loop fuel m tys inc st
        end
  end.

(** detail/scan/scan_from.hpp:37-43 *)
Definition vscan_from (m : overflow_mode) (r : reader) (s : vstr) (tys : list sty) (vars : list sval)
  : outcome unit * (reader * list sval) :=
  match vs_str s with
  | Ok sv =>
    if vs_plain s then
      let (o, r) := read_if_match_str r sv in (do _ <- o ;; Ok tt, (r, vars))
    else
      let (o, st) := scan_loop (S (length sv)) m tys 0 (reader_of sv, (r, vars)) in (o, snd st)
  | Err e => (Err e, (r, vars))
  | Undef => (Undef, (r, vars))
  | Abort => (Abort, (r, vars))
  end.

(** scan.hpp:60-67, 94-101 *)
Definition vscan (m : overflow_mode) (input : list Z) (s : vstr) (tys : list sty) (vars : list sval)
  : outcome unit * list sval :=
  match vscan_from m (reader_of input) s tys vars with
  | (Ok _, (r, vars)) => (if at_eof r then Ok tt else Err invalid_format, vars)
  | (o, (_, vars)) => (o, vars)
  end.

(** ** Validation *)

(** detail/parser.hpp:226-248, as [validate_loop]; detail/scan/parser.hpp:67-74 *)
Fixpoint scan_validate_loop (fuel : nat) (tys : list sty) (r : reader) (use : option bool) (inc : Z) (matched : bitset)
  : outcome bool :=
  match fuel with
  | O => Undef
  | S fuel =>
    match check_text (S (length (rtext r))) r with
    | (Err _, _) => Ok false
    | (Undef, _) => Undef
    | (Abort, _) => Abort
    | (Ok false, _) => bitset_all_first matched (length tys)
    | (Ok true, r) =>
      match check_field r use inc with
      | (Err _, _) => Ok false
      | (Undef, _) => Undef
      | (Abort, _) => Abort
      | (Ok (n, use, inc), r) =>
        if n =? no_more_args then bitset_all_first matched (length tys)
        else if Z.of_nat (length tys) <=? n then Ok false
        else
          do matched <- bitset_set matched (Z.to_nat n) ;;
          match nth_error tys (Z.to_nat n) with
          | None => Undef
          | Some t =>
            match validate_sty t r with
            | (Err _, _) => Ok false
            | (Undef, _) => Undef
            | (Abort, _) => Abort
            | (Ok _, r) => scan_validate_loop fuel tys r use inc matched
            end
          end
      end
    end
  end.
(** detail/scan/scan_from.hpp:18-29 *)
Definition scan_validate (s : list Z) (tys : list sty) : outcome bool :=
  scan_validate_loop (S (length s)) tys (reader_of s) None 0 (bitset_new 128).

(** detail/validated_string_storage.hpp:16-38 *)
Definition scan_string (s : list Z) (tys : list sty) : outcome vstr :=
  if (length tys =? 0)%nat && check_if_plain_string s then Ok (mk_vstr true (Ok s))
  else
    do valid <- scan_validate s tys ;;
    Ok (mk_vstr false (if valid : bool then Ok s else Err invalid_format)).

(** A call of emio::scan with a format string known at compile time or checked at
    run time. *)
Definition scan (m : overflow_mode) (input fmt : list Z) (tys : list sty) (vars : list sval) : outcome unit * list sval :=
  match scan_string fmt tys with
  | Ok s => vscan m input s tys vars
  | Err e => (Err e, vars)
  | Undef => (Undef, vars)
  | Abort => (Abort, vars)
  end.
(** emio::scan_from *)
Definition scan_from (m : overflow_mode) (r : reader) (fmt : list Z) (tys : list sty) (vars : list sval)
  : outcome unit * (reader * list sval) :=
  match scan_string fmt tys with
  | Ok s => vscan_from m r s tys vars
  | Err e => (Err e, (r, vars))
  | Undef => (Undef, (r, vars))
  | Abort => (Abort, (r, vars))
  end.
