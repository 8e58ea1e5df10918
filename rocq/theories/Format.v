(** Model of include/emio/formatter.hpp, ranges.hpp, std.hpp,
    detail/parser.hpp, detail/format/parser.hpp, detail/format/args.hpp,
    detail/args.hpp, detail/format/format_to.hpp and
    detail/validated_string_storage.hpp.

    Templates over argument types become functions over the syntax of types
    [fty]; the type erased arguments of detail/args.hpp are pairs of a type and
    a value. *)
From Verif Require Import Base Conversion Reader Buffer Writer Bitset Specs FormatArg FloatArg.

(** ** Types and values *)

(** The three constructors of the range formatter (ranges.hpp:39-52). *)
Inductive rkind := range_list | range_map | range_set.

Inductive fty :=
| FCore (t : cty)              (* formatter.hpp:91 (and everything that derives from it: enums,
                                  format_as, unified types, exceptions and paths as strings) *)
| FMono                        (* std.hpp:80 *)
| FOpt (t : fty)               (* std.hpp:26 *)
| FVariant                     (* std.hpp:101 *)
| FRange (k : rkind) (t : fty) (* ranges.hpp:22, 110 *)
| FTuple (ts : list fty)       (* ranges.hpp:118 *)
| FDyn (t : fty)               (* formatter.hpp:253 *)
| FArgs.                       (* format_to.hpp:66 *)

(** validated_string_storage.hpp:66-71 *)
Record vstr := mk_vstr { vs_plain : bool; vs_str : outcome (list Z) }.

Inductive fval :=
| VCore (a : carg)
| VMono
| VOpt (v : option fval)
| VVariant (v : option (fty * fval))   (* None: valueless by exception *)
| VRange (vs : list fval)
| VTuple (vs : list fval)
| VDyn (width precision : Z) (v : fval)
| VArgs (s : vstr) (args : list (fty * fval)).

(** ** Formatter objects *)

(** detail/format/ranges.hpp:64-68 *)
Record ranges_specs := mk_rs { rs_open : list Z; rs_close : list Z; rs_sep : list Z }.

Inductive fmtr :=
| MCore (t : cty) (s : format_specs)
| MMono
| MOpt (m : fmtr)
| MVariant
| MRange (rs : ranges_specs) (m : fmtr)
| MTuple (rs : ranges_specs) (ms : list fmtr)
| MDyn (m : fmtr)
| MArgs.

(** ranges.hpp:54-61 and 122-129 *)
Definition set_brackets (m : fmtr) (o c : list Z) : fmtr :=
  match m with
  | MRange rs m => MRange (mk_rs o c (rs_sep rs)) m
  | MTuple rs ms => MTuple (mk_rs o c (rs_sep rs)) ms
  | m => m
  end.
Definition set_separator (m : fmtr) (sep : list Z) : fmtr :=
  match m with
  | MRange rs m => MRange (mk_rs (rs_open rs) (rs_close rs) sep) m
  | MTuple rs ms => MTuple (mk_rs (rs_open rs) (rs_close rs) sep) ms
  | m => m
  end.

(** The default constructors: formatter.hpp:160, 295, std.hpp:47,
    ranges.hpp:39-52, 120 *)
Fixpoint new_formatter (t : fty) : fmtr :=
  match t with
  | FCore t => MCore t default_specs
  | FMono => MMono
  | FOpt t => MOpt (new_formatter t)
  | FVariant => MVariant
  | FRange range_list t => MRange (mk_rs (str "[") (str "]") (str ", ")) (new_formatter t)
  | FRange range_map t =>
    MRange (mk_rs (str "{") (str "}") (str ", ")) (set_separator (set_brackets (new_formatter t) [] []) (str ": "))
  | FRange range_set t => MRange (mk_rs (str "{") (str "}") (str ", ")) (new_formatter t)
  | FTuple ts => MTuple (mk_rs (str "(") (str ")") (str ", ")) (map new_formatter ts)
  | FDyn t => MDyn (new_formatter t)
  | FArgs => MArgs
  end.

(** ** Validation: formatter.hpp:93-115, 255-257, ranges.hpp:24-37, 131-144,
    std.hpp:28-30, 82-84, 103-105, format_to.hpp:68-70 *)

Definition match_rbrace (r : reader) : outcome unit * reader :=
  sdo (_, r) <- read_if_match_char r ch_rbrace ;; (Ok tt, r).

(** ranges.hpp:171-198: each element is validated on a copy of the reader; all
    must stop at the same position. *)
Section ValidateForEach.
  Context (validate : fty -> reader -> outcome unit * reader).
  Fixpoint validate_elements (ts : list fty) (r : reader) (reader_pos : nat) : outcome nat :=
    match ts with
    | [] => Ok reader_pos
    | t :: ts =>
      let (o, r') := validate t r in
      do _ <- o ;;
      if (reader_pos =? 0)%nat then validate_elements ts r (pos r')
      else if (reader_pos =? pos r')%nat then validate_elements ts r reader_pos
      else Err invalid_format
    end.
  Definition validate_for_each (ts : list fty) (r : reader) : outcome unit * reader :=
    match ts with
    | [] => (Err invalid_format, r)
    | _ =>
      match validate_elements ts r 0 with
      | Ok reader_pos => if (reader_pos =? 0)%nat then (Ok tt, r) else (Ok tt, pop r reader_pos)
      | Err e => (Err e, r)
      | Undef => (Undef, r)
      | Abort => (Abort, r)
      end
    end.
End ValidateForEach.

Fixpoint validate_fty (t : fty) (r : reader) {struct t} : outcome unit * reader :=
  match t with
  | FCore t => validate_core t r
  | FMono | FVariant | FArgs => match_rbrace r
  | FOpt t | FDyn t => validate_fty t r
  | FRange _ t =>
    sdo (c, r) <- read_char r ;;
    sdo (c, r) <- (if c =? 110 then read_char r else (Ok c, r)) ;;
    if c =? ch_rbrace then (Ok tt, r)
    else if c =? ch_colon then validate_fty t r
    else (Err invalid_format, r)
  | FTuple ts =>
    sdo (c, r) <- read_char r ;;
    sdo (c, r) <- (if c =? 110 then read_char r else (Ok c, r)) ;;
    if c =? ch_rbrace then (Ok tt, r)
    else if c =? ch_colon then validate_for_each validate_fty ts r
    else (Err invalid_format, r)
  end.

(** ** Parsing of the specification *)

(** detail/format/ranges.hpp:70-77 and formatter.hpp:131-139: only the core
    formatters of characters and strings have [set_debug_format].  [debug] says
    whether it is called, and with which argument. *)
Definition maybe_set_debug_format (debug : option bool) (t : cty) (s : format_specs) : format_specs :=
  match debug, t with
  | Some enabled, (TChar | TStr) => set_type s (if enabled then ch_question else no_type)
  | _, _ => s
  end.

(** ranges.hpp:200-219: like [validate_elements], without the check *)
Section ParseForEach.
  Context (parse : fmtr -> reader -> outcome fmtr * reader).
  Fixpoint parse_elements (ms : list fmtr) (r : reader) (set_debug : bool) (reader_pos : nat)
    : outcome (list fmtr * nat) :=
    match ms with
    | [] => Ok ([], reader_pos)
    | m :: ms =>
      let (o, r') := parse m r in
      do m <- o ;;
      do msp <- parse_elements ms r set_debug (pos r') ;;
      Ok (m :: fst msp, snd msp)
    end.
End ParseForEach.

(** formatter.hpp:117-119, 259-261, ranges.hpp:63-76, 146-160, 221-228,
    std.hpp:32-34, 86-88, 107-109, format_to.hpp:72-74.  [debug]: what the
    caller does to the formatter just before. *)
Fixpoint parse_with (debug : option bool) (m : fmtr) (r : reader) {struct m} : outcome fmtr * reader :=
  match m with
  | MCore t s =>
    sdo (s, r) <- parse_format_specs r (maybe_set_debug_format debug t s) ;; (Ok (MCore t s), r)
  | MMono | MVariant | MArgs => sdo (_, r) <- match_rbrace r ;; (Ok m, r)
  | MOpt m => sdo (m, r) <- parse_with None m r ;; (Ok (MOpt m), r)
  | MDyn m => sdo (m, r) <- parse_with None m r ;; (Ok (MDyn m), r)
  | MRange rs m =>
    sdo (c, r) <- assume (peek_s r) ;;
    let rs := if c =? 110 then mk_rs [] [] (rs_sep rs) else rs in
    let r := if c =? 110 then pop r 1 else r in
    sdo (c, r) <- (if c =? 110 then assume (peek_s r) else (Ok c, r)) ;;
    sdo (m, r) <- (if c =? ch_rbrace then parse_with (Some true) m r
                   else parse_with None m (pop r 1)) ;;
    (Ok (MRange rs m), r)
  | MTuple rs ms =>
    sdo (c, r) <- assume (peek_s r) ;;
    let rs := if c =? 110 then mk_rs [] [] (rs_sep rs) else rs in
    let r := if c =? 110 then pop r 1 else r in
    sdo (c, r) <- (if c =? 110 then assume (peek_s r) else (Ok c, r)) ;;
    let set_debug := c =? ch_rbrace in
    let r := if set_debug then r else pop r 1 in
    match ms with
    | [] => if set_debug then (Ok (MTuple rs []), pop r 1) else (Err invalid_format, r)
    | _ =>
      match parse_elements (parse_with (Some set_debug)) ms r set_debug 0 with
      | Ok (ms, reader_pos) => (Ok (MTuple rs ms), pop r reader_pos)
      | Err e => (Err e, r)
      | Undef => (Undef, r)
      | Abort => (Abort, r)
      end
    end
  end.
Definition parse_fmtr (m : fmtr) (r : reader) : outcome fmtr * reader := parse_with None m r.

(** formatter.hpp:284-293 with [get_core_formatter] (274-282) and the setters
    (146-148, 155-157) *)
Definition spec_not_defined : Z := - imax i32.
Fixpoint overwrite_spec (m : fmtr) (width precision : Z) : fmtr :=
  match m with
  | MCore t s =>
    let s := if width =? spec_not_defined then s else set_width s (Z.max 0 width) in
    let s := if precision =? spec_not_defined then s else set_precision s (Z.max 0 precision) in
    MCore t s
  | MRange rs m => MRange rs (overwrite_spec m width precision)
  | m => m
  end.

(** ** The format-time parser *)

(** detail/parser.hpp:25 *)
Definition no_more_args : Z := 255.

Section Parser.
  Context {K : Type} (vt : vtable K).
  Definition pst := (reader * bst K)%type.

  Definition on_reader {A} (o : outcome A * reader) (b : bst K) : outcome A * pst :=
    let (o, r) := o in (o, (r, b)).
  Definition on_buffer {A} (r : reader) (o : outcome A * bst K) : outcome A * pst :=
    let (o, b) := o in (o, (r, b)).

  (** detail/format/parser.hpp:25-27 *)
  Definition process (st : pst) (begin it : nat) : outcome unit * pst :=
    let (r, b) := st in
    on_buffer r (write_str vt b (firstn (it - begin) (skipn begin (rtext r)))).

  (** detail/parser.hpp:117-148: the loop over the literal text.  [true]: a
      replacement field starts.  Reading or moving behind the end of the format
      string is undefined. *)
  Fixpoint parse_text (fuel : nat) (st : pst) (begin : nat) : outcome bool * pst :=
    match fuel with
    | O => (Undef, st)
    | S fuel =>
      let (r, b) := st in
      match nth_error (rtext r) (rpos r) with
      | None =>
        sdo (_, st) <- (if (begin =? rpos r)%nat then (Ok tt, st) else process st begin (rpos r)) ;;
        (Ok false, st)
      | Some c =>
        let it := S (rpos r) in
        if c =? ch_lbrace then
          match nth_error (rtext r) it with
          | None => (Undef, st)
          | Some c2 =>
            if c2 =? ch_lbrace then
              sdo (_, st) <- process (set_pos r it, b) begin it ;;
              parse_text fuel (set_pos r (S it), snd st) (S it)
            else
              sdo (_, st) <- (if (begin =? it - 1)%nat then (Ok tt, (set_pos r it, b))
                              else process (set_pos r it, b) begin (it - 1)) ;;
              (Ok true, st)
          end
        else if c =? ch_rbrace then
          sdo (_, st) <- process (set_pos r it, b) begin it ;;
          if (it <? length (rtext r))%nat then parse_text fuel (set_pos r (S it), snd st) (S it)
          else (Undef, st)
        else parse_text fuel (set_pos r it, b) begin
      end
    end.

  (** detail/parser.hpp:156-176; [inc] is increment_arg_number_ *)
  Definition parse_field (r : reader) (inc : Z) : outcome (Z * Z) * reader :=
    sdo (c, r) <- assume (peek_s r) ;;
    sdo (ni, r) <- (if isdigit c then
                      sdo (n, r) <- assume (parse_int iso u8 10 r) ;; (Ok (n, inc), r)
                    else (Ok (inc, wrap u8 (inc + 1)), r)) ;;
    sdo (c, r) <- assume (peek_s r) ;;
    (Ok ni, if c =? ch_rbrace then r else pop r 1).

  (** A type erased argument: detail/args.hpp:81-138 *)
  Definition erased := reader -> bst K -> outcome unit * pst.

  (** detail/parser.hpp:251-267 with apply (203-205).  Every iteration consumes
      a character of the format string. *)
  Fixpoint parse_loop (fuel : nat) (args : list erased) (inc : Z) (st : pst) : outcome unit * pst :=
    match fuel with
    | O => (Undef, st)
    | S fuel =>
      sdo (field, st) <- parse_text (S (length (rtext (fst st)))) st (rpos (fst st)) ;;
      if negb field then (Ok tt, st)
      else
        sdo (ni, st) <- on_reader (parse_field (fst st) inc) (snd st) ;;
        let (n, inc) := ni in
        if n =? no_more_args then (Ok tt, st)
        else
          match nth_error args (Z.to_nat n) with
          | None => (Undef, st)
          | Some a =>
            sdo (_, st) <- a (fst st) (snd st) ;;
            parse_loop fuel args inc st
          end
    end.

  (** detail/parser.hpp:251-267 *)
  Definition parse_format (s : list Z) (args : list erased) (b : bst K) : outcome unit * pst :=
    parse_loop (S (length s)) args 0 (reader_of s, b).

  (** detail/format/format_to.hpp:39-46 *)
  Definition vformat_erased (b : bst K) (s : vstr) (args : list erased) : outcome unit * bst K :=
    match vs_str s with
    | Ok sv =>
      if vs_plain s then write_str vt b sv
      else let (o, st) := parse_format sv args b in (o, snd st)
    | Err e => (Err e, b)
    | Undef => (Undef, b)
    | Abort => (Abort, b)
    end.

  (** ** Formatting: formatter.hpp:121-124, 263-266, ranges.hpp:78-93, 162-167,
      230-255, std.hpp:36-44, 90-92, 111-143, format_to.hpp:76-78.  A formatter
      object of another type than the value does not compile: [Undef]. *)
  Section FormatRange.
    Context (format : fmtr -> fval -> bst K -> outcome unit * bst K).
    (** ranges.hpp:85-90 *)
    Fixpoint format_elements (first : bool) (sep : list Z) (m : fmtr) (vs : list fval) (b : bst K)
      : outcome unit * bst K :=
      match vs with
      | [] => (Ok tt, b)
      | v :: vs =>
        sdo (_, b) <- (if first then (Ok tt, b) else write_str vt b sep) ;;
        sdo (_, b) <- format m v b ;;
        format_elements false sep m vs b
      end.
    (** ranges.hpp:230-255 *)
    Fixpoint format_for_each (first : bool) (sep : list Z) (ms : list fmtr) (vs : list fval) (b : bst K) {struct vs}
      : outcome unit * bst K :=
      match vs, ms with
      | [], [] => (Ok tt, b)
      | v :: vs, m :: ms =>
        sdo (_, b) <- (if first then (Ok tt, b) else write_str vt b sep) ;;
        sdo (_, b) <- format m v b ;;
        format_for_each false sep ms vs b
      | _, _ => (Undef, b)
      end.
  End FormatRange.

  Fixpoint format_fval (m : fmtr) (v : fval) (b : bst K) {struct v} : outcome unit * bst K :=
    match v, m with
    | VCore a, MCore t s => write_arg vt b s a
    | VMono, MMono => write_str vt b (str "monostate")
    | VOpt None, MOpt _ => write_str vt b (str "none")
    | VOpt (Some v), MOpt m =>
      sdo (_, b) <- write_str vt b (str "optional(") ;;
      sdo (_, b) <- format_fval m v b ;;
      write_char vt b 41
    | VVariant v, MVariant =>
      sdo (_, b) <- write_str vt b (str "variant(") ;;
      sdo (_, b) <-
        match v with
        | None => write_str vt b (str "valueless by exception")
        | Some (_, VCore (AChar c)) => write_char_escaped vt b c
        | Some (_, VCore (AStr s)) => write_str_escaped vt b s
        | Some (t, v) =>
          match parse_fmtr (new_formatter t) (reader_of (str "}")) with
          | (Ok m, _) => format_fval m v b
          | (Err e, _) => (Err e, b)
          | (Undef, _) => (Undef, b)
          | (Abort, _) => (Abort, b)
          end
        end ;;
      write_char vt b 41
    | VRange vs, MRange rs m =>
      sdo (_, b) <- write_str vt b (rs_open rs) ;;
      sdo (_, b) <- format_elements format_fval true (rs_sep rs) m vs b ;;
      write_str vt b (rs_close rs)
    | VTuple vs, MTuple rs ms =>
      sdo (_, b) <- write_str vt b (rs_open rs) ;;
      sdo (_, b) <- format_for_each format_fval true (rs_sep rs) ms vs b ;;
      write_str vt b (rs_close rs)
    | VDyn w p v, MDyn m => format_fval (overwrite_spec m w p) v b
    | VArgs s args, MArgs =>
      vformat_erased b s
        (map (fun tv : fty * fval => fun r b =>
                let (t, v) := tv in
                sdo (m, st) <- on_reader (parse_fmtr (new_formatter t) r) b ;;
                on_buffer (fst st) (format_fval m v (snd st))) args)
    | _, _ => (Undef, b)
    end.

  (** detail/format/args.hpp:22-26 *)
  Definition erase (tv : fty * fval) : erased := fun r b =>
    let (t, v) := tv in
    sdo (m, st) <- on_reader (parse_fmtr (new_formatter t) r) b ;;
    on_buffer (fst st) (format_fval m v (snd st)).

  (** detail/format/format_to.hpp:39-46 *)
  Definition vformat_to (b : bst K) (s : vstr) (args : list (fty * fval)) : outcome unit * bst K :=
    vformat_erased b s (map erase args).
End Parser.

(** ** Validation of a format string *)

(** detail/parser.hpp:39-61: the loop over the literal text; [true]: a field
    starts *)
Fixpoint check_text (fuel : nat) (r : reader) : outcome bool * reader :=
  match fuel with
  | O => (Undef, r)
  | S fuel =>
    match nth_error (rtext r) (rpos r) with
    | None => (Ok false, r)
    | Some c =>
      let it := S (rpos r) in
      if c =? ch_lbrace then
        match nth_error (rtext r) it with
        | None => (Err invalid_format, set_pos r it)
        | Some c2 => if c2 =? ch_lbrace then check_text fuel (set_pos r (S it)) else (Ok true, set_pos r it)
        end
      else if c =? ch_rbrace then
        match nth_error (rtext r) it with
        | Some c2 => if c2 =? ch_rbrace then check_text fuel (set_pos r (S it))
                     else (Err invalid_format, set_pos r it)
        | None => (Err invalid_format, set_pos r it)
        end
      else check_text fuel (set_pos r it)
    end
  end.

(** detail/parser.hpp:67-99; [use] is use_positional_args_, [inc] is
    increment_arg_number_ *)
Definition check_field (r : reader) (use : option bool) (inc : Z) : outcome (Z * option bool * Z) * reader :=
  sdo (c, r) <- peek_s r ;;
  sdo (x, r) <-
    (if isdigit c then
       match use with
       | Some false => (Err invalid_format, r)
       | _ => sdo (n, r) <- parse_int iso u8 10 r ;; (Ok (n, Some true, inc), r)
       end
     else
       match use with
       | Some true => (Err invalid_format, r)
       | _ => (Ok (inc, Some false, wrap u8 (inc + 1)), r)
       end) ;;
  sdo (c, r) <- peek_s r ;;
  if c =? ch_rbrace then (Ok x, r)
  else if c =? ch_colon then (Ok x, pop r 1)
  else (Err invalid_format, r).

(** detail/parser.hpp:226-248.  [matched.set] terminates for a number that the
    bitset cannot hold.  An error means that the string is not valid. *)
Fixpoint validate_loop (fuel : nat) (tys : list fty) (r : reader) (use : option bool) (inc : Z) (matched : bitset)
  : outcome bool :=
  match fuel with
  | O => Undef
  | S fuel =>
    match check_text (S (length (rtext r))) r with
    | (Err _, _) => Ok false
    | (Undef, _) => Undef
    | (Abort, _) => Abort
    | (Ok false, _) => bitset_all_first matched (length tys)
    | (Ok true, r) =>
      match check_field r use inc with
      | (Err _, _) => Ok false
      | (Undef, _) => Undef
      | (Abort, _) => Abort
      | (Ok (n, use, inc), r) =>
        if n =? no_more_args then bitset_all_first matched (length tys)
        else if Z.of_nat (length tys) <=? n then Ok false
        else
          do matched <- bitset_set matched (Z.to_nat n) ;;
          match nth_error tys (Z.to_nat n) with
          | None => Undef
          | Some t =>
            match validate_fty t r with
            | (Err _, _) => Ok false
            | (Undef, _) => Undef
            | (Abort, _) => Abort
            | (Ok _, r) => validate_loop fuel tys r use inc matched
            end
          end
      end
    end
  end.
Definition validate_string (s : list Z) (tys : list fty) : outcome bool :=
  validate_loop (S (length s)) tys (reader_of s) None 0 (bitset_new 128).

(** detail/validated_string_storage.hpp:16-38 *)
Definition check_if_plain_string (s : list Z) : bool :=
  negb (existsb (fun c => (c =? ch_lbrace) || (c =? ch_rbrace)) s).
Definition vstr_from (s : list Z) (tys : list fty) : outcome vstr :=
  if (length tys =? 0)%nat && check_if_plain_string s then Ok (mk_vstr true (Ok s))
  else
    do valid <- validate_string s tys ;;
    Ok (mk_vstr false (if valid : bool then Ok s else Err invalid_format)).
