(** Model of user-defined scanners: specialisations of emio::scanner with the members
    of scanner.hpp:27-62, and how they are called.

    [V] stands for the variables that are scanned.  The scanner object that parse
    leaves behind is a value of a type of the user; it may contain a copy of the format
    reader, as that of the library for texts does (scanner.hpp:135-139).  The scan
    function is given the input and the variable, by reference: it returns both. *)
From Verif Require Import Base Conversion Reader Buffer Bitset Specs FormatArg FloatArg Format Custom Scan.

Record suser (V : Type) := mk_suser {
  su_object : Type;
  su_validate : option (reader -> outcome unit * reader);
  su_parse : reader -> outcome su_object * reader;
  su_scan : su_object -> V -> reader -> outcome unit * (reader * V)
}.
Arguments mk_suser {V}.
Arguments su_object {V}.
Arguments su_validate {V}.
Arguments su_parse {V}.
Arguments su_scan {V}.

(** scanner.hpp:72-163: the scanners of the library.  A type with a scanner that is
    derived from one of these (docs/API.md:1003-1020) inherits validate and parse. *)
Definition scan_builtin (m : overflow_mode) (t : sty) : suser sval :=
  mk_suser (scan_specs * reader) (Some (validate_sty t))
    (fun fr => sdo (s, fr) <- parse_scan_specs fr default_scan ;; (Ok (s, fr), fr))
    (fun sf x r => let '(o, (r, v)) := scan_value m t (fst sf) (snd sf) r in (o, (r, match v with Some v => v | None => x end))).

(** detail/scan/args.hpp:19-34 and detail/parser.hpp:226-248 with
    detail/scan/parser.hpp:67-74: the scan string is checked by the same code as a
    format string, which only uses validate and parse. *)
Definition checked {V} (u : suser V) : user := mk_user (su_object u) (su_validate u) (su_parse u) (fun K vt _ b => (Ok tt, b)).
Definition user_scan_string {V} (s : list Z) (us : list (suser V)) : outcome vstr := user_string s (map checked us).

Fixpoint set_var {V} (vars : list V) (n : nat) (v : V) : list V :=
  match vars, n with
  | [], _ => []
  | _ :: vars, O => v :: vars
  | x :: vars, S n => x :: set_var vars n v
  end.

(** detail/parser.hpp:251-267 with detail/scan/parser.hpp:30-45 and
    detail/scan/args.hpp:36-40.  The format reader, the input reader, and the
    variables; the text between the fields is matched by [scan_text], which does not
    touch variables. *)
Fixpoint user_scan_loop {V} (fuel : nat) (us : list (suser V)) (inc : Z) (st : reader * (reader * list V))
  : outcome unit * (reader * (reader * list V)) :=
  match fuel with
  | O => (Undef, st)
  | S fuel =>
    let '(fr, (r, vars)) := st in
    let '(o, (fr, (r, _))) := scan_text (S (length (rtext fr))) (fr, (r, [])) (rpos fr) in
    sdo (field, st) <- (o, (fr, (r, vars))) ;;
    if negb field then (Ok tt, st)
    else
      let '(fr, (r, vars)) := st in
      let (o, fr) := parse_field fr inc in
      sdo (ni, st) <- (o, (fr, (r, vars))) ;;
      let (n, inc) := ni in
      if n =? no_more_args then (Ok tt, st)
      else
        match nth_error us (Z.to_nat n), nth_error vars (Z.to_nat n) with
        | Some u, Some x =>
          match su_parse u fr with
          | (Ok m, fr) =>
            let '(o, (r, x)) := su_scan u m x r in
            sdo (_, st) <- (o, (fr, (r, set_var vars (Z.to_nat n) x))) ;;
            user_scan_loop fuel us inc st
          | (Err e, fr) => (Err e, (fr, (r, vars)))
          | (Undef, fr) => (Undef, (fr, (r, vars)))
          | (Abort, fr) => (Abort, (fr, (r, vars)))
          end
        | _, _ => (Undef, st)
        end
  end.

(** detail/scan/scan_from.hpp:37-43 *)
Definition user_vscan_from {V} (r : reader) (s : vstr) (us : list (suser V)) (vars : list V) : outcome unit * (reader * list V) :=
  match vs_str s with
  | Ok sv =>
    if vs_plain s then
      let (o, r) := read_if_match_str r sv in (do _ <- o ;; Ok tt, (r, vars))
    else
      let (o, st) := user_scan_loop (S (length sv)) us 0 (reader_of sv, (r, vars)) in (o, snd st)
  | Err e => (Err e, (r, vars))
  | Undef => (Undef, (r, vars))
  | Abort => (Abort, (r, vars))
  end.

(** A call of emio::scan_from or emio::scan (scan.hpp:34-101) with a scan string. *)
Definition user_scan_from {V} (r : reader) (fmt : list Z) (us : list (suser V)) (vars : list V) : outcome unit * (reader * list V) :=
  match user_scan_string fmt us with
  | Ok s => user_vscan_from r s us vars
  | Err e => (Err e, (r, vars))
  | Undef => (Undef, (r, vars))
  | Abort => (Abort, (r, vars))
  end.
Definition user_scan {V} (input fmt : list Z) (us : list (suser V)) (vars : list V) : outcome unit * list V :=
  match user_scan_from (reader_of input) fmt us vars with
  | (Ok _, (r, vars)) => (if at_eof r then Ok tt else Err invalid_format, vars)
  | (o, (_, vars)) => (o, vars)
  end.
