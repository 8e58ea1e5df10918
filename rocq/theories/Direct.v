(** Model of the code that gets its arguments directly and not type erased: what
    constant evaluation runs (detail/format/format_to.hpp:22-29, 49-58,
    detail/scan/scan_from.hpp:19-26, 43-50, format.hpp:70-76, 157-200, scan.hpp:77-83)
    and what formatted_size runs always for strings that are validated at run time
    (format.hpp:85-94, 103-110); and of the conversions that the type erased
    arguments make (detail/args.hpp:19-139). *)
From Verif Require Import Base Conversion Reader Buffer Writer Bitset Specs FormatArg FloatArg Format FormatApi Scan.

(** ** Type erasure *)

(** detail/format/formatter.hpp:849-871: the integer type an argument is stored
    as.  Arguments of the other types are stored as they are (double, bool, char,
    pointers, std::string_view) or by reference. *)
Definition unified_int (t : ity) : ity :=
  if signed t then (if bits t <=? 32 then i32 else i64) else (if bits t <=? 32 then u32 else u64).
Definition unified_ty (t : fty) : fty :=
  match t with FCore (TInt i) => FCore (TInt (unified_int i)) | t => t end.
(** detail/args.hpp:83-88: the conversion of the value *)
Definition unified_arg (tv : fty * fval) : fty * fval :=
  match tv with
  | (FCore (TInt i), VCore (AInt j v)) => (FCore (TInt (unified_int i)), VCore (AInt (unified_int j) (wrap (unified_int j) v)))
  | tv => tv
  end.

(** ** Formatting *)
Section Direct.
  Context {K : Type} (vt : vtable K).

  (** detail/parser.hpp:207-219 with detail/format/parser.hpp:33-43; the formatter
      of an integer type derives from that of the unified type (formatter.hpp:167-169) *)
  Fixpoint apply_direct (n : nat) (args : list (fty * fval)) (r : reader) (b : bst K) : outcome unit * pst (K := K) :=
    match args with
    | [] => (Err invalid_format, (r, b))
    | arg :: args =>
      match n with
      | O =>
        let (t, v) := unified_arg arg in
        sdo (m, st) <- on_reader (parse_fmtr (new_formatter t) r) b ;;
        on_buffer (fst st) (format_fval vt m v (snd st))
      | S n => apply_direct n args r b
      end
    end.

  (** detail/parser.hpp:251-267 *)
  Fixpoint direct_loop (fuel : nat) (args : list (fty * fval)) (inc : Z) (st : pst (K := K)) : outcome unit * pst (K := K) :=
    match fuel with
    | O => (Undef, st)
    | S fuel =>
      sdo (field, st) <- parse_text vt (S (length (rtext (fst st)))) st (rpos (fst st)) ;;
      if negb field then (Ok tt, st)
      else
        sdo (ni, st) <- on_reader (parse_field (fst st) inc) (snd st) ;;
        let (n, inc) := ni in
        if n =? no_more_args then (Ok tt, st)
        else
          sdo (_, st) <- apply_direct (Z.to_nat n) args (fst st) (snd st) ;;
          direct_loop fuel args inc st
    end.

  (** detail/format/format_to.hpp:49-58 *)
  Definition format_to_direct (b : bst K) (s : vstr) (args : list (fty * fval)) : outcome unit * bst K :=
    match vs_str s with
    | Ok sv =>
      if vs_plain s then write_str vt b sv
      else let (o, st) := direct_loop (S (length sv)) args 0 (reader_of sv, b) in (o, snd st)
    | Err e => (Err e, b)
    | Undef => (Undef, b)
    | Abort => (Abort, b)
    end.

  (** detail/format/format_to.hpp:39-46 with the arguments that make_format_args
      (format.hpp:42-46) has stored *)
  Definition vformat_to_erased (b : bst K) (s : vstr) (args : list (fty * fval)) : outcome unit * bst K :=
    vformat_to vt b s (map unified_arg args).
End Direct.

(** format.hpp:85-94 and 103-110 *)
Definition formatted_size_direct (s : vstr) (args : list (fty * fval)) : outcome nat :=
  fst (finish (format_to_direct count_vt (counting_buffer default_cache_size) s args) (fun b => (Ok (count_count b), tt)) (fun _ => tt)).
(** format.hpp:53-57 with make_format_args *)
Definition vformatted_size_erased (s : vstr) (args : list (fty * fval)) : outcome nat :=
  vformatted_size s (map unified_arg args).

(** ** Validation of a format string: detail/parser.hpp:226-248 with 207-219 and
    detail/format/parser.hpp:66-69 *)
Fixpoint validate_direct_at (n : nat) (tys : list fty) (r : reader) : outcome unit * reader :=
  match tys with
  | [] => (Err invalid_format, r)
  | t :: tys => match n with O => validate_fty (unified_ty t) r | S n => validate_direct_at n tys r end
  end.
Fixpoint validate_direct_loop (fuel : nat) (tys : list fty) (r : reader) (use : option bool) (inc : Z) (matched : bitset)
  : outcome bool :=
  match fuel with
  | O => Undef
  | S fuel =>
    match check_text (S (length (rtext r))) r with
    | (Err _, _) => Ok false
    | (Undef, _) => Undef
    | (Abort, _) => Abort
    | (Ok false, _) => bitset_all_first matched (length tys)
    | (Ok true, r) =>
      match check_field r use inc with
      | (Err _, _) => Ok false
      | (Undef, _) => Undef
      | (Abort, _) => Abort
      | (Ok (n, use, inc), r) =>
        if n =? no_more_args then bitset_all_first matched (length tys)
        else if Z.of_nat (length tys) <=? n then Ok false
        else
          do matched <- bitset_set matched (Z.to_nat n) ;;
          match validate_direct_at (Z.to_nat n) tys r with
          | (Err _, _) => Ok false
          | (Undef, _) => Undef
          | (Abort, _) => Abort
          | (Ok _, r) => validate_direct_loop fuel tys r use inc matched
          end
      end
    end
  end.
(** detail/format/format_to.hpp:24 *)
Definition validate_direct (s : list Z) (tys : list fty) : outcome bool :=
  validate_direct_loop (S (length s)) tys (reader_of s) None 0 (bitset_new 128).
(** detail/format/format_to.hpp:26-27 with detail/args.hpp:22-26 *)
Definition validate_erased (s : list Z) (tys : list fty) : outcome bool :=
  validate_string s (map unified_ty tys).

(** detail/validated_string_storage.hpp:16-24: std::string_view::find_first_of and
    std::memchr *)
Fixpoint find_first_of (s set : list Z) : option nat :=
  match s with
  | [] => None
  | c :: s => if existsb (Z.eqb c) set then Some O else option_map S (find_first_of s set)
  end.
Definition check_if_plain_direct (s : list Z) : bool :=
  match find_first_of s (str "{}") with None => true | Some _ => false end.
Fixpoint memchr (s : list Z) (c : Z) (n : nat) : option nat :=
  match s, n with
  | x :: s, S n => if x =? c then Some O else option_map S (memchr s c n)
  | _, _ => None
  end.
Definition check_if_plain_memchr (s : list Z) : bool :=
  match memchr s ch_lbrace (length s), memchr s ch_rbrace (length s) with None, None => true | _, _ => false end.

(** detail/validated_string_storage.hpp:28-38 during constant evaluation and at run
    time *)
Definition vstr_from_direct (s : list Z) (tys : list fty) : outcome vstr :=
  if (length tys =? 0)%nat && check_if_plain_direct s then Ok (mk_vstr true (Ok s))
  else
    do valid <- validate_direct s tys ;;
    Ok (mk_vstr false (if valid : bool then Ok s else Err invalid_format)).
Definition vstr_from_erased (s : list Z) (tys : list fty) : outcome vstr :=
  if (length tys =? 0)%nat && check_if_plain_memchr s then Ok (mk_vstr true (Ok s))
  else
    do valid <- validate_erased s tys ;;
    Ok (mk_vstr false (if valid : bool then Ok s else Err invalid_format)).

(** ** Scanning *)

(** detail/parser.hpp:207-219 with detail/scan/parser.hpp:34-43; the type erased
    arguments are references to the variables of the caller (detail/scan/args.hpp:16) *)
Fixpoint scan_direct_at (m : overflow_mode) (n : nat) (tys : list sty) (fr r : reader) : outcome unit * (reader * (reader * option sval)) :=
  match tys with
  | [] => (Err invalid_format, (fr, (r, None)))
  | t :: tys => match n with O => scan_field m t fr r | S n => scan_direct_at m n tys fr r end
  end.
(** detail/parser.hpp:251-267 *)
Fixpoint scan_direct_loop (fuel : nat) (m : overflow_mode) (tys : list sty) (inc : Z) (st : sst) : outcome unit * sst :=
  match fuel with
  | O => (Undef, st)
  | S fuel =>
    sdo (field, st) <- scan_text (S (length (rtext (fst st)))) st (rpos (fst st)) ;;
    if negb field then (Ok tt, st)
    else
      let '(fr, (r, vars)) := st in
      let (o, fr) := parse_field fr inc in
      sdo (ni, st) <- (o, (fr, (r, vars))) ;;
      let (n, inc) := ni in
      if n =? no_more_args then (Ok tt, st)
      else
        let '(o, (fr, (r, v))) := scan_direct_at m (Z.to_nat n) tys fr r in
        sdo (_, st) <- (o, (fr, (r, assign vars (Z.to_nat n) v))) ;;
        scan_direct_loop fuel m tys inc st
  end.
(** detail/scan/scan_from.hpp:43-50 *)
Definition scan_from_direct (m : overflow_mode) (r : reader) (s : vstr) (tys : list sty) (vars : list sval)
  : outcome unit * (reader * list sval) :=
  match vs_str s with
  | Ok sv =>
    if vs_plain s then
      let (o, r) := read_if_match_str r sv in (do _ <- o ;; Ok tt, (r, vars))
    else
      let (o, st) := scan_direct_loop (S (length sv)) m tys 0 (reader_of sv, (r, vars)) in (o, snd st)
  | Err e => (Err e, (r, vars))
  | Undef => (Undef, (r, vars))
  | Abort => (Abort, (r, vars))
  end.

(** detail/scan/scan_from.hpp:20-21 with detail/scan/parser.hpp:66-69 *)
Fixpoint scan_validate_at (n : nat) (tys : list sty) (r : reader) : outcome unit * reader :=
  match tys with
  | [] => (Err invalid_format, r)
  | t :: tys => match n with O => validate_sty t r | S n => scan_validate_at n tys r end
  end.
Fixpoint scan_validate_direct_loop (fuel : nat) (tys : list sty) (r : reader) (use : option bool) (inc : Z) (matched : bitset)
  : outcome bool :=
  match fuel with
  | O => Undef
  | S fuel =>
    match check_text (S (length (rtext r))) r with
    | (Err _, _) => Ok false
    | (Undef, _) => Undef
    | (Abort, _) => Abort
    | (Ok false, _) => bitset_all_first matched (length tys)
    | (Ok true, r) =>
      match check_field r use inc with
      | (Err _, _) => Ok false
      | (Undef, _) => Undef
      | (Abort, _) => Abort
      | (Ok (n, use, inc), r) =>
        if n =? no_more_args then bitset_all_first matched (length tys)
        else if Z.of_nat (length tys) <=? n then Ok false
        else
          do matched <- bitset_set matched (Z.to_nat n) ;;
          match scan_validate_at (Z.to_nat n) tys r with
          | (Err _, _) => Ok false
          | (Undef, _) => Undef
          | (Abort, _) => Abort
          | (Ok _, r) => scan_validate_direct_loop fuel tys r use inc matched
          end
      end
    end
  end.
Definition scan_validate_direct (s : list Z) (tys : list sty) : outcome bool :=
  scan_validate_direct_loop (S (length s)) tys (reader_of s) None 0 (bitset_new 128).
