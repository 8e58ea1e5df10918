(** Model of user-defined formatters: specialisations of emio::formatter with the
    members of formatter.hpp:29-77, and how they are called.

    The formatter object that parse leaves behind is a value of a type of the user;
    the format function is given it and may use any buffer.  What formatter<T> of the
    library does for an argument is the special case [builtin]; enums
    (formatter.hpp:175-182) and types with format_as (188-195) derive from a formatter
    of the library and pass it the converted value, which is [builtin] with that value. *)
From Verif Require Import Base Conversion Reader Buffer Writer Bitset Specs FormatArg FloatArg Format.

(** A type with its formatter, and a value of this type.  [u_validate] is the static
    member function, if there is one. *)
Record user := mk_user {
  u_object : Type;
  u_validate : option (reader -> outcome unit * reader);
  u_parse : reader -> outcome u_object * reader;
  u_format : forall K, vtable K -> u_object -> bst K -> outcome unit * bst K
}.

Definition builtin (tv : fty * fval) : user :=
  mk_user fmtr (Some (validate_fty (fst tv))) (parse_fmtr (new_formatter (fst tv)))
    (fun K vt m b => format_fval vt m (snd tv) b).

(** detail/format/formatter.hpp:804-820, called by detail/format/args.hpp:19-21 *)
Definition validate_trait (u : user) (r : reader) : outcome unit * reader :=
  match u_validate u with
  | Some validate => validate r
  | None => sdo (_, r) <- u_parse u r ;; (Ok tt, r)
  end.

(** detail/format/args.hpp:23-27 *)
Definition user_erase {K} (vt : vtable K) (u : user) : erased (K := K) := fun r b =>
  sdo (m, st) <- on_reader (u_parse u r) b ;;
  on_buffer (fst st) (u_format u K vt m (snd st)).

(** detail/parser.hpp:226-248 with detail/format/parser.hpp:62-64 *)
Fixpoint user_loop (fuel : nat) (us : list user) (r : reader) (use : option bool) (inc : Z) (matched : bitset)
  : outcome bool :=
  match fuel with
  | O => Undef
  | S fuel =>
    match check_text (S (length (rtext r))) r with
    | (Err _, _) => Ok false
    | (Undef, _) => Undef
    | (Abort, _) => Abort
    | (Ok false, _) => bitset_all_first matched (length us)
    | (Ok true, r) =>
      match check_field r use inc with
      | (Err _, _) => Ok false
      | (Undef, _) => Undef
      | (Abort, _) => Abort
      | (Ok (n, use, inc), r) =>
        if n =? no_more_args then bitset_all_first matched (length us)
        else if Z.of_nat (length us) <=? n then Ok false
        else
          do matched <- bitset_set matched (Z.to_nat n) ;;
          match nth_error us (Z.to_nat n) with
          | None => Undef
          | Some u =>
            match validate_trait u r with
            | (Err _, _) => Ok false
            | (Undef, _) => Undef
            | (Abort, _) => Abort
            | (Ok _, r) => user_loop fuel us r use inc matched
            end
          end
      end
    end
  end.

(** detail/validated_string_storage.hpp:28-38 *)
Definition user_string (s : list Z) (us : list user) : outcome vstr :=
  if (length us =? 0)%nat && check_if_plain_string s then Ok (mk_vstr true (Ok s))
  else
    do valid <- user_loop (S (length s)) us (reader_of s) None 0 (bitset_new 128) ;;
    Ok (mk_vstr false (if valid : bool then Ok s else Err invalid_format)).

(** detail/format/format_to.hpp:39-46 *)
Definition user_format_to {K} (vt : vtable K) (b : bst K) (s : vstr) (us : list user) : outcome unit * bst K :=
  vformat_erased vt b s (map (user_erase vt) us).
