(** Model of include/emio/detail/validated_string.hpp and of the accessors of
    detail/validated_string_storage.hpp.

    [from] is validated_string_storage::from for the string and the argument types
    ([vstr_from] of Format.v for format strings, [scan_string] of Scan.v for scan
    strings). *)
From Verif Require Import Base Format.

(** validated_string_storage.hpp:40 and 71: a default constructed one *)
Definition default_vstr : vstr := mk_vstr true (Ok []).

(** validated_string_storage.hpp:46-48 and detail/args.hpp:184-186 *)
Definition vs_is_plain_str (v : vstr) : bool := vs_plain v.
(** validated_string_storage.hpp:54-56 and detail/args.hpp:192-194.  [operator->] of
    a result without a value is undefined. *)
Definition vs_empty (v : vstr) : outcome bool :=
  if vs_is_plain_str v then
    match vs_str v with Ok s => Ok (length s =? 0)%nat | _ => Undef end
  else Ok false.
(** validated_string_storage.hpp:62-64 and detail/args.hpp:175-177 *)
Definition vs_get (v : vstr) : outcome (list Z) := vs_str v.
Definition vs_has_value (v : vstr) : bool := match vs_get v with Ok _ => true | _ => false end.

(** validated_string.hpp:75-81 and 135: compilation ends when the constructor
    terminates *)
Definition literal_string (from : outcome vstr) : outcome vstr :=
  do v <- from ;; if vs_has_value v then Ok v else Abort.
(** validated_string.hpp:87-88 *)
Definition runtime_validated (from : outcome vstr) : outcome vstr := from.
(** validated_string.hpp:95-100 *)
Definition as_valid (v : vstr) : outcome vstr := if vs_has_value v then Ok v else Err invalid_format.
(** validated_string.hpp:120-126 *)
Definition valid_from (from : outcome vstr) : outcome vstr :=
  do v <- from ;; if vs_has_value v then Ok v else Err invalid_format.
