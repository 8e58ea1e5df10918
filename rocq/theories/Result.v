(** Model of include/emio/result.hpp (class result) and of the two macros of
    include/emio/detail/predef.hpp.  The rest of the model uses [outcome]; the
    class is modelled here with its actual two fields. *)
From Verif Require Import Base.

(** result.hpp:41-48: enumerators have the values 1.. ; 0 is [err{}]. *)
Definition err_code (e : err) : Z :=
  match e with
  | eof => 1
  | invalid_argument => 2
  | invalid_data => 3
  | out_of_range => 4
  | invalid_format => 5
  end.
Definition no_err : Z := 0.

(** result.hpp:55-74 *)
Definition to_string_err (code : Z) : outcome (list Z) :=
  if code =? no_err then Ok (str "no error")
  else if code =? 1 then Ok (str "eof")
  else if code =? 2 then Ok (str "invalid argument")
  else if code =? 3 then Ok (str "invalid data")
  else if code =? 4 then Ok (str "out of range")
  else if code =? 5 then Ok (str "invalid format")
  else Abort.

(** result.hpp:152-391: the fields value_ and error_ *)
Record result (A : Type) := mk_result { r_value : option A; r_error : Z }.
Arguments mk_result {A}.
Arguments r_value {A}.
Arguments r_error {A}.

(** result.hpp:163-166 *)
Definition of_value {A} (a : A) : result A := mk_result (Some a) no_err.
(** result.hpp:172-174; the assertion is active in development builds only *)
Definition of_error {A} (code : Z) : result A := mk_result None code.

(** result.hpp:180-198 *)
Definition has_value {A} (r : result A) : bool := match r_value r with Some _ => true | None => false end.
Definition has_error {A} (r : result A) : bool := negb (has_value r).

(** result.hpp:205-298: dereferencing an empty optional is undefined *)
Definition assume_value {A} (r : result A) : outcome A :=
  match r_value r with Some a => Ok a | None => Undef end.

(** result.hpp:304-343: throws or terminates *)
Definition result_value {A} (r : result A) : outcome A :=
  match r_value r with Some a => Ok a | None => Abort end.

(** result.hpp:350-353 *)
Definition assume_error {A} (r : result A) : Z := r_error r.

(** result.hpp:360-366 *)
Definition result_error {A} (r : result A) : outcome Z :=
  if has_error r then Ok (r_error r) else Abort.

(** result.hpp:373-386 *)
Definition value_or {A} (r : result A) (d : A) : A := match r_value r with Some a => a | None => d end.

(** result.hpp:399-500: result<void> has error_ only *)
Record vresult := mk_vresult { v_error : Z }.
Definition vsuccess : vresult := mk_vresult no_err.
Definition vof_error (code : Z) : vresult := mk_vresult code.
Definition vhas_value (r : vresult) : bool := v_error r =? no_err.
Definition vhas_error (r : vresult) : bool := negb (vhas_value r).
Definition vvalue (r : vresult) : outcome unit := if vhas_value r then Ok tt else Abort.
Definition vassume_error (r : vresult) : Z := v_error r.
Definition verror (r : vresult) : outcome Z := if vhas_error r then Ok (v_error r) else Abort.
(** result.hpp:424-430 *)
Definition vof_result {A} (r : result A) : vresult :=
  if has_error r then mk_vresult (assume_error r) else mk_vresult no_err.

(** result.hpp:525-539 *)
Definition result_eq {A} (eqb : A -> A -> bool) (x y : result A) : outcome bool :=
  if negb (Bool.eqb (has_value x) (has_value y)) then Ok false
  else if has_value x then do a <- assume_value x ;; do b <- assume_value y ;; Ok (eqb a b)
  else Ok (assume_error x =? assume_error y).
Definition vresult_eq (x y : vresult) : outcome bool :=
  if negb (Bool.eqb (vhas_value x) (vhas_value y)) then Ok false
  else if vhas_value x then Ok true
  else Ok (vassume_error x =? vassume_error y).
(** result.hpp:550-557 *)
Definition result_eq_value {A} (eqb : A -> A -> bool) (x : result A) (b : A) : outcome bool :=
  if has_value x then do a <- result_value x ;; Ok (eqb a b) else Ok false.
(** result.hpp:568-571 *)
Definition result_eq_err {A} (x : result A) (code : Z) : outcome bool :=
  if has_error x then do e <- result_error x ;; Ok (e =? code) else Ok false.

(** predef.hpp:30-35, EMIO_TRY in a function returning result<B> *)
Definition try_value {A B} (x : result A) (k : A -> outcome (result B)) : outcome (result B) :=
  if has_error x then Ok (of_error (assume_error x))
  else do a <- assume_value x ;; k a.
(** predef.hpp:23-28, EMIO_TRYV with a result<void> in a function returning result<B> *)
Definition tryv {B} (x : vresult) (k : outcome (result B)) : outcome (result B) :=
  if vhas_error x then Ok (of_error (vassume_error x)) else k.

(** A function made of calls each guarded by EMIO_TRY, returning all values. *)
Fixpoint try_all {A} (xs : list (result A)) : outcome (result (list A)) :=
  match xs with
  | [] => Ok (of_value [])
  | x :: xs => try_value x (fun a =>
      do r <- try_all xs ;; try_value r (fun l => Ok (of_value (a :: l))))
  end.
