(** Common vocabulary of the model: bytes, errors, outcomes, memory cells. *)
From Coq Require Export String Ascii.
From Coq Require Export ZArith List Bool Lia.
Export ListNotations.
Open Scope Z_scope.

(** include/emio/result.hpp:41-48, [enum class err]. *)
Inductive err := eof | invalid_argument | invalid_data | out_of_range | invalid_format.

Definition err_eqb (a b : err) : bool :=
  match a, b with
  | eof, eof | invalid_argument, invalid_argument | invalid_data, invalid_data
  | out_of_range, out_of_range | invalid_format, invalid_format => true
  | _, _ => false
  end.

(** Outcome of a C++ call: a [result<T>] holding a value or an error
    (include/emio/result.hpp:143-391), undefined behaviour (also used for a
    loop that does not terminate), or an abnormal end ([std::terminate] or a
    [bad_result_access] exception leaving the call). *)
Inductive outcome (A : Type) :=
| Ok (a : A)
| Err (e : err)
| Undef
| Abort.
Arguments Ok {A} a.
Arguments Err {A} e.
Arguments Undef {A}.
Arguments Abort {A}.

(** EMIO_TRY / EMIO_TRYV (include/emio/detail/predef.hpp:23-35). *)
Definition bind {A B} (o : outcome A) (f : A -> outcome B) : outcome B :=
  match o with
  | Ok a => f a
  | Err e => Err e
  | Undef => Undef
  | Abort => Abort
  end.

(** The same for calls that also change an object of type [S]. *)
Definition sbind {S A B} (o : outcome A * S) (f : A -> S -> outcome B * S) : outcome B * S :=
  match o with
  | (Ok a, s) => f a s
  | (Err e, s) => (Err e, s)
  | (Undef, s) => (Undef, s)
  | (Abort, s) => (Abort, s)
  end.

Notation "'do' x <- o ;; k" := (bind o (fun x => k))
  (at level 200, x name, o at level 100, k at level 200, right associativity).
Notation "'sdo' ( x , s ) <- o ;; k" := (sbind o (fun x s => k))
  (at level 200, x name, s name, o at level 100, k at level 200, right associativity).

(** [.value()] on a result: throws or terminates on an error
    (include/emio/result.hpp:304-343). *)
Definition value_of {A} (o : outcome A) : outcome A :=
  match o with Err _ => Abort | o => o end.

(** A [char] is its object representation, an integer in 0..255. *)
Definition is_byte (c : Z) : Prop := 0 <= c < 256.
Definition is_byteb (c : Z) : bool := (0 <=? c) && (c <? 256).

(** The value of a (signed) [char] in an integer comparison. *)
Definition schar (c : Z) : Z := if c <? 128 then c else c - 256.

(** String literals. *)
Fixpoint str (s : string) : list Z :=
  match s with
  | EmptyString => nil
  | String a s => Z.of_N (N_of_ascii a) :: str s
  end.

Arguments str s%string.

(** Character constants used in the code. *)
Notation ch_quote := 34 (only parsing).      (* double quote *)
Notation ch_hash := 35 (only parsing).       (* '#'  *)
Notation ch_apos := 39 (only parsing).       (* apostrophe *)
Notation ch_plus := 43 (only parsing).       (* '+'  *)
Notation ch_minus := 45 (only parsing).      (* '-'  *)
Notation ch_dot := 46 (only parsing).        (* '.'  *)
Notation ch_0 := 48 (only parsing).          (* '0'  *)
Notation ch_9 := 57 (only parsing).          (* '9'  *)
Notation ch_colon := 58 (only parsing).      (* ':'  *)
Notation ch_lt := 60 (only parsing).         (* '<'  *)
Notation ch_gt := 62 (only parsing).         (* '>'  *)
Notation ch_question := 63 (only parsing).   (* '?'  *)
Notation ch_backslash := 92 (only parsing).  (* '\\' *)
Notation ch_caret := 94 (only parsing).      (* '^'  *)
Notation ch_lbrace := 123 (only parsing).    (* '{'  *)
Notation ch_rbrace := 125 (only parsing).    (* '}'  *)
Notation ch_space := 32 (only parsing).      (* ' '  *)

(** Memory cells: [store l i c] writes one cell; [None] is a store outside the
    object (undefined behaviour). *)
Definition store (l : list Z) (i : nat) (c : Z) : option (list Z) :=
  if (i <? length l)%nat then Some (firstn i l ++ c :: skipn (S i) l) else None.

(** Writes a whole list of cells at offset [i] (memcpy/memset style). *)
Definition store_list (l : list Z) (i : nat) (d : list Z) : option (list Z) :=
  if (i + length d <=? length l)%nat
  then Some (firstn i l ++ d ++ skipn (i + length d) l) else None.

Definition obind {A B} (o : option A) (f : A -> option B) : option B :=
  match o with Some a => f a | None => None end.
Notation "'odo' x <- o ;; k" := (obind o (fun x => k))
  (at level 200, x pattern, o at level 100, k at level 200, right associativity).

(** Two's complement integer types. *)
Record ity := { bits : Z; signed : bool }.
Definition imin (t : ity) : Z := if signed t then - 2 ^ (bits t - 1) else 0.
Definition imax (t : ity) : Z := if signed t then 2 ^ (bits t - 1) - 1 else 2 ^ bits t - 1.
Definition in_range (t : ity) (z : Z) : Prop := imin t <= z <= imax t.
Definition in_rangeb (t : ity) (z : Z) : bool := (imin t <=? z) && (z <=? imax t).

Definition i8 := {| bits := 8; signed := true |}.
Definition i16 := {| bits := 16; signed := true |}.
Definition i32 := {| bits := 32; signed := true |}.
Definition i64 := {| bits := 64; signed := true |}.
Definition u8 := {| bits := 8; signed := false |}.
Definition u16 := {| bits := 16; signed := false |}.
Definition u32 := {| bits := 32; signed := false |}.
Definition u64 := {| bits := 64; signed := false |}.
Definition is_ity (t : ity) : Prop := In t [i8; i16; i32; i64; u8; u16; u32; u64].

(** Conversion of an integer to an integer type (C++20: modulo 2^n). *)
Definition wrap (t : ity) (z : Z) : Z :=
  let m := z mod 2 ^ bits t in
  if signed t && (2 ^ (bits t - 1) <=? m) then m - 2 ^ bits t else m.

(** What the abstract machine does on signed overflow: ISO C++ leaves it
    undefined, [-fwrapv] wraps. *)
Inductive overflow_mode := iso | fwrapv.

(** Result of an arithmetic operation in type [t] whose exact result is [z].
    [t] has at least 32 bits, so there is no integral promotion. *)
Definition arith (m : overflow_mode) (t : ity) (z : Z) : outcome Z :=
  if signed t then
    if in_rangeb t z then Ok z
    else match m with iso => Undef | fwrapv => Ok (wrap t z) end
  else Ok (wrap t z).
