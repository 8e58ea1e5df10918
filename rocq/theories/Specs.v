(** Model of include/emio/detail/format/specs.hpp and of the part of
    include/emio/detail/format/formatter.hpp that reads and checks
    specifications. *)
From Verif Require Import Base Conversion Reader.

(** specs.hpp:33 *)
Inductive alignment := align_none | align_left | align_center | align_right.

(** specs.hpp:29-31: no_sign is the character 0, no_precision is -1, no_type is
    the character 0. *)
Notation no_sign := 0 (only parsing).
Notation no_precision := (-1) (only parsing).
Notation no_type := 0 (only parsing).

(** specs.hpp:35-44 *)
Record format_specs := mk_specs {
  sp_fill : Z;
  sp_align : alignment;
  sp_sign : Z;
  sp_alternate_form : bool;
  sp_zero_flag : bool;
  sp_width : Z;
  sp_precision : Z;
  sp_type : Z
}.

Definition default_specs : format_specs :=
  mk_specs 32 align_none no_sign false false 0 no_precision no_type.

Definition set_fill s x := mk_specs x (sp_align s) (sp_sign s) (sp_alternate_form s) (sp_zero_flag s) (sp_width s) (sp_precision s) (sp_type s).
Definition set_align s x := mk_specs (sp_fill s) x (sp_sign s) (sp_alternate_form s) (sp_zero_flag s) (sp_width s) (sp_precision s) (sp_type s).
Definition set_sign s x := mk_specs (sp_fill s) (sp_align s) x (sp_alternate_form s) (sp_zero_flag s) (sp_width s) (sp_precision s) (sp_type s).
Definition set_alternate s x := mk_specs (sp_fill s) (sp_align s) (sp_sign s) x (sp_zero_flag s) (sp_width s) (sp_precision s) (sp_type s).
Definition set_zero s x := mk_specs (sp_fill s) (sp_align s) (sp_sign s) (sp_alternate_form s) x (sp_width s) (sp_precision s) (sp_type s).
Definition set_width s x := mk_specs (sp_fill s) (sp_align s) (sp_sign s) (sp_alternate_form s) (sp_zero_flag s) x (sp_precision s) (sp_type s).
Definition set_precision s x := mk_specs (sp_fill s) (sp_align s) (sp_sign s) (sp_alternate_form s) (sp_zero_flag s) (sp_width s) x (sp_type s).
Definition set_type s x := mk_specs (sp_fill s) (sp_align s) (sp_sign s) (sp_alternate_form s) (sp_zero_flag s) (sp_width s) (sp_precision s) x.

(** The three alignment characters. *)
Definition align_of (c : Z) : option alignment :=
  if c =? 60 then Some align_left
  else if c =? 94 then Some align_center
  else if c =? 62 then Some align_right
  else None.

(** [.assume_value()] on a result (result.hpp:263-298): undefined on an error. *)
Definition assume {A S} (o : outcome A * S) : outcome A * S :=
  match o with (Err _, s) => (Undef, s) | o => o end.

(** A peek is a call that leaves the reader as it is. *)
Definition peek_s (r : reader) : outcome Z * reader := (peek r, r).

(** detail/format/formatter.hpp:584-590 and 662-668: the zero flag is ignored
    when an alignment is given. *)
Definition apply_zero_flag (s : format_specs) : format_specs :=
  match sp_align s with
  | align_none => set_zero (set_align (set_fill s 48) align_right) true
  | _ => s
  end.

(** detail/format/formatter.hpp:542-621. The specs are an in-out parameter. *)
Definition validate_format_specs (r : reader) (s : format_specs) : outcome format_specs * reader :=
  sdo (c, r) <- read_char r ;;
  if c =? ch_rbrace then (Ok s, r)
  else if c =? ch_lbrace then (Err invalid_format, r)
  else
    sdo (c2, r) <- peek_s r ;;
    sdo (cs, r) <-
      match align_of c2 with
      | Some a => let r := pop r 1 in
                  sdo (c', r) <- read_char r ;; (Ok (c', set_fill (set_align s a) c), r)
      | None =>
        match align_of c with
        | Some a => sdo (c', r) <- read_char r ;; (Ok (c', set_align s a), r)
        | None => (Ok (c, s), r)
        end
      end ;;
    let (c, s) := cs in
    sdo (cs, r) <-
      (if (c =? ch_plus) || (c =? ch_minus) || (c =? 32) then
         sdo (c', r) <- read_char r ;; (Ok (c', set_sign s c), r)
       else (Ok (c, s), r)) ;;
    let (c, s) := cs in
    sdo (cs, r) <-
      (if c =? ch_hash then sdo (c', r) <- read_char r ;; (Ok (c', set_alternate s true), r)
       else (Ok (c, s), r)) ;;
    let (c, s) := cs in
    sdo (cs, r) <-
      (if c =? 48 then sdo (c', r) <- read_char r ;; (Ok (c', apply_zero_flag s), r)
       else (Ok (c, s), r)) ;;
    let (c, s) := cs in
    sdo (cs, r) <-
      (if isdigit c then
         let r := unpop r 1 in
         sdo (w, r) <- parse_int fwrapv u32 10 r ;;
         if imax i32 <? w then (Err invalid_format, r)
         else sdo (c', r) <- read_char r ;; (Ok (c', set_width s w), r)
       else (Ok (c, s), r)) ;;
    let (c, s) := cs in
    sdo (cs, r) <-
      (if c =? 46 then
         if match peek r with Ok n => negb (isdigit n) | _ => false end then (Err invalid_format, r)
         else
           sdo (p, r) <- parse_int fwrapv u32 10 r ;;
           if imax i32 <? p then (Err invalid_format, r)
           else sdo (c', r) <- read_char r ;; (Ok (c', set_precision s p), r)
       else (Ok (c, s), r)) ;;
    let (c, s) := cs in
    sdo (cs, r) <-
      (if isalpha c || (c =? ch_question) then sdo (c', r) <- read_char r ;; (Ok (c', set_type s c), r)
       else (Ok (c, s), r)) ;;
    let (c, s) := cs in
    if c =? ch_rbrace then (Ok s, r) else (Err invalid_format, r).

(** detail/format/formatter.hpp:623-684. The conversions to int32_t of the
    parsed width and precision are modulo 2^32. *)
Definition parse_format_specs (r : reader) (s : format_specs) : outcome format_specs * reader :=
  sdo (c, r) <- assume (read_char r) ;;
  if c =? ch_rbrace then (Ok s, r)
  else
    sdo (c2, r) <- assume (peek_s r) ;;
    sdo (cs, r) <-
      match align_of c2 with
      | Some a => let r := pop r 1 in
                  sdo (c', r) <- assume (read_char r) ;; (Ok (c', set_fill (set_align s a) c), r)
      | None =>
        match align_of c with
        | Some a => sdo (c', r) <- assume (read_char r) ;; (Ok (c', set_align s a), r)
        | None => (Ok (c, s), r)
        end
      end ;;
    let (c, s) := cs in
    sdo (cs, r) <-
      (if (c =? ch_plus) || (c =? ch_minus) || (c =? 32) then
         sdo (c', r) <- assume (read_char r) ;; (Ok (c', set_sign s c), r)
       else (Ok (c, s), r)) ;;
    let (c, s) := cs in
    sdo (cs, r) <-
      (if c =? ch_hash then sdo (c', r) <- assume (read_char r) ;; (Ok (c', set_alternate s true), r)
       else (Ok (c, s), r)) ;;
    let (c, s) := cs in
    sdo (cs, r) <-
      (if c =? 48 then sdo (c', r) <- assume (read_char r) ;; (Ok (c', apply_zero_flag s), r)
       else (Ok (c, s), r)) ;;
    let (c, s) := cs in
    sdo (cs, r) <-
      (if isdigit c then
         let r := unpop r 1 in
         sdo (w, r) <- assume (parse_int fwrapv u32 10 r) ;;
         sdo (c', r) <- assume (read_char r) ;; (Ok (c', set_width s (wrap i32 w)), r)
       else (Ok (c, s), r)) ;;
    let (c, s) := cs in
    sdo (cs, r) <-
      (if c =? 46 then
         sdo (p, r) <- assume (parse_int fwrapv u32 10 r) ;;
         sdo (c', r) <- assume (read_char r) ;; (Ok (c', set_precision s (wrap i32 p)), r)
       else (Ok (c, s), r)) ;;
    let (c, s) := cs in
    if isalpha c || (c =? ch_question) then (Ok (set_type s c), pop r 1)
    else (Ok s, r).

(** ** Checks *)

(** detail/format/formatter.hpp:686-704 *)
Definition check_integral_specs (s : format_specs) : outcome unit :=
  if negb (sp_precision s =? no_precision) then Err invalid_format
  else if mem [no_type; 100; 120; 88; 98; 66; 99; 111; 79] (sp_type s) then Ok tt
  else Err invalid_format.

(** detail/format/formatter.hpp:706-711 *)
Definition check_unsigned_specs (s : format_specs) : outcome unit :=
  if sp_sign s =? no_sign then Ok tt else Err invalid_format.

(** detail/format/formatter.hpp:713-721 *)
Definition check_bool_specs (s : format_specs) : outcome unit :=
  if negb (sp_type s =? no_type) && negb (sp_type s =? 115) then check_integral_specs s
  else if negb (sp_precision s =? no_precision) then Err invalid_format
  else Ok tt.

(** detail/format/formatter.hpp:723-731 *)
Definition check_char_specs (s : format_specs) : outcome unit :=
  if negb (sp_type s =? no_type) && negb (sp_type s =? 99) && negb (sp_type s =? ch_question) then check_integral_specs s
  else if sp_alternate_form s || negb (sp_sign s =? no_sign) || sp_zero_flag s || negb (sp_precision s =? no_precision)
       then Err invalid_format
  else Ok tt.

(** detail/format/formatter.hpp:733-741 *)
Definition check_pointer_specs (s : format_specs) : outcome unit :=
  if negb (sp_type s =? no_type) && negb (sp_type s =? 112) then Err invalid_format
  else if sp_alternate_form s || negb (sp_sign s =? no_sign) || sp_zero_flag s || negb (sp_precision s =? no_precision)
       then Err invalid_format
  else Ok tt.

(** detail/format/formatter.hpp:743-762 *)
Definition check_floating_point_specs (s : format_specs) : outcome unit :=
  if 1100 <? sp_precision s then Err invalid_format
  else if mem [no_type; 102; 70; 101; 69; 103; 71] (sp_type s) then Ok tt
  else Err invalid_format.

(** detail/format/formatter.hpp:764-771 *)
Definition check_string_specs (s : format_specs) : outcome unit :=
  if sp_alternate_form s || negb (sp_sign s =? no_sign) || sp_zero_flag s ||
     (negb (sp_precision s =? no_precision) && (sp_type s =? ch_question)) ||
     (negb (sp_type s =? no_type) && negb (sp_type s =? 115) && negb (sp_type s =? ch_question))
  then Err invalid_format
  else Ok tt.

(** ** Argument types

    The core types (detail/format/formatter.hpp:822-826); every other built-in
    type is formatted through one of them (unified_type, 835-874). *)
Inductive cty := TBool | TChar | TInt (t : ity) | TDouble | TPtr | TStr.

(** formatter.hpp:93-115 *)
Definition check_specs (t : cty) (s : format_specs) : outcome unit :=
  match t with
  | TBool => check_bool_specs s
  | TChar => check_char_specs s
  | TPtr => check_pointer_specs s
  | TInt i => do _ <- check_integral_specs s ;; if signed i then Ok tt else check_unsigned_specs s
  | TDouble => check_floating_point_specs s
  | TStr => check_string_specs s
  end.
Definition validate_core (t : cty) (r : reader) : outcome unit * reader :=
  sdo (s, r) <- validate_format_specs r default_specs ;;
  (check_specs t s, r).
