(** Specification of formatted fields: padding, signs, integers, strings,
    characters, bools and pointers as text. *)
From Verif Require Import Base SpecNum SpecEscape Specs.

(** What reading a specification guarantees (proved in SpecsProofs.v): width and
    precision are non-negative 32 bit numbers (precision -1: none given), the
    sign is one of those allowed, and the zero flag is only kept without
    alignment and then means zeros on the left. *)
Definition specs_ok (s : format_specs) : Prop :=
  is_byte (sp_fill s) /\
  0 <= sp_width s < 2 ^ 31 /\ -1 <= sp_precision s < 2 ^ 31 /\
  In (sp_sign s) [no_sign; 43; 45; 32] /\
  (sp_zero_flag s = true -> sp_fill s = 48 /\ sp_align s = align_right).

(** [out] is [body] brought to at least the width with [fill] on the side(s) the
    alignment demands; with an odd number centred text gets more on its right. *)
Definition is_padded (fill : Z) (a : alignment) (width : Z) (body out : list Z) : Prop :=
  exists l r, out = repeat fill l ++ body ++ repeat fill r /\
    Z.of_nat (length out) = Z.max width (Z.of_nat (length body)) /\
    match a with
    | align_left => l = O
    | align_right => r = O
    | align_center => r = l \/ r = S l
    | align_none => False
    end.

(** The alignment of a field: the one given or the default of the type. *)
Definition field_align (default : alignment) (s : format_specs) : alignment :=
  match sp_align s with align_none => default | a => a end.

Definition field (default : alignment) (s : format_specs) (body out : list Z) : Prop :=
  is_padded (sp_fill s) (field_align default s) (sp_width s) body out.

(** The sign: always for negative numbers, on demand for the others. *)
Definition sign_text (s : format_specs) (negative : bool) : list Z :=
  if negative then [45]
  else if sp_sign s =? 43 then [43]
  else if sp_sign s =? 32 then [32]
  else [].

(** A number: [head] is sign and base prefix. The zero flag puts zeros between
    the head and the rest. *)
Definition number_field (s : format_specs) (head rest out : list Z) : Prop :=
  if sp_zero_flag s then
    exists n, out = head ++ repeat 48 n ++ rest /\
              Z.of_nat (length out) = Z.max (sp_width s) (Z.of_nat (length (head ++ rest)))
  else field align_right s (head ++ rest) out.

(** The presentation types of integers: type, prefix, base, upper case. *)
Definition int_types : list (Z * list Z * Z * bool) :=
  [(0, str "", 10, false); (100, str "", 10, false);
   (120, str "0x", 16, false); (88, str "0X", 16, true);
   (98, str "0b", 2, false); (66, str "0B", 2, false);
   (111, str "0", 8, false)].

(** A formatted integer. The prefix of octal zero is left out. *)
Definition integer_field (s : format_specs) (v : Z) (out : list Z) : Prop :=
  exists prefix base upper digits,
    In (sp_type s, prefix, base, upper) int_types /\
    canonical_numeral base upper (Z.abs v) digits /\
    number_field s
      (sign_text s (v <? 0) ++
       (if sp_alternate_form s && negb ((sp_type s =? 111) && (v =? 0)) then prefix else []))
      digits out.

(** An integer printed as a character: the character with that code modulo 256. *)
Definition code_field (s : format_specs) (v : Z) (out : list Z) : Prop :=
  exists c, is_byte c /\ (exists k, v = c + 256 * k) /\ field align_left s [c] out.

Definition any_int_field (s : format_specs) (v : Z) (out : list Z) : Prop :=
  if sp_type s =? 99 then code_field s v out else integer_field s v out.

(** Strings. *)
Definition string_body (s : format_specs) (text body : list Z) : Prop :=
  if sp_type s =? ch_question then body = [ch_quote] ++ escape_text text ++ [ch_quote]
  else if sp_precision s =? -1 then body = text
  else exists rest, text = body ++ rest /\
       Z.of_nat (length body) = Z.min (sp_precision s) (Z.of_nat (length text)).
Definition string_field (s : format_specs) (text out : list Z) : Prop :=
  exists body, string_body s text body /\ field align_left s body out.

(** Characters. *)
Definition char_body (s : format_specs) (c : Z) : list Z :=
  if sp_type s =? ch_question then [ch_apos] ++ escape c ++ [ch_apos] else [c].
Definition char_field (s : format_specs) (c : Z) (out : list Z) : Prop :=
  if (sp_type s =? 0) || (sp_type s =? 99) || (sp_type s =? ch_question) then
    field align_left s (char_body s c) out
  else any_int_field s c out.

(** Bools. *)
Definition bool_field (s : format_specs) (v : bool) (out : list Z) : Prop :=
  if (sp_type s =? 0) || (sp_type s =? 115) then field align_left s (if v then str "true" else str "false") out
  else any_int_field s (if v then 1 else 0) out.

(** Pointers: the address in lower case hexadecimal. *)
Definition pointer_field (s : format_specs) (p : Z) (out : list Z) : Prop :=
  exists digits, canonical_numeral 16 false p digits /\
    field align_right s (str "0x" ++ digits) out.
