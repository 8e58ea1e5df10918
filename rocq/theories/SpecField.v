(** Specification of the field of an argument of any core type. *)
From Verif Require Import Base SpecNum SpecEscape SpecFloat Specs FloatArg SpecFormat SpecDecimal.

(** Texts of 2^31 - 2 characters and more (escaped) are left out. *)
Definition arg_fits (a : carg) : Prop :=
  match a with AStr t => Z.of_nat (length (escape_text t)) + 2 < 2 ^ 31 | _ => True end.

(** A value with a specification that was read and checked. *)
Definition arg_specs (a : carg) (s : format_specs) : Prop :=
  carg_ok a /\ arg_fits a /\ specs_ok s /\ check_specs (type_of a) s = Ok tt.

(** ** Floating-point numbers

    The number in front of padding and sign, for each presentation type. *)

(** Type 0 without precision: the shortest decimal that reads back, the nearest
    (of two the greater) of the shortest. *)
Definition shortest_body (s : format_specs) (bits : Z) (body : list Z) : Prop :=
  exists i f x sig a z, let sci := if (-4 <=? x) && (x <? 16) then None else Some x in
    decimal_text (sp_alternate_form s) false sci i f body /\ no_trailing_zero f /\
    first_exponent (text_value i f) (text_scale sci f) x /\
    i ++ f = repeat 48 a ++ sig ++ repeat 48 z /\
    (double_m bits = 0 -> i = [48] /\ f = []) /\
    (double_m bits <> 0 -> reads_back (text_value i f) (text_scale sci f) bits /\
       (forall d q, 0 < d < 10 ^ (Z.of_nat (length sig) - 1) -> ~ reads_back d q bits) /\
       (forall d q, 0 < d < 10 ^ Z.of_nat (length sig) -> reads_back d q bits -> nearest (text_value i f) (text_scale sci f) d q bits)).

(** e and E: one digit, the point, as many decimals as demanded. *)
Definition exp_body (s : format_specs) (bits : Z) (body : list Z) : Prop :=
  let N := if sp_precision s =? -1 then 6 else sp_precision s in
  exists i f x,
    decimal_text (sp_alternate_form s) (sp_type s =? 69) (Some x) i f body /\ Z.of_nat (length f) = N /\
    first_exponent (text_value i f) (text_scale (Some x) f) x /\
    significant_rounding bits (N + 1) (text_value i f) (text_scale (Some x) f).

(** f and F: as many decimals as demanded. *)
Definition fixed_body (s : format_specs) (bits : Z) (body : list Z) : Prop :=
  let N := if sp_precision s =? -1 then 6 else sp_precision s in
  exists i f,
    decimal_text (sp_alternate_form s) (sp_type s =? 70) None i f body /\
    Z.of_nat (length f) = N /\ text_value i f = rounded bits N.

(** The same with a decimal missing. *)
Definition fixed_body_short (s : format_specs) (bits : Z) (body : list Z) : Prop :=
  let N := if sp_precision s =? -1 then 6 else sp_precision s in
  exists i f,
    decimal_text (sp_alternate_form s) (sp_type s =? 70) None i f body /\
    Z.of_nat (length f) = N - 1 /\ 10 * text_value i f = rounded bits N.

(** g, G and type 0 with a precision: as many significant digits as demanded,
    without trailing zeros unless demanded. *)
Definition general_body (s : format_specs) (bits : Z) (body : list Z) : Prop :=
  let P := if sp_precision s =? -1 then 6 else Z.max 1 (sp_precision s) in
  exists i f x, let sci := if (-4 <=? x) && (x <? P) then None else Some x in
    decimal_text (sp_alternate_form s) (sp_type s =? 71) sci i f body /\
    first_exponent (text_value i f) (text_scale sci f) x /\
    (sp_alternate_form s = false -> no_trailing_zero f) /\
    (sp_alternate_form s = true -> text_scale sci f = P - 1 - x) /\
    significant_rounding bits P (text_value i f) (text_scale sci f).

Definition double_body (s : format_specs) (bits : Z) (body : list Z) : Prop :=
  if (sp_type s =? 101) || (sp_type s =? 69) then exp_body s bits body
  else if (sp_type s =? 102) || (sp_type s =? 70) then fixed_body s bits body
  else if (sp_type s =? 0) && (sp_precision s =? -1) then shortest_body s bits body
  else general_body s bits body.

(** Infinities and nans. *)
Definition special_text (upper : bool) (bits : Z) (text : list Z) : Prop :=
  (is_infinity bits /\ text = if upper then str "INF" else str "inf") \/
  (is_nan bits /\ text = if upper then str "NAN" else str "nan").
Definition upper_type (s : format_specs) : bool := (sp_type s =? 69) || (sp_type s =? 70) || (sp_type s =? 71).

Definition special_field (s : format_specs) (bits : Z) (out : list Z) : Prop :=
  exists text, special_text (upper_type s) bits text /\
    is_padded (if sp_zero_flag s then 32 else sp_fill s) (field_align align_left s) (sp_width s)
      (sign_text s (bits_negative bits) ++ text) out.

Definition double_field (s : format_specs) (bits : Z) (out : list Z) : Prop :=
  if bits_exponent bits =? 2047 then special_field s bits out
  else exists body, double_body s bits body /\ number_field s (sign_text s (bits_negative bits)) body out.

(** ** Any argument *)
Definition core_field (s : format_specs) (a : carg) (out : list Z) : Prop :=
  match a with
  | ABool v => bool_field s v out
  | AChar c => char_field s c out
  | AInt _ v => any_int_field s v out
  | ADouble bits => double_field s bits out
  | APtr p => pointer_field s p out
  | AStr t => string_field s t out
  end.

(** The cases in which the code deviates: escaped characters of more than one
    character, rounding up to a power of ten. *)
Definition deviates (s : format_specs) (a : carg) : Prop :=
  match a with
  | AChar c => sp_type s = ch_question /\ length (escape c) <> 1%nat
  | ADouble bits => is_finite_double bits /\ (sp_type s = 102 \/ sp_type s = 70) /\
                    rounds_up_to_power bits (if sp_precision s =? -1 then 6 else sp_precision s)
  | _ => False
  end.

(** The integers and everything printed as one: the only ones with type O. *)
Definition takes_int (a : carg) : bool := match a with ABool _ | AChar _ | AInt _ _ => true | _ => false end.

(** ** Layout *)

(** Fields that are laid out as numbers: right aligned, zeros behind the sign. *)
Definition number_like (a : carg) (s : format_specs) : bool :=
  match a with
  | AInt _ _ => negb (sp_type s =? 99)
  | ABool _ => negb ((sp_type s =? 0) || (sp_type s =? 115) || (sp_type s =? 99))
  | AChar _ => negb ((sp_type s =? 0) || (sp_type s =? 63) || (sp_type s =? 99))
  | ADouble bits => negb (bits_exponent bits =? 2047)
  | APtr _ => true
  | AStr _ => false
  end.
Definition is_special (a : carg) : bool := match a with ADouble bits => bits_exponent bits =? 2047 | _ => false end.

(** The fill of a field: zeros are never put around infinities and nans. *)
Definition field_fill (a : carg) (s : format_specs) : Z := if is_special a && sp_zero_flag s then 32 else sp_fill s.
Definition default_align_of (a : carg) (s : format_specs) : alignment := if number_like a s then align_right else align_left.

(** The specification without width. *)
Definition natural (s : format_specs) : format_specs := set_zero (set_width s 0) false.

Definition same_but_width (s s' : format_specs) : Prop :=
  sp_fill s = sp_fill s' /\ sp_align s = sp_align s' /\ sp_sign s = sp_sign s' /\ sp_alternate_form s = sp_alternate_form s' /\
  sp_precision s = sp_precision s' /\ sp_type s = sp_type s'.
