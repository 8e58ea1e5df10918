(** Specification of the syntax of format specifications:
    [[fill]align][sign][#][0][width][.precision][type] closed by a brace. *)
From Verif Require Import Base SpecNum Specs.

Definition align_char (c : Z) (a : alignment) : Prop :=
  (c = 60 /\ a = align_left) \/ (c = 94 /\ a = align_center) \/ (c = 62 /\ a = align_right).

Definition align_part (t : list Z) (fill : Z) (a : alignment) : Prop :=
  (t = [] /\ fill = 32 /\ a = align_none) \/
  (exists c, t = [c] /\ align_char c a /\ fill = 32) \/
  (exists c, t = [fill; c] /\ align_char c a /\ fill <> 123 /\ fill <> 125).

Definition sign_part (t : list Z) (sign : Z) : Prop :=
  (t = [] /\ sign = 0) \/ (t = [sign] /\ In sign [43; 45; 32]).

(** An optional character. *)
Definition flag_part (c : Z) (t : list Z) (given : bool) : Prop := t = if given then [c] else [].

Definition is_letter (c : Z) : Prop := 65 <= c <= 90 \/ 97 <= c <= 122.
Definition type_part (t : list Z) (type : Z) : Prop :=
  (t = [] /\ type = 0) \/ (t = [type] /\ (is_letter type \/ type = 63)).

Definition digits_text (t : list Z) : Prop := t <> [] /\ Forall (fun c => 48 <= c <= 57) t.

(** [t] is read as the number [n]: exactly for numbers below 2^32; what larger
    numbers are read as is left open. *)
Definition number_read (t : list Z) (n : Z) : Prop :=
  digits_text t /\ 0 <= n < 2 ^ 31 /\ (denotes 10 t < 2 ^ 32 -> n = denotes 10 t).

(** A width after the zero flag may start with a zero. *)
Definition width_part (zero : bool) (t : list Z) (w : Z) : Prop :=
  (t = [] /\ w = 0) \/ (number_read t w /\ (zero = false -> hd 0 t <> 48)).
Definition precision_part (t : list Z) (p : Z) : Prop :=
  (t = [] /\ p = -1) \/ exists n, t = 46 :: n /\ number_read n p.

(** The zero flag counts without an alignment only. *)
Definition with_zero (zero : bool) (s : format_specs) : format_specs :=
  match zero, sp_align s with
  | true, align_none => set_zero (set_align (set_fill s 48) align_right) true
  | _, _ => s
  end.

(** [t] is a specification up to its brace and means [s]. *)
Definition spec_text (t : list Z) (s : format_specs) : Prop :=
  exists fa sg al ze wd pr ty fill align sign alt zero w p type,
    t = fa ++ sg ++ al ++ ze ++ wd ++ pr ++ ty ++ [125] /\
    align_part fa fill align /\ sign_part sg sign /\ flag_part 35 al alt /\ flag_part 48 ze zero /\
    width_part zero wd w /\ precision_part pr p /\ type_part ty type /\
    s = with_zero zero (mk_specs fill align sign alt false w p type).

(** The digits in [t] denote numbers below 2^32 only. *)
Definition small_numbers (t : list Z) : Prop :=
  forall a d b, t = a ++ d ++ b -> digits_text d -> denotes 10 d < 2 ^ 32.

(** ** Specifications allowed for an argument type *)
Definition int_type_letter (type : Z) : Prop := In type (0 :: str "dxXbBcoO").
Definition plain_specs (s : format_specs) : Prop :=
  sp_alternate_form s = false /\ sp_sign s = 0 /\ sp_zero_flag s = false.
Definition allowed (t : cty) (s : format_specs) : Prop :=
  match t with
  | TInt i => sp_precision s = -1 /\ int_type_letter (sp_type s) /\ (signed i = false -> sp_sign s = 0)
  | TBool => sp_precision s = -1 /\ (int_type_letter (sp_type s) \/ sp_type s = 115)
  | TChar => sp_precision s = -1 /\
             (int_type_letter (sp_type s) \/ sp_type s = 63) /\
             (sp_type s = 0 \/ sp_type s = 99 \/ sp_type s = 63 -> plain_specs s)
  | TPtr => sp_precision s = -1 /\ (sp_type s = 0 \/ sp_type s = 112) /\ plain_specs s
  | TDouble => sp_precision s <= 1100 /\ In (sp_type s) (0 :: str "eEfFgG")
  | TStr => (sp_type s = 0 \/ sp_type s = 115 \/ (sp_type s = 63 /\ sp_precision s = -1)) /\ plain_specs s
  end.
