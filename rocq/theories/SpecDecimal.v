(** Specification of floating-point numbers as text. *)
From Verif Require Import Base SpecNum SpecFloat.

(** No needless zeros in front. *)
Definition plain_integer (i : list Z) : Prop :=
  all_digits i /\ i <> [] /\ (i = [48] \/ hd 48 i <> 48).

(** [i.f]; without [f] the point is left out unless demanded ([point]). *)
Definition mantissa_text (point : bool) (i f : list Z) : list Z :=
  i ++ (if point || negb (length f =? 0)%nat then [46] ++ f else []).

(** The exponent with its sign and at least two digits. *)
Definition exponent_text (upper : bool) (x : Z) (t : list Z) : Prop :=
  exists n digits, canonical_numeral 10 false (Z.abs x) digits /\
    t = [if upper then 69 else 101] ++ [if x <? 0 then 45 else 43] ++ repeat 48 n ++ digits /\
    (n + length digits = Nat.max 2 (length digits))%nat.

(** Fixed notation [i.f] or, with an exponent [x], scientific notation [c.fe+x]. *)
Definition decimal_text (point upper : bool) (scientific : option Z) (i f body : list Z) : Prop :=
  plain_integer i /\ all_digits f /\
  match scientific with
  | None => body = mantissa_text point i f
  | Some x => length i = 1%nat /\ exists t, exponent_text upper x t /\ body = mantissa_text point i f ++ t
  end.

(** The text denotes [text_value * 10^-text_scale]. *)
Definition text_value (i f : list Z) : Z := digits_value (i ++ f).
Definition text_scale (scientific : option Z) (f : list Z) : Z :=
  Z.of_nat (length f) - match scientific with Some x => x | None => 0 end.

(** [d * 10^-q = d' * 10^-q'] *)
Definition same_decimal (d q d' q' : Z) : Prop := d * pos_pow 10 (q' - q) = d' * pos_pow 10 (q - q').

(** [d * 10^-q] is nearer to the magnitude of a double than [d' * 10^-q'], or as
    near and not below it. *)
Definition nearest (d q d' q' bits : Z) : Prop :=
  distance d q bits * pos_pow 10 q' < distance d' q' bits * pos_pow 10 q \/
  (distance d q bits * pos_pow 10 q' = distance d' q' bits * pos_pow 10 q /\
   d' * pos_pow 10 (q - q') <= d * pos_pow 10 (q' - q)).

(** The exponent of the first digit: 10^x <= d * 10^-q < 10^(x+1); 0 for zero. *)
Definition first_exponent (d q x : Z) : Prop :=
  if d =? 0 then x = 0
  else pos_pow 10 (x + q) <= d * pos_pow 10 (- (x + q)) < 10 * pos_pow 10 (x + q).

Definition no_trailing_zero (f : list Z) : Prop := f = [] \/ last f 48 <> 48.

(** The magnitude of a double times 10^q, rounded to the nearest integer. *)
Definition rounded (bits q : Z) : Z := round_half_even (scaled_num (double_m bits) (double_e bits) q) (scaled_den (double_e bits) q).

(** [d * 10^-q] is the magnitude rounded to [n] significant digits. *)
Definition significant_rounding (bits n d q : Z) : Prop :=
  (double_m bits = 0 /\ d = 0) \/
  exists k, magnitude (double_m bits) (double_e bits) k /\ same_decimal d q (rounded bits (n - k)) (n - k).

(** The magnitude is below 10^-j but is rounded to it ([n] decimals, 1 <= j < n). *)
Definition rounds_up_to_power (bits n : Z) : Prop :=
  exists j, 1 <= j < n /\ scaled_num (double_m bits) (double_e bits) j < scaled_den (double_e bits) j /\ rounded bits n = 10 ^ (n - j).
