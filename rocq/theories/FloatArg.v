(** Model of the part of include/emio/detail/format/formatter.hpp that writes
    floating-point numbers, and of [write_arg] for all core types. *)
From Verif Require Import Base Conversion Buffer Writer Specs FormatArg Dragon.

(** detail/format/formatter.hpp:191-196 *)
Inductive fp_format := fp_general | fp_exp | fp_fixed | fp_hex.

(** detail/format/formatter.hpp:198-203 *)
Record fp_format_specs := mk_fp { fp_precision : Z; fp_fmt : fp_format; fp_upper : bool; fp_showpoint : bool }.

(** detail/format/formatter.hpp:205-231.  The precision is an int16_t. *)
Definition parse_fp_format_specs (s : format_specs) : fp_format_specs :=
  let type := sp_type s in
  let precision := if (0 <=? sp_precision s) || (type =? no_type) then wrap i16 (sp_precision s) else 6 in
  let is_exp := (type =? 101) || (type =? 69) in
  let is_fixed := (type =? 102) || (type =? 70) in
  let is_hex := (type =? 97) || (type =? 65) in
  let fmt := if is_exp then fp_exp else if is_fixed then fp_fixed else if is_hex then fp_hex else fp_general in
  let precision := if is_exp then wrap i16 (precision + 1) else precision in
  let showpoint := sp_alternate_form s || ((is_exp || is_fixed) && negb (sp_precision s =? 0)) in
  let precision := if negb is_fixed && (precision =? 0) then 1 else precision in
  mk_fp precision fmt ((type =? 69) || (type =? 70) || (type =? 71)) showpoint.

(** A pointer into the write area: the cells and the position. *)
Definition put1 (ci : list Z * nat) (c : Z) : option (list Z * nat) :=
  let (cells, it) := ci in
  odo cells <- store cells it c ;; Some (cells, S it).

(** conversion.hpp:281-291; at run time a negative count is a huge memset *)
Definition fill_n (ci : list Z * nat) (count c : Z) : option (list Z * nat) :=
  let (cells, it) := ci in
  if count <? 0 then None
  else odo cells <- store_list cells it (repeat c (Z.to_nat count)) ;; Some (cells, (it + Z.to_nat count)%nat).

(** conversion.hpp:294-304, reading [src] from [off] *)
Definition copy_n (src : list Z) (off count : Z) (ci : list Z * nat) : option (list Z * nat) :=
  let (cells, it) := ci in
  if (count <? 0) || (off <? 0) || (Z.of_nat (length src) <? off + count) then None
  else
    let d := firstn (Z.to_nat count) (skipn (Z.to_nat off) src) in
    odo cells <- store_list cells it d ;; Some (cells, (it + Z.to_nat count)%nat).

(** detail/format/formatter.hpp:233-241 *)
Definition write_significand (ci : list Z * nat) (significand : list Z) (significand_size integral_size decimal_point : Z)
  : option (list Z * nat) :=
  odo ci <- copy_n significand 0 integral_size ci ;;
  if decimal_point =? 0 then Some ci
  else
    odo ci <- put1 ci decimal_point ;;
    copy_n significand integral_size (significand_size - integral_size) ci.

(** detail/format/formatter.hpp:243-260 *)
Definition write_exponent (ci : list Z * nat) (exp : Z) : option (list Z) :=
  odo (cells, it) <- put1 ci (if exp <? 0 then ch_minus else ch_plus) ;;
  let exp := if exp <? 0 then - exp else exp in
  if 100 <=? exp then
    odo (cells, _) <- write_decimal digit_fuel exp cells (it + 3) ;; Some cells
  else if exp <? 10 then
    odo (cells, it) <- put1 (cells, it) ch_0 ;;
    odo (cells, _) <- write_decimal digit_fuel exp cells (it + 1) ;; Some cells
  else
    odo (cells, _) <- write_decimal digit_fuel exp cells (it + 2) ;; Some cells.

(** Digits and exponent: dragon.hpp:60-63 *)
Definition fp_result := (list Z * Z)%type.

Definition leading_zeros (d : list Z) : nat :=
  (fix go d := match d with c :: d => if c =? 48 then S (go d) else O | [] => O end) d.

Section FloatArg.
  Context {K : Type} (vt : vtable K).

  (** detail/format/formatter.hpp:262-411.  The int computations stay far below
      2^31: digits, exponent and precision have at most 16 bits. *)
  Definition fp_write_decimal (b : bst K) (s : format_specs) (fp : fp_format_specs) (negative : bool) (f : fp_result)
    : outcome unit * bst K :=
    let (significand, f_exp) := f in
    let output_exp := f_exp - 1 in
    let abs_output_exp := Z.abs output_exp mod 2 ^ 16 in
    let has_sign := negative || (sp_sign s =? 32) || (sp_sign s =? ch_plus) in
    let general := match fp_fmt fp with fp_general => true | _ => false end in
    let fixed := match fp_fmt fp with fp_fixed => true | _ => false end in
    let significand_size := Z.of_nat (length significand) in
    let significand_size :=
      if general && (1 <? significand_size)
      then significand_size - Z.of_nat (leading_zeros (rev significand)) else significand_size in
    let use_exp_format :=
      match fp_fmt fp with
      | fp_exp => true
      | fp_general => (output_exp <? -4) || ((if 0 <? fp_precision fp then fp_precision fp else 16) <=? output_exp)
      | _ => false
      end in
    sdo (sign, b) <- try_write_sign vt b s negative ;;
    let sign_size := if negb (sign =? no_sign) then 1 else 0 in
    let put_sign (cells : list Z) := if negb (sign =? no_sign) then put1 (cells, O) sign else Some (cells, O) in
    let total_width := if has_sign then 1 else 0 in
    if use_exp_format then
      let num_zeros :=
        if fp_showpoint fp then Z.max 0 (fp_precision fp - significand_size) else 0 in
      let decimal_point := if negb (fp_showpoint fp) && (significand_size =? 1) then 0 else ch_dot in
      let exp_digits := if 100 <=? abs_output_exp then 3 else 2 in
      let num_digits := significand_size + num_zeros + (if negb (decimal_point =? 0) then 1 else 0) + 2 + exp_digits in
      write_padded vt align_right b s (Z.to_nat (total_width + num_digits)) (fun b =>
        sdo (a, b) <- get_write_area_of vt b (Z.to_nat (num_digits + sign_size)) ;;
        fill_area vt b a (fun cells =>
          odo ci <- put_sign cells ;;
          odo ci <- write_significand ci significand significand_size 1 decimal_point ;;
          odo ci <- fill_n ci num_zeros ch_0 ;;
          odo ci <- put1 ci (if fp_upper fp then 69 else 101) ;;
          write_exponent ci output_exp))
    else
      let '(integral_size, num_zeros, num_zeros_2, decimal_point, extra) :=
        if output_exp <? 0 then
          (0, abs_output_exp - 1,
           (if sp_alternate_form s && general then fp_precision fp - significand_size else 0), ch_dot, 2)
        else if significand_size <=? output_exp + 1 then
          let num_zeros := output_exp - significand_size + 1 in
          if fp_showpoint fp then
            (significand_size, num_zeros,
             (if sp_alternate_form s && general then fp_precision fp - significand_size - num_zeros
              else if num_zeros =? 0 then fp_precision fp else 0), ch_dot, 1)
          else (significand_size, num_zeros, 0, 0, 0)
        else
          let integral_size := output_exp + 1 in
          let num_zeros := if sp_alternate_form s && general then fp_precision fp - significand_size else 0 in
          let num_zeros :=
            if fixed && (integral_size <? significand_size) && (significand_size - integral_size <? fp_precision fp)
            then fp_precision fp - (significand_size - integral_size) else num_zeros in
          (integral_size, num_zeros, 0, ch_dot, 1) in
      let num_zeros := if num_zeros <? 0 then 0 else num_zeros in
      let num_zeros_2 := if num_zeros_2 <? 0 then 0 else num_zeros_2 in
      let num_digits := significand_size + extra + num_zeros + num_zeros_2 in
      write_padded vt align_right b s (Z.to_nat (total_width + num_digits)) (fun b =>
        sdo (a, b) <- get_write_area_of vt b (Z.to_nat (num_digits + sign_size)) ;;
        fill_area vt b a (fun cells =>
          odo ci <- put_sign cells ;;
          odo (cells, _) <-
            (if output_exp <? 0 then
               odo ci <- put1 ci ch_0 ;;
               odo ci <- put1 ci decimal_point ;;
               odo ci <- fill_n ci num_zeros ch_0 ;;
               odo ci <- copy_n significand 0 significand_size ci ;;
               fill_n ci num_zeros_2 ch_0
             else if significand_size <=? output_exp + 1 then
               odo ci <- copy_n significand 0 integral_size ci ;;
               odo ci <- fill_n ci num_zeros ch_0 ;;
               if negb (decimal_point =? 0) then
                 odo ci <- put1 ci ch_dot ;; fill_n ci num_zeros_2 ch_0
               else Some ci
             else
               odo ci <- write_significand ci significand significand_size integral_size decimal_point ;;
               fill_n ci num_zeros ch_0) ;;
          Some cells)).

  (** detail/format/formatter.hpp:415-439 *)
  Definition format_decimal (fp : fp_format_specs) (d : decode_result) : outcome fp_result :=
    match d_category d with
    | cat_zero => Ok ([48], 1)
    | _ =>
      match fp_fmt fp with
      | fp_general =>
        if fp_precision fp =? no_precision then format_shortest (d_finite d)
        else format_exact (d_finite d) mode_significand (fp_precision fp)
      | fp_exp => format_exact (d_finite d) mode_significand (fp_precision fp)
      | fp_fixed =>
        do r <- format_exact (d_finite d) mode_decimal_point (fp_precision fp) ;;
        if (length (fst r) =? 0)%nat then Ok ([48], 1) else Ok r
      | fp_hex => Abort
      end
    end.

  (** detail/format/formatter.hpp:181-188 *)
  Definition write_non_finite (b : bst K) (upper is_inf : bool) : outcome unit * bst K :=
    write_str vt b (if is_inf then (if upper then str "INF" else str "inf")
                    else if upper then str "NAN" else str "nan").

  (** detail/format/formatter.hpp:441-464 *)
  Definition format_and_write_decimal (b : bst K) (s : format_specs) (d : decode_result) : outcome unit * bst K :=
    let fp := parse_fp_format_specs s in
    match d_category d with
    | cat_infinity | cat_nan =>
      let s := if sp_zero_flag s then set_zero (set_fill s 32) false else s in
      sdo (sign, b) <- try_write_sign vt b s (d_negative d) ;;
      let has_sign := negb (sign =? no_sign) in
      write_padded vt align_left b s (3 + if has_sign then 1 else 0) (fun b =>
        sdo (_, b) <- (if has_sign then write_char vt b sign else (Ok tt, b)) ;;
        write_non_finite b (fp_upper fp) (match d_category d with cat_infinity => true | _ => false end))
    | _ =>
      match format_decimal fp d with
      | Ok r => fp_write_decimal b s fp (d_negative d) r
      | Err e => (Err e, b)
      | Undef => (Undef, b)
      | Abort => (Abort, b)
      end
    end.

  (** detail/format/formatter.hpp:466-470; a float is converted to double (its
      conversion is modelled in Float32.v).  The argument is the bit pattern. *)
  Definition write_arg_double (b : bst K) (s : format_specs) (v : Z) : outcome unit * bst K :=
    format_and_write_decimal b s (decode v).
End FloatArg.

(** ** Arguments of the core types *)
Inductive carg :=
| ABool (v : bool)
| AChar (c : Z)
| AInt (t : ity) (v : Z)
| ADouble (bits : Z)
| APtr (p : Z)
| AStr (s : list Z).

Definition type_of (a : carg) : cty :=
  match a with
  | ABool _ => TBool | AChar _ => TChar | AInt t _ => TInt t | ADouble _ => TDouble | APtr _ => TPtr | AStr _ => TStr
  end.

(** What the C++ types guarantee. *)
Definition carg_ok (a : carg) : Prop :=
  match a with
  | ABool _ => True
  | AChar c => is_byte c
  | AInt t v => In t [i32; i64; u32; u64] /\ in_range t v
  | ADouble v => 0 <= v < 2 ^ 64
  | APtr p => 0 <= p < 2 ^ 64
  | AStr s => Forall is_byte s
  end.

Section Formatter.
  Context {K : Type} (vt : vtable K).

  Definition write_arg (b : bst K) (s : format_specs) (a : carg) : outcome unit * bst K :=
    match a with
    | ABool v => write_arg_bool vt b s v
    | AChar c => write_arg_char vt b s c
    | AInt t v => write_arg_int vt b s t v
    | ADouble v => write_arg_double vt b s v
    | APtr p => write_arg_ptr vt b s p
    | AStr v => write_arg_str vt b s v
    end.
End Formatter.
