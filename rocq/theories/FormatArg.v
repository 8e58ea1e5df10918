(** Model of the part of include/emio/detail/format/formatter.hpp that writes
    arguments (floating-point numbers are in FloatArg.v). *)
From Verif Require Import Base Conversion Buffer Writer Specs.

Section FormatArg.
  Context {K : Type} (vt : vtable K).

  (** detail/format/formatter.hpp:38-53.  The specs are an in-out parameter; the
      width of the text is a size_t that is converted to int. *)
  Definition write_padding_left (b : bst K) (s : format_specs) (width : nat) : outcome format_specs * bst K :=
    let w := wrap i32 (Z.of_nat width) in
    if (sp_width s =? 0) || (sp_width s <? w) then (Ok (set_width s 0), b)
    else
      match arith iso i32 (sp_width s - w) with
      | Ok fill_width =>
        match sp_align s with
        | align_left => (Ok (set_width s fill_width), b)
        | a =>
          let fill_width := match a with align_center => Z.quot fill_width 2 | _ => fill_width end in
          match (do x <- arith iso i32 (fill_width + w) ;; arith iso i32 (sp_width s - x)) with
          | Ok rest =>
            sdo (_, b) <- write_char_n vt b (sp_fill s) (Z.to_nat (fill_width mod 2 ^ 64)) ;;
            (Ok (set_width s rest), b)
          | _ => (Undef, b)
          end
        end
      | _ => (Undef, b)
      end.

  (** detail/format/formatter.hpp:55-60 *)
  Definition write_padding_right (b : bst K) (s : format_specs) : outcome unit * bst K :=
    if (sp_width s =? 0) ||
       match sp_align s with align_left | align_center => false | _ => true end
    then (Ok tt, b)
    else write_char_n vt b (sp_fill s) (Z.to_nat (sp_width s mod 2 ^ 64)).

  Definition default_align (a : alignment) (s : format_specs) : format_specs :=
    match sp_align s with align_none => set_align s a | _ => s end.

  (** detail/format/formatter.hpp:62-70 *)
  Definition write_padded (a : alignment) (b : bst K) (s : format_specs) (width : nat)
             (func : bst K -> outcome unit * bst K) : outcome unit * bst K :=
    let s := default_align a s in
    sdo (s, b) <- write_padding_left b s width ;;
    sdo (_, b) <- func b ;;
    write_padding_right b s.

  (** detail/format/formatter.hpp:72-108: prefix, base, upper case *)
  Definition make_write_int_options (type : Z) : outcome (list Z * Z * bool) :=
    if (type =? no_type) || (type =? 100) then Ok ([], 10, false)
    else if type =? 120 then Ok (str "0x", 16, false)
    else if type =? 88 then Ok (str "0X", 16, true)
    else if type =? 98 then Ok (str "0b", 2, false)
    else if type =? 66 then Ok (str "0B", 2, false)
    else if type =? 111 then Ok (str "0", 8, false)
    else Err invalid_format.

  (** detail/format/formatter.hpp:110-122 *)
  Definition try_write_sign (b : bst K) (s : format_specs) (negative : bool) : outcome Z * bst K :=
    let sign :=
      if negative then ch_minus
      else if (sp_sign s =? ch_plus) || (sp_sign s =? 32) then sp_sign s
      else no_sign in
    if negb (sign =? no_sign) && sp_zero_flag s then
      sdo (_, b) <- write_char vt b sign ;; (Ok no_sign, b)
    else (Ok sign, b).

  (** detail/format/formatter.hpp:124-135 *)
  Definition try_write_prefix (b : bst K) (s : format_specs) (prefix : list Z) : outcome (list Z) * bst K :=
    let write_prefix := sp_alternate_form s && negb (length prefix =? 0)%nat in
    if write_prefix && sp_zero_flag s then
      sdo (_, b) <- write_str vt b prefix ;; (Ok [], b)
    else if write_prefix then (Ok prefix, b)
    else (Ok [], b).

  (** detail/format/formatter.hpp:137-179.  [v] is a value of type [t]. *)
  Definition write_arg_int (b : bst K) (s : format_specs) (t : ity) (v : Z) : outcome unit * bst K :=
    if sp_type s =? 99 then
      write_padded align_left b s 1 (fun b => write_char vt b (v mod 256))
    else
      match make_write_int_options (sp_type s) with
      | Ok (prefix, base, upper) =>
        let prefix := if (sp_type s =? 111) && (v =? 0) then [] else prefix in
        let abs := to_absolute t v in
        let negative := is_negative t v in
        match get_number_of_digits abs base with
        | None => (Undef, b)
        | Some num_digits =>
          sdo (sign, b) <- try_write_sign b s negative ;;
          sdo (prefix_to_write, b) <- try_write_prefix b s prefix ;;
          let total_width :=
            (num_digits + (if sp_alternate_form s then length prefix else 0)
             + (if negative || (sp_sign s =? 32)%Z || (sp_sign s =? ch_plus)%Z then 1 else 0))%nat in
          write_padded align_right b s total_width (fun b =>
            let has_sign := negb (sign =? no_sign) in
            let area_size := (num_digits + (if has_sign then 1 else 0) + length prefix_to_write)%nat in
            sdo (a, b) <- get_write_area_of vt b area_size ;;
            fill_area vt b a (fun cells =>
              odo cells <- (if has_sign then store cells 0 sign else Some cells) ;;
              let it := if has_sign then 1%nat else O in
              odo cells <- store_list cells it prefix_to_write ;;
              let it := (it + length prefix_to_write)%nat in
              odo (cells, _) <- write_number abs base upper cells (it + num_digits) ;;
              Some cells))
        end
      | Err e => (Err e, b)
      | Undef => (Undef, b)
      | Abort => (Abort, b)
      end.

  (** detail/format/formatter.hpp:472-485 *)
  Definition write_arg_str (b : bst K) (s : format_specs) (arg : list Z) : outcome unit * bst K :=
    if negb (sp_type s =? ch_question) then
      let arg := if 0 <=? sp_precision s then firstn (Z.to_nat (sp_precision s)) arg else arg in
      write_padded align_left b s (length arg) (fun b => write_str vt b arg)
    else
      let escaped_size := count_size_when_escaped arg in
      write_padded align_left b s (escaped_size + 2)
        (fun b => write_str_escaped_impl vt b arg escaped_size ch_quote).

  (** detail/format/formatter.hpp:487-502 *)
  Definition write_arg_char (b : bst K) (s : format_specs) (c : Z) : outcome unit * bst K :=
    if negb (sp_type s =? no_type) && negb (sp_type s =? 99) && negb (sp_type s =? ch_question) then
      write_arg_int b s u8 c
    else if negb (sp_type s =? ch_question) then
      write_padded align_left b s 1 (fun b => write_char vt b c)
    else
      write_padded align_left b s 3 (fun b => write_char_escaped vt b c).

  (** detail/format/formatter.hpp:508-518; nullptr is 0 *)
  Definition write_arg_ptr (b : bst K) (s : format_specs) (p : Z) : outcome unit * bst K :=
    write_arg_int b (set_type (set_alternate s true) 120) u64 p.

  (** detail/format/formatter.hpp:520-535 *)
  Definition write_arg_bool (b : bst K) (s : format_specs) (v : bool) : outcome unit * bst K :=
    if negb (sp_type s =? no_type) && negb (sp_type s =? 115) then
      write_arg_int b s u8 (if v then 1 else 0)
    else if v then write_padded align_left b s 4 (fun b => write_str vt b (str "true"))
    else write_padded align_left b s 5 (fun b => write_str vt b (str "false")).
End FormatArg.
