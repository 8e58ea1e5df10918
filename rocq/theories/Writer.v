(** Model of include/emio/writer.hpp and include/emio/detail/utf.hpp. *)
From Verif Require Import Base Conversion Buffer.

(** utf.hpp:20-22, applied to [static_cast<uint32_t>(c)] of a signed char. *)
Definition needs_escape (c : Z) : bool :=
  let cp := schar c mod 2 ^ 32 in
  (cp <? 32) || (127 <=? cp) || (cp =? ch_apos) || (cp =? ch_quote) || (cp =? ch_backslash).

(** Characters with a two character escape: utf.hpp:29 *)
Definition is_simple_escape (c : Z) : bool :=
  (c =? 10) || (c =? 13) || (c =? 9) || (c =? ch_backslash) || (c =? ch_apos) || (c =? ch_quote).

(** utf.hpp:24-36 *)
Fixpoint count_size_when_escaped (sv : list Z) : nat :=
  match sv with
  | [] => O
  | c :: sv =>
    ((if negb (needs_escape c) then 1
      else if is_simple_escape c then 2
      else 4) + count_size_when_escaped sv)%nat
  end.

(** utf.hpp:82-116: what [write_escaped(c, out)] writes, from [out] on. For a
    hexadecimal escape 'x', zeros up to two digits, and the number written
    backwards by write_number. [None] is undefined behaviour. *)
Definition escape_char (c : Z) : option (list Z) :=
  if c =? 10 then Some [110]
  else if c =? 13 then Some [114]
  else if c =? 9 then Some [116]
  else if c =? ch_backslash then Some [ch_backslash]
  else if c =? ch_apos then Some [ch_apos]
  else if c =? ch_quote then Some [ch_quote]
  else
    odo digits <- count_digits 16 c ;;
    if (2 <? digits)%nat then None
    else
      odo (cells, _) <- write_number c 16 false (120 :: repeat ch_0 (2 - digits) ++ repeat uninit digits) 3 ;;
      Some cells.

(** utf.hpp:118-122: source still to encode and pending characters. *)
Record esc_helper := mk_esc { e_src : list Z; e_rem : list Z }.

(** utf.hpp:57-77: the loop over the source with [n] characters of space left.
    Returns what is written. *)
Fixpoint write_escaped_loop (src : list Z) (n : nat) : option (list Z * esc_helper) :=
  match src with
  | [] => Some ([], mk_esc [] [])
  | c :: src' =>
    match n with
    | O => Some ([], mk_esc src [])
    | S n =>
      if negb (needs_escape c) then
        odo (out, h) <- write_escaped_loop src' n ;;
        Some (c :: out, h)
      else
        odo e <- escape_char c ;;
        if (3 <=? n)%nat then
          if (n <? length e)%nat then None
          else
            odo (out, h) <- write_escaped_loop src' (n - length e) ;;
            Some (ch_backslash :: e ++ out, h)
        else if (length e <=? n)%nat then
          (* everything fits: write_remainder empties the remainder *)
          odo (out, h) <- write_escaped_loop src' (n - length e) ;;
          Some (ch_backslash :: e ++ out, h)
        else
          (* the rest of the escape sequence stays in the remainder; no space
             is left, so the next iteration returns *)
          Some (ch_backslash :: firstn n e, mk_esc src' (skipn n e))
    end
  end.

(** utf.hpp:45-79 *)
Definition write_escaped (h : esc_helper) (n : nat) : option (list Z * esc_helper) :=
  let w := Nat.min n (length (e_rem h)) in
  let first := firstn w (e_rem h) in
  if (w <? length (e_rem h))%nat then Some (first, mk_esc (e_src h) (skipn w (e_rem h)))
  else
    odo (out, h) <- write_escaped_loop (e_src h) (n - w) ;;
    Some (first ++ out, h).

Section Writer.
  Context {K : Type} (vt : vtable K).

  (** writer.hpp:41-45 *)
  Definition write_char (b : bst K) (c : Z) : outcome unit * bst K :=
    sdo (a, b) <- get_write_area_of vt b 1 ;;
    store_area vt b a [c].

  (** writer.hpp:53-62. An empty area makes the C++ loop spin; [fuel] bounds the
      number of non-empty areas. *)
  Fixpoint write_char_n_loop (fuel : nat) (b : bst K) (c : Z) (remaining : nat) : outcome unit * bst K :=
    match remaining with
    | O => (Ok tt, b)
    | S _ =>
      match fuel with
      | O => (Undef, b)
      | S fuel =>
        sdo (a, b) <- get_write_area_of_max vt b remaining ;;
        sdo (_, b) <- store_area vt b a (repeat c (s_len a)) ;;
        if (remaining <? s_len a)%nat then (Undef, b)
        else write_char_n_loop fuel b c (remaining - s_len a)
      end
    end.
  Definition write_char_n (b : bst K) (c : Z) (n : nat) : outcome unit * bst K :=
    write_char_n_loop n b c n.

  (** writer.hpp:79-90 *)
  Fixpoint write_str_loop (fuel : nat) (b : bst K) (sv : list Z) : outcome unit * bst K :=
    match sv with
    | [] => (Ok tt, b)
    | _ :: _ =>
      match fuel with
      | O => (Undef, b)
      | S fuel =>
        sdo (a, b) <- get_write_area_of_max vt b (length sv) ;;
        if (length sv <? s_len a)%nat then (Undef, b)
        else
          sdo (_, b) <- store_area vt b a (firstn (s_len a) sv) ;;
          write_str_loop fuel b (skipn (s_len a) sv)
      end
    end.
  Definition write_str (b : bst K) (sv : list Z) : outcome unit * bst K :=
    write_str_loop (length sv) b sv.

  (** utf.hpp:134-148: the loop and the end quote. [a] is the rest of the
      current area. *)
  Fixpoint write_str_escaped_loop (fuel : nat) (b : bst K) (a : span) (h : esc_helper)
           (escaped_size : nat) (quote : Z) : outcome unit * bst K :=
    match write_escaped h (s_len a) with
    | None => (Undef, b)
    | Some (out, h) =>
      sdo (_, b) <- store_area vt b a out ;;
      if (escaped_size <? length out)%nat then (Undef, b)
      else
        let escaped_size := (escaped_size - length out)%nat in
        if (escaped_size =? 0)%nat then
          let a := subspan a (length out) in
          sdo (a, b) <- (if (s_len a =? 0)%nat then get_write_area_of_max vt b 1 else (Ok a, b)) ;;
          store_area vt b a [quote]
        else
          match fuel with
          | O => (Undef, b)
          | S fuel =>
            sdo (a, b) <- get_write_area_of_max vt b (escaped_size + 1) ;;
            write_str_escaped_loop fuel b a h escaped_size quote
          end
    end.

  (** utf.hpp:125-149 *)
  Definition write_str_escaped_impl (b : bst K) (sv : list Z) (escaped_size : nat) (quote : Z)
    : outcome unit * bst K :=
    sdo (a, b) <- get_write_area_of_max vt b (escaped_size + 2) ;;
    sdo (_, b) <- store_area vt b a [quote] ;;
    write_str_escaped_loop escaped_size b (subspan a 1) (mk_esc sv []) escaped_size quote.

  (** writer.hpp:69-72 *)
  Definition write_char_escaped (b : bst K) (c : Z) : outcome unit * bst K :=
    write_str_escaped_impl b [c] (count_size_when_escaped [c]) ch_apos.

  (** writer.hpp:97-99 *)
  Definition write_str_escaped (b : bst K) (sv : list Z) : outcome unit * bst K :=
    write_str_escaped_impl b sv (count_size_when_escaped sv) ch_quote.

  (** writer.hpp:132-148. [v] is a value of the (upcasted) type [t]. *)
  Definition write_int_impl (b : bst K) (t : ity) (v base : Z) (upper : bool) : outcome unit * bst K :=
    if negb (is_valid_number_base base) then (Err invalid_argument, b)
    else
      let abs := to_absolute t v in
      let negative := is_negative t v in
      match get_number_of_digits abs base with
      | None => (Undef, b)
      | Some digits =>
        let n := (digits + if negative then 1 else 0)%nat in
        sdo (a, b) <- get_write_area_of vt b n ;;
        fill_area vt b a (fun cells =>
          odo cells <- (if negative then store cells 0 ch_minus else Some cells) ;;
          odo (cells, _) <- write_number abs base upper cells n ;;
          Some cells)
      end.

  (** writer.hpp:115-121 *)
  Definition write_int (b : bst K) (t : ity) (v base : Z) (upper : bool) : outcome unit * bst K :=
    write_int_impl b (upcasted t) v base upper.
End Writer.

(** A call of one of the writer's member functions. *)
Inductive wcall :=
| WChar (c : Z)
| WCharN (c : Z) (n : nat)
| WStr (s : list Z)
| WCharEscaped (c : Z)
| WStrEscaped (s : list Z)
| WInt (t : ity) (v base : Z) (upper : bool).

Definition run_wcall {K} (vt : vtable K) (b : bst K) (c : wcall) : outcome unit * bst K :=
  match c with
  | WChar c => write_char vt b c
  | WCharN c n => write_char_n vt b c n
  | WStr s => write_str vt b s
  | WCharEscaped c => write_char_escaped vt b c
  | WStrEscaped s => write_str_escaped vt b s
  | WInt t v base upper => write_int vt b t v base upper
  end.

(** A history: calls of the writer and of one parameterless member function of
    the buffer ([reset] or [flush]). The log records each call's outcome. *)
Inductive bop := Do (c : wcall) | Sync.

Definition step_bop {K} (vt : vtable K) (sync : bst K -> bst K)
           (st : list (wcall * outcome unit) * bst K) (o : bop) : list (wcall * outcome unit) * bst K :=
  match o with
  | Do c => let (o, b) := run_wcall vt (snd st) c in (fst st ++ [(c, o)], b)
  | Sync => (fst st, sync (snd st))
  end.
Definition run_bops {K} (vt : vtable K) (sync : bst K -> bst K) (b : bst K) (ops : list bop)
  : list (wcall * outcome unit) * bst K :=
  fold_left (step_bop vt sync) ops ([], b).
