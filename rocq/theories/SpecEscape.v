(** Specification of escaped text, and its inverse. Independent of the model. *)
From Verif Require Import Base SpecNum.

Definition hex_digit (v : Z) : Z := if v <? 10 then 48 + v else 87 + v.

(** The escaped form of one character. *)
Definition escape (c : Z) : list Z :=
  if c =? 10 then str "\n"
  else if c =? 13 then str "\r"
  else if c =? 9 then str "\t"
  else if c =? ch_backslash then [ch_backslash; ch_backslash]
  else if c =? ch_apos then [ch_backslash; ch_apos]
  else if c =? ch_quote then [ch_backslash; ch_quote]
  else if (32 <=? c) && (c <? 127) then [c]
  else [ch_backslash; 120; hex_digit (c / 16); hex_digit (c mod 16)].

Definition escape_text (t : list Z) : list Z := flat_map escape t.

Definition printable (c : Z) : bool := (32 <=? c) && (c <? 127).

(** The inverse: reads one possibly escaped character. *)
Definition unescape1 (t : list Z) : option (Z * list Z) :=
  match t with
  | [] => None
  | c :: t =>
    if negb (c =? ch_backslash) then Some (c, t)
    else
      match t with
      | [] => None
      | e :: t =>
        if e =? 110 then Some (10, t)
        else if e =? 114 then Some (13, t)
        else if e =? 116 then Some (9, t)
        else if e =? 120 then
          match t with
          | h :: l :: t =>
            match digit_value h, digit_value l with
            | Some h, Some l => Some (h * 16 + l, t)
            | _, _ => None
            end
          | _ => None
          end
        else Some (e, t)
      end
  end.

Fixpoint unescape (fuel : nat) (t : list Z) : option (list Z) :=
  match t, fuel with
  | [], _ => Some []
  | _, O => None
  | _, S fuel =>
    match unescape1 t with
    | Some (c, t) => match unescape fuel t with Some r => Some (c :: r) | None => None end
    | None => None
    end
  end.
Definition unescape_text (t : list Z) : option (list Z) := unescape (length t) t.
