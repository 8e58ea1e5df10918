(** Specification: what each call of the writer means as text. *)
From Verif Require Import Base SpecNum SpecEscape Buffer Writer.

(** Arguments a caller can pass: characters are bytes, integers values of their
    type; the base is valid. *)
Definition call_ok (c : wcall) : Prop :=
  match c with
  | WChar c | WCharN c _ | WCharEscaped c => is_byte c
  | WStr s | WStrEscaped s => Forall is_byte s
  | WInt t v base _ => is_ity t /\ in_range t v /\ 2 <= base <= 36
  end.
Definition op_ok (o : bop) : Prop := match o with Do c => call_ok c | Sync => True end.

(** [text] is [v] in the given base. *)
Definition integer_text (v base : Z) (upper : bool) (text : list Z) : Prop :=
  exists digits, text = (if v <? 0 then [ch_minus] else []) ++ digits /\
                 canonical_numeral base upper (Z.abs v) digits.

(** The text a call denotes. *)
Definition call_text (c : wcall) (text : list Z) : Prop :=
  match c with
  | WChar c => text = [c]
  | WCharN c n => text = repeat c n
  | WStr s => text = s
  | WCharEscaped c => text = [ch_apos] ++ escape c ++ [ch_apos]
  | WStrEscaped s => text = [ch_quote] ++ escape_text s ++ [ch_quote]
  | WInt _ v base upper => integer_text v base upper text
  end.

(** What a buffer must hold after a history without failures: the texts in
    order, since the last reset. *)
Inductive history_text : list bop -> list Z -> Prop :=
| ht_nil : history_text [] []
| ht_do ops t c u : history_text ops t -> call_text c u -> history_text (ops ++ [Do c]) (t ++ u)
| ht_reset ops t : history_text ops t -> history_text (ops ++ [Sync]) [].

(** The texts of the calls that succeeded, in order. *)
Inductive log_text : list (wcall * outcome unit) -> list Z -> Prop :=
| lt_nil : log_text [] []
| lt_ok l t c u : log_text l t -> call_text c u -> log_text (l ++ [(c, Ok tt)]) (t ++ u)
| lt_err l t c e : log_text l t -> log_text (l ++ [(c, Err e)]) t.

(** Calls that need one area for their whole text. *)
Definition needs_one_area (c : wcall) : bool :=
  match c with WChar _ | WInt _ _ _ _ => true | _ => false end.

(** A buffer class, as a user may derive it from [emio::buffer], that hands out
    its space in pieces chosen by an arbitrary oracle: the n-th request for
    [size] characters is granted [min size (1 + sizes n)] characters. *)
Record piece_k := mk_piece { p_mem : list Z; p_sizes : nat -> nat; p_count : nat }.

Definition piece_request (b : bst piece_k) (_ size : nat) : outcome span * bst piece_k :=
  let k := b_kind b in
  let g := Nat.min size (S (p_sizes k (p_count k))) in
  let k' := mk_piece (p_mem k ++ repeat uninit g) (p_sizes k) (S (p_count k)) in
  let area := mk_span (length (p_mem k)) g in
  (Ok area, set_write_area (set_kind b k') area).

Definition piece_vt : vtable piece_k := {|
  v_request := piece_request;
  v_cells := p_mem;
  v_put k c := mk_piece c (p_sizes k) (p_count k)
|}.

Definition piece_buffer (sizes : nat -> nat) : bst piece_k :=
  mk_bst false 0 (mk_span 0 0) (mk_piece [] sizes 0).
