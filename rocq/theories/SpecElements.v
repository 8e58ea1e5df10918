(** Specification of formatters for ranges, optionals and variants of other types. *)
From Verif Require Import Base SpecNum SpecEscape SpecSpecs Reader Buffer BufferProofs Emits Format SpecString Custom SpecCustom Elements.

(** What a formatter promises: the values it is for, the specifications it reads (with
    their closing brace), and what formatting a value writes and returns; the flag is
    set for elements of ranges without a specification of their own. *)
Record promise (A : Type) := mk_promise {
  p_value : A -> Prop;
  p_reads : list Z -> Prop;
  p_does : bool -> list Z -> A -> list Z -> outcome unit -> Prop
}.
Arguments mk_promise {A} _ _ _.
Arguments p_value {A} _ _.
Arguments p_reads {A} _ _.
Arguments p_does {A} _ _ _ _ _ _.
Definition promise_for {A} (c : promise A) (a : A) : contract :=
  mk_contract (p_reads c) (fun sp out o => p_does c false sp a out o).

(** The formatter keeps the promise, compare [keeps] of SpecCustom.v.  set_debug_format
    has only been called before parsing when there is no specification. *)
Record keeps_promise {A} (F : formatter A) (c : promise A) : Prop := {
  kp_closed : forall sp, p_reads c sp -> exists x, sp = x ++ [125] /\ ~ In 125 x;
  kp_sound : forall T n, Forall is_byte T -> (n <= length T)%nat ->
    match validate_trait_of F (mk_reader T n) with
    | (Ok _, r) => exists sp rest, skipn n T = sp ++ rest /\ p_reads c sp /\ r = mk_reader T (n + length sp)
    | (Err _, _) => True
    | _ => False
    end;
  kp_complete : forall T n sp rest, Forall is_byte T -> skipn n T = sp ++ rest -> p_reads c sp -> small_numbers sp ->
    validate_trait_of F (mk_reader T n) = (Ok tt, mk_reader T (n + length sp));
  kp_format : forall (debug : bool) T n sp rest, Forall is_byte T -> skipn n T = sp ++ rest -> p_reads c sp ->
    validate_trait_of F (mk_reader T n) = (Ok tt, mk_reader T (n + length sp)) -> (debug = true -> sp = [125]) ->
    exists m, f_parse F (if debug then set_debug F (f_new F) true else f_new F) (mk_reader T n) = (Ok m, mk_reader T (n + length sp)) /\
      forall a, p_value c a -> exists out o,
        p_does c debug sp a out o /\ (o = Ok tt \/ exists e, o = Err e) /\ acts (fun K vt b => f_format F K vt m a b) out o
}.

(** Ranges with these brackets: an optional n, and nothing or a specification for the
    elements behind a colon.  The texts of the elements, in order, with the separator
    between them; an element that fails ends it. *)
Definition opening (n : bool) (bs : list Z * list Z * list Z) : list Z := let '(o, _, _) := bs in if n then [] else o.
Definition separator (bs : list Z * list Z * list Z) : list Z := let '(_, _, s) := bs in s.
Definition range_promise {A} (bs : list Z * list Z * list Z) (c : promise A) : promise (list A) :=
  mk_promise (Forall (p_value c))
    (fun sp => exists n e, range_spec sp n e /\ match e with None => True | Some e => p_reads c e end)
    (fun _ sp vs out o => exists n e, range_spec sp n e /\
       let does := p_does c (no_spec e) (element_spec e) in
       (o = Ok tt /\ exists outs, Forall2 (fun v out => does v out (Ok tt)) vs outs /\ out = enclose n bs outs) \/
       (exists err vs1 v vs2 outs out1, o = Err err /\ vs = vs1 ++ v :: vs2 /\ Forall2 (fun v out => does v out (Ok tt)) vs1 outs /\
          does v out1 (Err err) /\ out = opening n bs ++ join (separator bs) (outs ++ [out1]))).

(** Optionals: the specification is that of the value. *)
Definition optional_promise {A} (c : promise A) : promise (option A) :=
  mk_promise (fun v => match v with None => True | Some v => p_value c v end) (p_reads c)
    (fun _ sp v out o =>
       match v with
       | None => out = str "none" /\ o = Ok tt
       | Some v => exists out1, p_does c false sp v out1 o /\ out = str "optional(" ++ out1 ++ match o with Ok _ => str ")" | _ => [] end
       end).

(** Derived formatters *)
Definition derived_promise {A B} (convert : B -> A) (c : promise A) : promise B :=
  mk_promise (fun v => p_value c (convert v)) (p_reads c) (fun debug sp v out o => p_does c debug sp (convert v) out o).

(** Variants of values with these contracts *)
Definition variant_promise (alternative : user -> contract -> Prop) : promise variant_value :=
  mk_promise (fun v => match v with
                       | valueless => True
                       | holds_char c => is_byte c
                       | holds_text s => Forall is_byte s
                       | holds u => exists c, alternative u c
                       end) (eq [125])
    (fun _ _ v out o =>
       let all := fun text => o = Ok tt /\ out = str "variant(" ++ text ++ str ")" in
       match v with
       | valueless => all (str "valueless by exception")
       | holds_char c => all ([39] ++ escape c ++ [39])
       | holds_text s => all ([34] ++ escape_text s ++ [34])
       | holds u => exists c out1, alternative u c /\ c_does c [125] out1 o /\ out = str "variant(" ++ out1 ++ match o with Ok _ => str ")" | _ => [] end
       end).

(** The formatters of the library as elements *)
Definition lib_promise (t : fty) : promise fval :=
  mk_promise (has_type t) (field_spec t)
    (fun debug sp v out o =>
       (o = Ok tt /\ shows (mk_style debug spec_not_defined spec_not_defined (default_brackets t)) t sp v out) \/
       (o = Err invalid_format /\ (octal_spec sp \/ octal_in v))).
