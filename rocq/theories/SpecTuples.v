(** Specification of the formatters of tuples. *)
From Verif Require Import Base SpecNum SpecEscape SpecSpecs Reader Buffer BufferProofs Emits Format SpecString Custom SpecCustom Elements SpecElements Tuples.

(** Tuples with these brackets: an optional n, and nothing or a specification behind a
    colon that is one of every element.  The texts of the elements, in order, with the
    separator between them; an element that fails ends it. *)
Definition tuple_promise {P} (bs : list Z * list Z * list Z) (cs : list (promise P)) : promise P :=
  mk_promise (fun v => Forall (fun c => p_value c v) cs)
    (fun sp => exists n e, range_spec sp n e /\ match e with None => True | Some e => cs <> [] /\ Forall (fun c => p_reads c e) cs end)
    (fun _ sp v out o => exists n e, range_spec sp n e /\
       let does := fun c => p_does c (no_spec e) (element_spec e) v in
       (o = Ok tt /\ exists outs, Forall2 (fun c out => does c out (Ok tt)) cs outs /\ out = enclose n bs outs) \/
       (exists err cs1 c cs2 outs out1, o = Err err /\ cs = cs1 ++ c :: cs2 /\ Forall2 (fun c out => does c out (Ok tt)) cs1 outs /\
          does c out1 (Err err) /\ out = opening n bs ++ join (separator bs) (outs ++ [out1]))).

(** A formatter that can be the one of an element of a tuple: it keeps its promise, it
    can be validated, it takes an empty specification, and set_debug_format(false) does
    nothing to a new one. *)
Definition element_ok {P} (F : formatter P) (c : promise P) : Prop :=
  keeps_promise F c /\ f_validate F <> None /\ p_reads c [125] /\ set_debug F (f_new F) false = f_new F.

(** Tuples of such elements and of elements that are tuples again, ranges of them (for
    example maps), optionals of them, and what derives from these. *)
Inductive tuple_based : forall A, formatter A -> promise A -> Prop :=
| tb_tuple A Fs ps o cl sep : tuple_elements A Fs ps -> tuple_based A (tuple_of Fs (mk_rs o cl sep)) (tuple_promise (o, cl, sep) ps)
| tb_range A F c o cl sep : tuple_based A F c -> tuple_based (list A) (range_of F (mk_rs o cl sep)) (range_promise (o, cl, sep) c)
| tb_optional A F c : tuple_based A F c -> tuple_based (option A) (optional_of F) (optional_promise c)
| tb_derived A B F c (convert : B -> A) : tuple_based A F c -> tuple_based B (derived_of F convert) (derived_promise convert c)
with tuple_elements : forall A, list (formatter A) -> list (promise A) -> Prop :=
| te_none A : tuple_elements A [] []
| te_formatter A F c Fs cs : element_ok F c -> tuple_elements A Fs cs -> tuple_elements A (F :: Fs) (c :: cs)
| te_tuple A F c Fs cs : tuple_based A F c -> tuple_elements A Fs cs -> tuple_elements A (F :: Fs) (c :: cs).

(** The fields of a string with the numbers [ns]: the last item is a field for the
    argument [k], which no other field is for. *)
Definition last_field (k : nat) (its : list item) (ns : list nat) : Prop :=
  exists its1 index colon sp ns1, its = its1 ++ [Field index colon sp] /\ ns = ns1 ++ [k] /\ ~ In k ns1.
