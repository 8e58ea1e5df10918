(** Model of ranges, optionals and variants whose elements have user-defined formatters,
    and of formatters that derive from others.

    A formatter template of the library takes the formatter of its elements as it is;
    here it is a function from formatters to formatters, so that they can be nested in
    any way.  [lib] is a formatter of Format.v.

    Tuples of such elements are in Tuples.v.  Variants as elements of ranges and
    optionals can be written here, but do not compile, because std.hpp:111 is not
    const. *)
From Verif Require Import Base Conversion Reader Buffer Writer Bitset Specs FormatArg FloatArg Format Custom.

(** A specialisation of emio::formatter (formatter.hpp:29-77) for the type [A]:
    [f_new] is the default constructor, [f_debug] the member function set_debug_format
    and [f_validate] the static member function, if there are such. *)
Record formatter (A : Type) := mk_formatter {
  f_object : Type;
  f_new : f_object;
  f_debug : option (f_object -> bool -> f_object);
  f_validate : option (reader -> outcome unit * reader);
  f_parse : f_object -> reader -> outcome f_object * reader;
  f_format : forall K, vtable K -> f_object -> A -> bst K -> outcome unit * bst K
}.
Arguments mk_formatter {A} _ _ _ _ _ _.
Arguments f_object {A} _.
Arguments f_new {A} _.
Arguments f_debug {A} _.
Arguments f_validate {A} _.
Arguments f_parse {A} _ _ _.
Arguments f_format {A} _ K _ _ _ _.

(** As the argument of a format function: detail/format/args.hpp:19-27. *)
Definition as_user {A} (F : formatter A) (a : A) : user :=
  mk_user (f_object F) (f_validate F) (f_parse F (f_new F)) (fun K vt m b => f_format F K vt m a b).

(** detail/format/formatter.hpp:804-820 *)
Definition validate_trait_of {A} (F : formatter A) (r : reader) : outcome unit * reader :=
  match f_validate F with
  | Some validate => validate r
  | None => sdo (_, r) <- f_parse F (f_new F) r ;; (Ok tt, r)
  end.

(** detail/format/ranges.hpp:70-77 *)
Definition set_debug {A} (F : formatter A) (m : f_object F) (set : bool) : f_object F :=
  match f_debug F with Some f => f m set | None => m end.

(** A formatter of Format.v, constructed as [m]. *)
Definition lib_from (t : fty) (m : fmtr) : formatter fval :=
  mk_formatter fmtr m
    (Some (fun m set => match m with MCore t s => MCore t (maybe_set_debug_format (Some set) t s) | m => m end))
    (Some (validate_fty t)) (parse_with None) (fun K vt m v b => format_fval vt m v b).
Definition lib (t : fty) : formatter fval := lib_from t (new_formatter t).

Section Range.
  Context {A : Type} (F : formatter A).

  (** ranges.hpp:24-37.  An element type whose formatter has no validate function does
      not compile: [Undef]. *)
  Definition validate_range_of (r : reader) : outcome unit * reader :=
    sdo (c, r) <- read_char r ;;
    sdo (c, r) <- (if c =? 110 then read_char r else (Ok c, r)) ;;
    if c =? ch_rbrace then (Ok tt, r)
    else if c =? ch_colon then match f_validate F with Some validate => validate r | None => (Undef, r) end
    else (Err invalid_format, r).

  (** ranges.hpp:63-76 *)
  Definition parse_range_of (m : ranges_specs * f_object F) (r : reader) : outcome (ranges_specs * f_object F) * reader :=
    let (rs, m) := m in
    sdo (c, r) <- assume (peek_s r) ;;
    let rs := if c =? 110 then mk_rs [] [] (rs_sep rs) else rs in
    let r := if c =? 110 then pop r 1 else r in
    sdo (c, r) <- (if c =? 110 then assume (peek_s r) else (Ok c, r)) ;;
    sdo (m, r) <- (if c =? ch_rbrace then f_parse F (set_debug F m true) r else f_parse F m (pop r 1)) ;;
    (Ok (rs, m), r).

  (** ranges.hpp:85-90 *)
  Fixpoint format_range_elements {K} (vt : vtable K) (first : bool) (sep : list Z) (m : f_object F) (vs : list A) (b : bst K)
    : outcome unit * bst K :=
    match vs with
    | [] => (Ok tt, b)
    | v :: vs =>
      sdo (_, b) <- (if first then (Ok tt, b) else write_str vt b sep) ;;
      sdo (_, b) <- f_format F K vt m v b ;;
      format_range_elements vt false sep m vs b
    end.

  (** ranges.hpp:22-110; [rs] is what the constructors (39-52), set_separator (54-56)
      and set_brackets (58-61) leave *)
  Definition range_of (rs : ranges_specs) : formatter (list A) :=
    mk_formatter (ranges_specs * f_object F) (rs, f_new F) None (Some validate_range_of) parse_range_of
      (fun K vt m vs b =>
         sdo (_, b) <- write_str vt b (rs_open (fst m)) ;;
         sdo (_, b) <- format_range_elements vt true (rs_sep (fst m)) (snd m) vs b ;;
         write_str vt b (rs_close (fst m))).

  (** std.hpp:24-48 *)
  Definition optional_of : formatter (option A) :=
    mk_formatter (f_object F) (f_new F) None (Some (validate_trait_of F)) (f_parse F)
      (fun K vt m v b =>
         match v with
         | None => write_str vt b (str "none")
         | Some v =>
           sdo (_, b) <- write_str vt b (str "optional(") ;;
           sdo (_, b) <- f_format F K vt m v b ;;
           write_char vt b 41
         end).

  (** A class derived from formatter<A> that converts the value: enums (formatter.hpp:175-182),
      format_as (188-195), exceptions and paths (std.hpp:54-74), docs/API.md:708-737 *)
  Definition derived_of {B} (convert : B -> A) : formatter B :=
    mk_formatter (f_object F) (f_new F) (f_debug F) (f_validate F) (f_parse F)
      (fun K vt m v b => f_format F K vt m (convert v) b).
End Range.

(** Default constructors: ranges.hpp:39-41, 50-52 *)
Definition list_specs : ranges_specs := mk_rs (str "[") (str "]") (str ", ").
Definition set_specs : ranges_specs := mk_rs (str "{") (str "}") (str ", ").

(** The value of a variant: none, a character, something that is a text, or a value
    with its formatter. *)
Inductive variant_value :=
| valueless
| holds_char (c : Z)
| holds_text (s : list Z)
| holds (u : user).

(** std.hpp:99-144 *)
Definition variant_of : formatter variant_value :=
  mk_formatter unit tt None (Some match_rbrace) (fun _ => match_rbrace)
    (fun K vt _ v b =>
       sdo (_, b) <- write_str vt b (str "variant(") ;;
       sdo (_, b) <-
         match v with
         | valueless => write_str vt b (str "valueless by exception")
         | holds_char c => write_char_escaped vt b c
         | holds_text s => write_str_escaped vt b s
         | holds u =>
           match u_parse u (reader_of (str "}")) with
           | (Ok m, _) => u_format u K vt m b
           | (Err e, _) => (Err e, b)
           | (Undef, _) => (Undef, b)
           | (Abort, _) => (Abort, b)
           end
         end ;;
       write_char vt b 41).
