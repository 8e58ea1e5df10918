(** Specification of format strings: their syntax, the fields that are valid for
    an argument, and the text a format string stands for. *)
From Verif Require Import Base SpecNum SpecEscape SpecFloat Specs FormatArg FloatArg SpecFormat SpecDecimal SpecField SpecSpecs Format.

(** ** Syntax *)

(** A format string is a sequence of characters that stand for themselves,
    doubled braces, and replacement fields.  [spec] includes the closing brace;
    without a colon it is this brace only. *)
Inductive item :=
| Literal (c : Z)
| Brace (c : Z)
| Field (index : list Z) (colon : bool) (spec : list Z).

Definition item_text (i : item) : list Z :=
  match i with
  | Literal c => [c]
  | Brace c => [c; c]
  | Field index colon spec => [123] ++ index ++ (if colon then [58] else []) ++ spec
  end.
Definition text_of (its : list item) : list Z := flat_map item_text its.

Definition is_brace (c : Z) : Prop := c = 123 \/ c = 125.
Definition item_ok (i : item) : Prop :=
  match i with
  | Literal c => ~ is_brace c
  | Brace c => is_brace c
  | Field index colon spec => (index = [] \/ digits_text index) /\ (colon = false -> spec = [125])
  end.

Definition indices (its : list item) : list (list Z) :=
  flat_map (fun i => match i with Field index _ _ => [index] | _ => [] end) its.
Definition field_specs (its : list item) : list (list Z) :=
  flat_map (fun i => match i with Field _ _ spec => [spec] | _ => [] end) its.

(** The arguments the fields refer to: one after the other, or those named. *)
Definition numbering (indices : list (list Z)) (ns : list nat) : Prop :=
  (Forall (fun i => i = []) indices /\ ns = seq 0 (length indices)) \/
  Forall2 (fun i n => digits_text i /\ denotes 10 i = Z.of_nat n) indices ns.

(** ** Specifications of ranges and tuples

    An optional n; without a specification for the elements the closing brace,
    otherwise a colon and the specification of the elements. *)
Definition range_spec (spec : list Z) (n : bool) (elements : option (list Z)) : Prop :=
  spec = (if n then [110] else []) ++ match elements with None => [125] | Some e => 58 :: e end.

(** [spec] (with its brace) is valid for arguments of the type. *)
Fixpoint field_spec (t : fty) (spec : list Z) {struct t} : Prop :=
  match t with
  | FCore c => exists s, spec_text spec s /\ allowed c s
  | FMono | FVariant | FArgs => spec = [125]
  | FOpt t | FDyn t => field_spec t spec
  | FRange _ t => exists n e, range_spec spec n e /\ match e with None => True | Some e => field_spec t e end
  | FTuple ts =>
    exists n e, range_spec spec n e /\
      match e with
      | None => True
      | Some e => ts <> [] /\ (fix all (ts : list fty) : Prop := match ts with [] => True | t :: ts => field_spec t e /\ all ts end) ts
      end
  end.

(** The format strings for arguments of the types [tys]. *)
Definition good_items (tys : list fty) (its : list item) (ns : list nat) : Prop :=
  Forall item_ok its /\ numbering (indices its) ns /\
  Forall2 (fun n spec => exists t, nth_error tys n = Some t /\ field_spec t spec) ns (field_specs its).
Definition well_formed (s : list Z) (tys : list fty) : Prop :=
  exists its ns, s = text_of its /\ good_items tys its ns /\ forall n, (n < length tys)%nat -> In n ns.

(** Types without tuples and pairs. *)
Fixpoint tuple_free (t : fty) : Prop :=
  match t with
  | FCore _ | FMono | FVariant | FArgs => True
  | FOpt t | FDyn t | FRange _ t => tuple_free t
  | FTuple _ => False
  end.

(** Only the last item of the string is a field for a tuple. *)
Fixpoint tuples_last (tys : list fty) (its : list item) (ns : list nat) : Prop :=
  match its, ns with
  | Field _ _ _ :: its, n :: ns => (its = [] \/ forall t, nth_error tys n = Some t -> tuple_free t) /\ tuples_last tys its ns
  | _ :: its, ns => tuples_last tys its ns
  | [], _ => True
  end.

(** The string starts with a field for the argument 255. *)
Definition field_255 (s : list Z) : Prop :=
  exists index c rest, s = 123 :: index ++ c :: rest /\ digits_text index /\ denotes 10 index = 255 /\ (c = 58 \/ c = 125).
(** The arguments are used up to a field for the argument 255; what follows is
    anything. *)
Definition cut_short (s : list Z) (tys : list fty) : Prop :=
  exists its ns e, s = text_of its ++ e /\ good_items tys its ns /\ (forall n, (n < length tys)%nat -> In n ns) /\
    field_255 e /\ Forall digits_text (indices its).

(** ** Validation with tuples

    Where the validation continues behind the specification [spec] at position [p]
    of a string of length [len]: at its end; but when the elements of a tuple have
    a specification, the position of this specification is added
    (ranges.hpp:171-193: [pop] is given a position). *)
Fixpoint field_end (len : nat) (t : fty) (p : nat) (spec : list Z) (q : nat) {struct t} : Prop :=
  match t with
  | FCore _ | FMono | FVariant | FArgs => q = (p + length spec)%nat
  | FOpt t | FDyn t => field_end len t p spec q
  | FRange _ t =>
    exists n e, range_spec spec n e /\
      match e with
      | None => q = (p + length spec)%nat
      | Some e => field_end len t (p + if n then 2 else 1) e q
      end
  | FTuple ts =>
    exists n e, range_spec spec n e /\
      match e with
      | None => q = (p + length spec)%nat
      | Some e =>
        let p' := (p + if n then 2 else 1)%nat in
        exists q', (fix all (ts : list fty) : Prop := match ts with [] => True | t :: ts => field_end len t p' e q' /\ all ts end) ts /\
                   q = Nat.min len (p' + q')
      end
  end.

(** Where formatting continues: the elements of a tuple are also read, where the
    closing brace is, when they have no specification; the position behind the last
    element is added. *)
Fixpoint parse_end (len : nat) (t : fty) (p : nat) (spec : list Z) (q : nat) {struct t} : Prop :=
  match t with
  | FCore _ | FMono | FVariant | FArgs => q = (p + length spec)%nat
  | FOpt t | FDyn t => parse_end len t p spec q
  | FRange _ t =>
    exists n e, range_spec spec n e /\
      match e with
      | None => parse_end len t (p + if n then 1 else 0) [125] q
      | Some e => parse_end len t (p + if n then 2 else 1) e q
      end
  | FTuple ts =>
    exists n e, range_spec spec n e /\
      let p' := (p + match e with None => if n then 1 else 0 | Some _ => if n then 2 else 1 end)%nat in
      let e' := match e with None => [125] | Some e => e end in
      (fix last (ts : list fty) : Prop :=
         match ts with
         | [] => q = (p' + 1)%nat
         | [t] => exists q', parse_end len t p' e' q' /\ q = Nat.min len (p' + q')
         | _ :: ts => last ts
         end) ts
  end.

(** The items that are seen from position [n] on, up to [e], when reading continues
    behind a field as [fend] says. *)
Inductive walks (fend : fty -> nat -> list Z -> nat -> Prop) (tys : list fty) (s : list Z) : nat -> list item -> list nat -> list Z -> Prop :=
| walks_end n e : skipn n s = e -> walks fend tys s n [] [] e
| walks_plain n i rest its ns e :
    match i with Field _ _ _ => False | _ => item_ok i end -> skipn n s = item_text i ++ rest ->
    walks fend tys s (n + length (item_text i)) its ns e -> walks fend tys s n (i :: its) ns e
| walks_field n index colon spec rest its k ns e t q :
    item_ok (Field index colon spec) -> skipn n s = item_text (Field index colon spec) ++ rest ->
    nth_error tys k = Some t -> field_spec t spec ->
    fend t (n + 1 + length index + if colon then 1 else 0)%nat spec q ->
    walks fend tys s q its ns e -> walks fend tys s n (Field index colon spec :: its) (k :: ns) e.

(** The strings that pass the validation. *)
Definition walked (s : list Z) (tys : list fty) : Prop :=
  exists its ns e, walks (field_end (length s)) tys s 0 its ns e /\ numbering (indices its) ns /\ (forall n, (n < length tys)%nat -> In n ns) /\
    (e = [] \/ (field_255 e /\ Forall digits_text (indices its))).
(** The items that formatting sees. *)
Definition format_walk (s : list Z) (tys : list fty) (its : list item) (ns : list nat) : Prop :=
  walks (parse_end (length s)) tys s 0 its ns [] /\ numbering (indices its) ns.

(** No tuple in the field has a specification for its elements. *)
Fixpoint bare_tuples (t : fty) (spec : list Z) {struct t} : Prop :=
  match t with
  | FCore _ | FMono | FVariant | FArgs => True
  | FOpt t | FDyn t => bare_tuples t spec
  | FRange _ t => forall n e, range_spec spec n (Some e) -> bare_tuples t e
  | FTuple _ => exists n, range_spec spec n None
  end.

(** ** Values *)

(** The core type a dynamic width or precision is for. *)
Fixpoint inner_core (t : fty) : option cty :=
  match t with FCore c => Some c | FRange _ t => inner_core t | _ => None end.

(** No field with the number 255. *)
Definition no_255 (s : list Z) : Prop := forall a z b, s <> a ++ [123] ++ repeat 48 z ++ str "255" ++ b.

(** [v] is a value of the type; its texts are shorter than 2^31 - 2. *)
Inductive has_type : fty -> fval -> Prop :=
| ht_core a : carg_ok a -> arg_fits a -> has_type (FCore (type_of a)) (VCore a)
| ht_mono : has_type FMono VMono
| ht_none t : has_type (FOpt t) (VOpt None)
| ht_some t v : has_type t v -> has_type (FOpt t) (VOpt (Some v))
| ht_valueless : has_type FVariant (VVariant None)
| ht_variant t v : has_type t v -> has_type FVariant (VVariant (Some (t, v)))
| ht_range k t vs : Forall (has_type t) vs -> has_type (FRange k t) (VRange vs)
| ht_tuple ts vs : Forall2 has_type ts vs -> has_type (FTuple ts) (VTuple vs)
| ht_dyn t w p v :
    in_range i32 w -> in_range i32 p -> (inner_core t = Some TDouble -> p <= 1100) ->
    has_type t v -> has_type (FDyn t) (VDyn w p v)
| ht_args s text args :
    Forall is_byte text -> vstr_from text (map fst args) = Ok s -> vs_str s = Ok text ->
    Forall tuple_free (map fst args) ->
    Forall (fun tv => has_type (fst tv) (snd tv)) args -> has_type FArgs (VArgs s args).

(** A specification with the type O, which passes the validation but cannot be
    formatted: in a format string, and in format strings within a value. *)
Definition octal_spec (spec : list Z) : Prop := exists x, spec = x ++ str "O}".
Definition upper_octal (s : list Z) : Prop := exists a b, s = a ++ str "O}" ++ b.
Fixpoint octal_in (v : fval) : Prop :=
  match v with
  | VOpt (Some v) | VVariant (Some (_, v)) | VDyn _ _ v => octal_in v
  | VRange vs | VTuple vs => (fix any (vs : list fval) : Prop := match vs with [] => False | v :: vs => octal_in v \/ any vs end) vs
  | VArgs s args =>
    (exists text, vs_str s = Ok text /\ upper_octal text) \/
    (fix any (args : list (fty * fval)) : Prop := match args with [] => False | tv :: args => octal_in (snd tv) \/ any args end) args
  | _ => False
  end.

(** Values that are written in small pieces: floating-point numbers below 10^20
    and precisions up to 100. *)
Definition below_1e20 (bits : Z) : Prop :=
  bits_exponent bits = 2047 \/ double_m bits * pos_pow 2 (double_e bits) < 10 ^ 20 * pos_pow 2 (- double_e bits).
Definition short_precisions (t : list Z) : Prop := forall a d b, t = a ++ [46] ++ d ++ b -> digits_text d -> denotes 10 d <= 100.
Fixpoint short_value (v : fval) : Prop :=
  match v with
  | VCore (ADouble bits) => below_1e20 bits
  | VOpt (Some v) | VVariant (Some (_, v)) => short_value v
  | VDyn _ p v => p <= 100 /\ short_value v
  | VRange vs | VTuple vs => (fix all (vs : list fval) : Prop := match vs with [] => True | v :: vs => short_value v /\ all vs end) vs
  | VArgs s args =>
    (forall text, vs_str s = Ok text -> short_precisions text) /\
    (fix all (args : list (fty * fval)) : Prop := match args with [] => True | tv :: args => short_value (snd tv) /\ all args end) args
  | _ => True
  end.

(** Format strings within a value with numbers below 2^32. *)
Fixpoint small_strings (v : fval) : Prop :=
  match v with
  | VOpt (Some v) | VVariant (Some (_, v)) | VDyn _ _ v => small_strings v
  | VRange vs | VTuple vs => (fix all (vs : list fval) : Prop := match vs with [] => True | v :: vs => small_strings v /\ all vs end) vs
  | VArgs s args =>
    (forall text, vs_str s = Ok text -> small_numbers text) /\
    (fix all (args : list (fty * fval)) : Prop := match args with [] => True | tv :: args => small_strings (snd tv) /\ all args end) args
  | _ => True
  end.

(** ** Output *)

(** What escaped characters and rounded numbers look like in the cases in which
    the code deviates from [core_field]: the padding is that of a text of three
    characters; a decimal is missing. *)
Definition deviant_field (s : format_specs) (a : carg) (out : list Z) : Prop :=
  match a with
  | AChar c =>
    exists l r, out = repeat (sp_fill s) l ++ ([39] ++ escape c ++ [39]) ++ repeat (sp_fill s) r /\
      Z.of_nat l + 3 + Z.of_nat r = Z.max (sp_width s) 3 /\
      match field_align align_left s with
      | align_left => l = O
      | align_right => r = O
      | align_center => r = l \/ r = S l
      | align_none => False
      end
  | ADouble bits => exists body, fixed_body_short s bits body /\ number_field s (sign_text s (bits_negative bits)) body out
  | _ => False
  end.
Definition actual_field (s : format_specs) (a : carg) (out : list Z) : Prop :=
  (~ deviates s a /\ core_field s a out) \/ (deviates s a /\ deviant_field s a out).

(** How a value is to be shown besides its specification: within a range without
    specification (escaped), with a dynamic width and precision, with brackets
    and separator. *)
Record style := mk_style {
  st_debug : bool;
  st_width : Z;
  st_precision : Z;
  st_brackets : list Z * list Z * list Z
}.

Definition default_brackets (t : fty) : list Z * list Z * list Z :=
  match t with
  | FRange range_list _ => (str "[", str "]", str ", ")
  | FRange _ _ => (str "{", str "}", str ", ")
  | FTuple _ => (str "(", str ")", str ", ")
  | _ => ([], [], [])
  end.
(** The pairs of a map. *)
Definition element_brackets (k : rkind) (t : fty) : list Z * list Z * list Z :=
  match k with range_map => ([], [], str ": ") | _ => default_brackets t end.
Definition plain_style (t : fty) : style := mk_style false spec_not_defined spec_not_defined (default_brackets t).

(** The specification of a core value under a style.  Precisions are ignored
    except for numbers and unescaped texts. *)
Definition styled (st : style) (a : carg) (s : format_specs) : format_specs :=
  let s := match st_debug st, a with
           | true, (AChar _ | AStr _) => set_type s 63
           | _, _ => s
           end in
  let s := if st_width st =? spec_not_defined then s else set_width s (Z.max 0 (st_width st)) in
  if st_precision st =? spec_not_defined then s
  else match a with
       | ADouble _ => set_precision s (Z.max 0 (st_precision st))
       | AStr _ => if sp_type s =? 63 then s else set_precision s (Z.max 0 (st_precision st))
       | _ => s
       end.

Definition element_style (st : style) (escaped : bool) (brackets : list Z * list Z * list Z) : style :=
  mk_style escaped (st_width st) (st_precision st) brackets.

Fixpoint join (sep : list Z) (texts : list (list Z)) : list Z :=
  match texts with
  | [] => []
  | [t] => t
  | t :: ts => t ++ sep ++ join sep ts
  end.
Definition enclose (n : bool) (brackets : list Z * list Z * list Z) (texts : list (list Z)) : list Z :=
  let '(o, c, sep) := brackets in
  (if n then [] else o) ++ join sep texts ++ (if n then [] else c).
Definition element_spec (e : option (list Z)) : list Z := match e with None => [125] | Some e => e end.
Definition no_spec (e : option (list Z)) : bool := match e with None => true | Some _ => false end.

(** The items of a string as text, given how fields are shown. *)
Inductive formats (show : nat -> list Z -> list Z -> Prop) : list item -> list nat -> list Z -> Prop :=
| formats_nil : formats show [] [] []
| formats_literal c its ns out : formats show its ns out -> formats show (Literal c :: its) ns (c :: out)
| formats_brace c its ns out : formats show its ns out -> formats show (Brace c :: its) ns (c :: out)
| formats_field i colon spec its n ns o out :
    show n spec o -> formats show its ns out -> formats show (Field i colon spec :: its) (n :: ns) (o ++ out).

Inductive shows : style -> fty -> list Z -> fval -> list Z -> Prop :=
| shows_core st t spec s a out :
    spec_text spec s -> actual_field (styled st a s) a out -> shows st (FCore t) spec (VCore a) out
| shows_mono st spec : shows st FMono spec VMono (str "monostate")
| shows_none st t spec : shows st (FOpt t) spec (VOpt None) (str "none")
| shows_some st t spec v out :
    shows (plain_style t) t spec v out -> shows st (FOpt t) spec (VOpt (Some v)) (str "optional(" ++ out ++ str ")")
| shows_valueless st spec : shows st FVariant spec (VVariant None) (str "variant(valueless by exception)")
| shows_variant_char st t spec c : shows st FVariant spec (VVariant (Some (t, VCore (AChar c)))) (str "variant(" ++ ([39] ++ escape c ++ [39]) ++ str ")")
| shows_variant_text st t spec s : shows st FVariant spec (VVariant (Some (t, VCore (AStr s)))) (str "variant(" ++ ([34] ++ escape_text s ++ [34]) ++ str ")")
| shows_variant st t spec v out :
    (forall c, v <> VCore (AChar c)) -> (forall s, v <> VCore (AStr s)) ->
    shows (plain_style t) t [125] v out -> shows st FVariant spec (VVariant (Some (t, v))) (str "variant(" ++ out ++ str ")")
| shows_range st k t spec n e vs outs :
    range_spec spec n e ->
    Forall2 (shows (element_style st (no_spec e) (element_brackets k t)) t (element_spec e)) vs outs ->
    shows st (FRange k t) spec (VRange vs) (enclose n (st_brackets st) outs)
| shows_tuple st ts spec n e vs outs :
    range_spec spec n e -> length ts = length vs ->
    Forall2 (fun tv out => shows (mk_style (no_spec e) spec_not_defined spec_not_defined (default_brackets (fst tv)))
                                 (fst tv) (element_spec e) (snd tv) out) (combine ts vs) outs ->
    shows st (FTuple ts) spec (VTuple vs) (enclose n (st_brackets st) outs)
| shows_dyn st t spec w p v out :
    shows (mk_style false w p (default_brackets t)) t spec v out -> shows st (FDyn t) spec (VDyn w p v) out
| shows_args st spec s args its ns e out :
    vs_str s = Ok (text_of its ++ e) -> e = [] \/ field_255 e -> good_items (map fst args) its ns ->
    formats (fun n spec o => exists tv, nth_error args n = Some tv /\ shows (plain_style (fst tv)) (fst tv) spec (snd tv) o) its ns out ->
    shows st FArgs spec (VArgs s args) out.

(** The output of a format string with arguments. *)
Definition string_shows (args : list (fty * fval)) : list item -> list nat -> list Z -> Prop :=
  formats (fun n spec o => exists tv, nth_error args n = Some tv /\ shows (plain_style (fst tv)) (fst tv) spec (snd tv) o).

(** The strings the library accepts. *)
Definition accepted (s : list Z) (tys : list fty) : Prop := exists v, vstr_from s tys = Ok v /\ vs_str v = Ok s.
(** Arguments of the types they are passed as. *)
Definition typed (args : list (fty * fval)) : Prop := Forall (fun tv => has_type (fst tv) (snd tv)) args.
(** Arguments and format strings that are written in small pieces. *)
Definition short_values (args : list (fty * fval)) : Prop := Forall (fun tv => short_value (snd tv)) args.
