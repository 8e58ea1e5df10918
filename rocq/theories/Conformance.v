(** Conformance tests: abbreviations.
    The files Conformance*.v replay the project's own unit tests (/repo/test/unit_test) on the
    model. They are tests of the model on concrete inputs, not proofs of properties: they show that the
    definitions that the theorems speak about return, on those inputs, the results that upstream
    asserts about the C++ code. No other file depends on them. *)
From Verif Require Import Base Conversion Reader Buffer Writer Bitset Specs FormatArg FloatArg Float32 Format FormatApi Scan Dragon Bignum CtVector Result Direct Validated Custom.
Definition B (b : bool) := (FCore TBool, VCore (ABool b)).
Definition C (c : Z) := (FCore TChar, VCore (AChar c)).
Definition I (t : ity) (v : Z) := (FCore (TInt t), VCore (AInt t v)).
Definition D (bits : Z) := (FCore TDouble, VCore (ADouble bits)).
Definition F (bits : Z) := (FCore TDouble, VCore (AFloat bits)).
Definition P (p : Z) := (FCore TPtr, VCore (APtr p)).
Definition S (s : list Z) := (FCore TStr, VCore (AStr s)).
Definition formats (s : list Z) (args : list (fty * fval)) : outcome (list Z) :=
  match vstr_from s (map fst args) with Ok v => vformat v args | Err e => Err e | Undef => Undef | Abort => Abort end.
Definition is_ok {A} (o : outcome A) : bool := match o with Ok _ => true | _ => false end.
Definition after_scan (o : outcome unit * (reader * list sval)) : outcome unit * list Z * list sval :=
  (fst o, view_remaining (fst (snd o)), snd (snd o)).
Definition exact (bits : Z) (m : exact_mode) (n : Z) : outcome (list Z * Z) := format_exact (d_finite (decode bits)) m n.
Definition shortest (bits : Z) : outcome (list Z * Z) := format_shortest (d_finite (decode bits)).
