(** The assertions of the other unit tests, by file. Left out: static assertions about types, the
    addresses of write areas, and user defined formatters (PropsCustom.v has its own examples). *)
From Verif Require Import Base Conversion Reader Buffer Writer Bitset Specs FormatArg FloatArg Float32 Format FormatApi Scan Dragon Bignum CtVector Result Direct Validated Custom Conformance.

(** ** test_ranges.cpp *)
Definition ints (l : list Z) := VRange (map (fun v => VCore (AInt i32 v)) l).
Definition list_of t := FRange range_list t.
Definition arr := (list_of (FCore (TInt i32)), ints [1; 2; 3; 5; 7; 11]).
Definition arr2 := (list_of (FCore (TInt i32)), ints [1; 2]).
Definition two_d := (list_of (list_of (FCore (TInt i32))), VRange [ints [1; 2]; ints [3; 5]; ints [7; 11]]).
Definition strs l := VRange (map (fun s => VCore (AStr s)) l).
Definition literals := (list_of (FCore TStr), strs [str "1234"; str "abcd"]).
Definition a_map := (FRange range_map (FTuple [FCore TStr; FCore (TInt i32)]),
  VRange [VTuple [VCore (AStr (str "one")); VCore (AInt i32 1)]; VTuple [VCore (AStr (str "two")); VCore (AInt i32 2)]]).
Definition a_set := (FRange range_set (FCore TStr), strs [str "one"; str "two"]).
Definition a_pair := (FTuple [FCore (TInt i32); FCore TDouble], VTuple [VCore (AInt i32 42); VCore (AFloat 1069547520)]).
Definition a_tuple := (FTuple [FCore (TInt i32); FCore TDouble; FCore TStr; FCore TChar],
  VTuple [VCore (AInt i32 42); VCore (AFloat 1069547520); VCore (AStr (str "this is tuple")); VCore (AChar 105)]).
Definition empty_tuple := (FTuple [], VTuple []).
Definition to_static (n : nat) (s : list Z) (args : list (fty * fval)) : outcome unit * list Z :=
  match vstr_from s (map fst args) with
  | Ok v => let (o, b) := vformat_to span_vt (span_buffer (repeat 0 n)) v args in (o, span_view b)
  | _ => (Undef, [])
  end.

Example ranges :
  formats (str "{}") [arr] = Ok (str "[1, 2, 3, 5, 7, 11]") /\
  formats (str "{}") [arr2] = Ok (str "[1, 2]") /\
  formats (str "{:x") [arr2] = Err invalid_format /\
  formats (str "{:n") [arr2] = Err invalid_format /\
  formats (str "{::i}") [arr2] = Err invalid_format /\
  fst (to_static 1 (str "{}") [arr2]) = Err eof /\
  fst (to_static 1 (str "x{}") [arr2]) = Err eof /\
  formats (str "{}") [two_d] = Ok (str "[[1, 2], [3, 5], [7, 11]]") /\
  formats (str "{}") [literals] = Ok (str "[""1234"", ""abcd""]") /\
  formats (str "{:n}") [literals] = Ok (str """1234"", ""abcd""") /\
  formats (str "{:n:}") [literals] = Ok (str "1234, abcd") /\
  formats (str "{::#x}") [arr] = Ok (str "[0x1, 0x2, 0x3, 0x5, 0x7, 0xb]") /\
  formats (str "{:n:#x}") [arr] = Ok (str "0x1, 0x2, 0x3, 0x5, 0x7, 0xb") /\
  formats (str "{:::#x}") [two_d] = Ok (str "[[0x1, 0x2], [0x3, 0x5], [0x7, 0xb]]") /\
  formats (str "{:n:n:#x}") [two_d] = Ok (str "0x1, 0x2, 0x3, 0x5, 0x7, 0xb") /\
  formats (str "{}") [a_map] = Ok (str "{""one"": 1, ""two"": 2}") /\
  formats (str "{:n}") [a_map] = Ok (str """one"": 1, ""two"": 2") /\
  formats (str "{:::}") [a_map] = Ok (str "{one: 1, two: 2}") /\
  formats (str "{:::^7}") [a_map] = Ok (str "{  one  :    1   ,   two  :    2   }") /\
  formats (str "{}") [a_set] = Ok (str "{""one"", ""two""}") /\
  formats (str "{}") [(list_of (FCore (TInt i32)), ints [42])] = Ok (str "[42]") /\
  formats (str "{}") [a_pair] = Ok (str "(42, 1.5)") /\
  formats (str "{:n}") [a_pair] = Ok (str "42, 1.5") /\
  formats (str "{::<5}") [a_pair] = Ok (str "(42   , 1.5  )") /\
  formats (str "{:x") [a_pair] = Err invalid_format /\
  formats (str "{:n") [a_pair] = Err invalid_format /\
  formats (str "{::i}") [a_pair] = Err invalid_format /\
  formats (str "{::}") [empty_tuple] = Err invalid_format /\
  fst (to_static 1 (str "{}") [a_pair]) = Err eof /\
  fst (to_static 1 (str "x{}") [a_pair]) = Err eof /\
  formats (str "{}") [a_tuple] = Ok (str "(42, 1.5, ""this is tuple"", 'i')") /\
  formats (str "{}") [empty_tuple] = Ok (str "()") /\
  formats (str "{:n}") [empty_tuple] = Ok [] /\
  formats (str "{}") [(FTuple [FCore (TInt i32); FCore TStr], VTuple [VCore (AInt i32 42); VCore (AStr (str "foo"))])]
    = Ok (str "(42, ""foo"")") /\
  formats (str "{}") [(list_of (FCore TStr), strs [[10; 13; 9; 34; 92]])] = Ok (str "[""\n\r\t\""\\""]") /\
  formats (str "{}") [(list_of (FCore TStr), strs [[7]])] = Ok (str "[""\x07""]") /\
  formats (str "{}") [(list_of (FCore TStr), strs [[127]])] = Ok (str "[""\x7f""]") /\
  formats (str "{}") [(list_of (FCore TStr), strs [[110; 204; 131]])] = Ok (str "[""n\xcc\x83""]").
Proof. vm_compute. repeat split. Qed.

(** ** test_std.cpp *)
Definition opt_int (v : option Z) := (FOpt (FCore (TInt i32)), VOpt (option_map (fun v => VCore (AInt i32 v)) v)).
Definition opt_hello := (FOpt (list_of (FCore TChar)), VOpt (Some (VRange (map (fun c => VCore (AChar c)) (str "hello"))))).
Definition variant v := (FVariant, VVariant v).
Example std_types :
  formats (str "{}") [opt_int None] = Ok (str "none") /\
  formats (str "{:x}") [opt_int (Some 42)] = Ok (str "optional(2a)") /\
  formats (str "{}") [opt_hello] = Ok (str "optional(['h', 'e', 'l', 'l', 'o'])") /\
  formats (str "{::d}") [opt_hello] = Ok (str "optional([104, 101, 108, 108, 111])") /\
  formats (str "{}") [S (str "std::exception")] = Ok (str "std::exception") /\
  formats (str "{}") [S (str "hello")] = Ok (str "hello") /\
  formats (str "{}") [S []] = Ok [] /\
  formats (str "{}") [S (str "/abc/dev")] = Ok (str "/abc/dev") /\
  formats (str "{:x>11}") [S (str "/abc/dev")] = Ok (str "xxx/abc/dev") /\
  formats (str "{:x<11?}") [S (str "/abc/dev")] = Ok (str """/abc/dev""x") /\
  formats (str "{}") [variant (Some (FMono, VMono))] = Ok (str "variant(monostate)") /\
  formats (str "{}") [variant (Some (I i32 42))] = Ok (str "variant(42)") /\
  formats (str "{}") [variant (Some (D 4616414798036126925))] = Ok (str "variant(4.2)") /\
  formats (str "{}") [variant (Some (C 120))] = Ok (str "variant('x')") /\
  formats (str "{}") [variant (Some (P 0))] = Ok (str "variant(0x0)") /\
  formats (str "{}") [variant (Some (S (str "abc")))] = Ok (str "variant(""abc"")") /\
  formats (str "{}") [variant None] = Ok (str "variant(valueless by exception)").
Proof. vm_compute. repeat split. Qed.

(** ** test_dynamic_format_spec.cpp and test_format_as.cpp *)
Definition undef := spec_not_defined.
Definition with_spec (w p : Z) (x : fty * fval) := (FDyn (fst x), VDyn w p (snd x)).
Definition d5_1 := D 4617428107952285286.
Definition three := (list_of (FCore TDouble), VRange (map (fun b => VCore (ADouble b)) [4611905964674086175; 4614489902959897805; 4616752568008179712])).
Example dynamic_format_spec :
  formats (str "{}") [with_spec undef undef (I i32 5)] = Ok (str "5") /\
  formats (str "{:4}") [with_spec undef undef (I i32 5)] = Ok (str "   5") /\
  formats (str "{:f}") [with_spec undef undef d5_1] = Ok (str "5.100000") /\
  formats (str "{:.2f}") [with_spec undef undef d5_1] = Ok (str "5.10") /\
  formats (str "{}") [with_spec 3 3 (I i32 5)] = Ok (str "  5") /\
  formats (str "{:4}") [with_spec 3 3 (I i32 5)] = Ok (str "  5") /\
  formats (str "{:f}") [with_spec 3 3 d5_1] = Ok (str "5.100") /\
  formats (str "{:.0f}") [with_spec 3 3 d5_1] = Ok (str "5.100") /\
  formats (str "{}") [with_spec undef undef (S (str "nothing"))] = Ok (str "nothing") /\
  formats (str "{:^}") [with_spec 4 undef (I i32 42)] = Ok (str " 42 ") /\
  formats (str "{::f}") [with_spec undef 2 three] = Ok (str "[2.10, 3.25, 4.50]") /\
  formats (str "{:f}") [with_spec undef 1 (D 4614253070214989087)] = Ok (str "3.1") /\
  to_static 10 (str "{:x<4x}") [I i32 42] = (Ok tt, str "2axx").
Proof. vm_compute. repeat split. Qed.

(** ** test_format_to_api.cpp, test_format_to_n_api.cpp, test_formatted_size.cpp, test_print.cpp *)
Definition valid (s : list Z) (args : list (fty * fval)) : vstr :=
  match vstr_from s (map fst args) with Ok v => v | _ => mk_vstr false Undef end.
Definition calls {A} (f : vstr -> list (fty * fval) -> A) (s : list Z) (args : list (fty * fval)) : A := f (valid s args) args.
Definition nine := I i32 123456789.
Definition then_format {K A} (vt : vtable K) (r : outcome A * bst K) (s : list Z) : outcome A * bst K :=
  (fst r, snd (calls (vformat_to vt (snd r)) s [])).
Example format_to :
  calls (vformat_to_ptr 1000 [0; 0]) (str "{}") [I i32 42] = (Ok 2%nat, str "42") /\
  calls (vformat_to_it sink_put []) (str "{}") [I i32 42] = (Ok (str "42"), str "42") /\
  calls (vformat_to_back 15 30 []) (str "{}") [I i32 42] = (Ok tt, str "42") /\
  to_static 2 (str "42") [] = (Ok tt, str "42") /\
  to_static 2 (str "{}") [I i32 42] = (Ok tt, str "42") /\
  fst (to_static 2 (str "{}") [I i32 420]) = Err eof /\
  calls (vformat_to_n_it sink_put [] 1) (str "{}") [I i32 421] = (Ok (str "4", 3), str "4") /\
  (let r := then_format span_vt (calls (vformat_to_n span_vt (span_buffer (repeat 0 13)) 10) (str "Hello {}!") [nine]) (str "...") in
   (fst r, span_view (snd r)) = (Ok 16%nat, str "Hello 1234...")) /\
  (let r := calls (vformat_to_n span_vt (span_buffer (repeat 0 13)) 10) (str "Hello {}!") [nine] in
   (fst r, span_view (snd r)) = (Ok 16%nat, str "Hello 1234")) /\
  (let r := calls (vformat_to_n span_vt (span_buffer (repeat 0 10)) 1) (str "{}") [I i32 42] in
   (fst r, span_view (snd r)) = (Ok 2%nat, str "4")).
Proof. vm_compute. repeat split. Qed.

Definition world := S (str "world").
Example sizes_and_files :
  calls vformatted_size (str "{}") [I i32 1] = Ok 1%nat /\
  calls vformatted_size (str "{} {}") [I i32 1; I i32 45] = Ok 4%nat /\
  calls vformatted_size (str "{}") [I i32 1; I i32 45] = Err invalid_format /\
  fst (calls (vprint (Some ([], []))) (str "hello {}") [world]) = Ok tt /\
  fst (calls (vprint None) (str "hello {}") [world]) = Err invalid_data /\
  fst (calls (vprintln (Some ([], []))) (str "hello {}") [world]) = Ok tt /\
  fst (calls (vprintln None) (str "hello {}") [world]) = Err invalid_data /\
  snd (calls (vprintln (snd (calls (vprintln (Some ([], []))) (str "hello {}") [world]))) (str "abc") [])
    = Some (str "hello world" ++ [10] ++ str "abc" ++ [10], []).
Proof. vm_compute. repeat split. Qed.

(** ** test_format_string.cpp and test_format_could_fail_api.cpp *)
Definition three_types := [FCore (TInt i32); FCore TChar; FCore TStr].
Definition args3 := [I i32 42; C 120; S (str "hello")].
Definition format_args s args := (FArgs, VArgs (valid s args) args).
Definition args123 := format_args (str "{}") [I i32 123].
Definition nested_bad1 := format_args (str "{}") [].
Definition nested_bad2 := format_args (str "{") [I i32 123].
Definition plain (s : list Z) (tys : list fty) : option bool :=
  match vstr_from s tys with Ok v => Some (vs_is_plain_str v) | _ => None end.
Definition empty (s : list Z) (tys : list fty) : option (outcome bool) :=
  match vstr_from s tys with Ok v => Some (vs_empty v) | _ => None end.
Definition got (s : list Z) (tys : list fty) : outcome (list Z) := do v <- vstr_from s tys ;; vs_get v.
Definition got_valid (s : list Z) (tys : list fty) : outcome (list Z) := do v <- vstr_from s tys ;; do v <- as_valid v ;; vs_get v.
Example format_string :
  formats (str "abc {} {} {}") args3 = Ok (str "abc 42 x hello") /\
  calls vformatted_size (str "abc {} {} {}") args3 = Ok 14%nat /\
  got (str "{") three_types = Err invalid_format /\
  got_valid (str "{") three_types = Err invalid_format /\
  got (str "{} {}") [FCore (TInt i32); FCore TChar] = Ok (str "{} {}") /\
  got_valid (str "{} {}") [FCore (TInt i32); FCore TChar] = Ok (str "{} {}") /\
  (do v <- valid_from (vstr_from (str "{}") [FCore (TInt i32); FCore TChar]) ;; vs_get v) = Err invalid_format /\
  (do v <- valid_from (vstr_from (str "{} {}") [FCore (TInt i32); FCore TChar]) ;; vs_get v) = Ok (str "{} {}") /\
  plain [] [] = Some true /\ empty [] [] = Some (Ok true) /\
  plain (str "abc 123") [] = Some true /\
  plain (str "abc 123 {{") [] = Some false /\ empty (str "abc 123 {{") [] = Some (Ok false) /\
  plain (str "abc }} 123") [] = Some false /\
  plain (str "abc {} 123") [] = Some false /\
  plain [] [FCore (TInt i32)] = Some false /\ empty [] [FCore (TInt i32)] = Some (Ok false) /\
  plain (str "abc {} {} {}") three_types = Some false /\
  plain (str "abc {} {} {}") [] = Some false /\
  vs_is_plain_str default_vstr = true /\ vs_get default_vstr = Ok [] /\ vs_empty default_vstr = Ok true /\
  vformat default_vstr [] = Ok [] /\
  formats (str "{}") [(FArgs, VArgs default_vstr [])] = Ok [] /\
  formats (str "{}") [format_args [] []] = Ok [].
Proof. vm_compute. repeat split. Qed.

Example format_args_which_could_fail :
  calls vformatted_size (str "{}") [args123] = Ok 3%nat /\
  calls vformatted_size (str "{} {}") [args123; args123] = Ok 7%nat /\
  calls vformatted_size (str "{}") [format_args (str "{}") [format_args (str "{}") [args123]]] = Ok 3%nat /\
  calls vformatted_size (str "{}") [nested_bad1] = Err invalid_format /\
  calls vformatted_size (str "{}") [nested_bad2] = Err invalid_format /\
  formats (str "{}") [args123] = Ok (str "123") /\
  formats (str "{} {}") [args123; args123] = Ok (str "123 123") /\
  formats (str "{}") [format_args (str "{}") [format_args (str "{}") [args123]]] = Ok (str "123") /\
  formats (str "{}") [nested_bad1] = Err invalid_format /\
  formats (str "{}") [nested_bad2] = Err invalid_format /\
  fst (calls (vprint (Some ([], []))) (str "{}") [args123]) = Ok tt /\
  fst (calls (vprint (Some ([], []))) (str "{}") [nested_bad1]) = Err invalid_format /\
  fst (calls (vprint (Some ([], []))) (str "{}") [nested_bad2]) = Err invalid_format /\
  fst (calls (vprintln (Some ([], []))) (str "{} {}") [args123; args123]) = Ok tt /\
  fst (calls (vprintln (Some ([], []))) (str "{}") [nested_bad1]) = Err invalid_format /\
  fst (calls (vprintln (Some ([], []))) (str "{}") [nested_bad2]) = Err invalid_format.
Proof. vm_compute. repeat split. Qed.

(** ** test_reader.cpp (without parse_int, see above) *)
Definition initial := str "abc ghi def".
Example reader_calls :
  (let r := reader_of initial in
   pos r = 0%nat /\ cnt_remaining r = 11%nat /\ view_remaining r = initial /\ view_remaining (unpop r 1) = initial) /\
  fst (run_rops (reader_of initial)
    [RPeek; RPop 1; RPeek; RPop 3; RMatchChar 104; RMatchChar 103; RMatchStr (str "hi!"); RMatchStr (str "hi ");
     RReadChar; RReadN 3; RUnpop 1; RReadN 3; RPeek; RReadChar; RUnpop 1; RPeek; RReadChar; RReadRemaining; RUnpop 1;
     RReadRemaining; RMatchChar 101; RMatchStr (str "end"); RUnpop 500; RReadRemaining])
  = [Ok (VChar 97); Ok VUnit; Ok (VChar 98); Ok VUnit; Err invalid_data; Ok (VChar 103); Err invalid_data; Ok (VView (str "hi "));
     Ok (VChar 100); Err eof; Ok VUnit; Ok (VView (str "def")); Err eof; Err eof; Ok VUnit; Ok (VChar 102); Ok (VChar 102); Ok (VView []); Ok VUnit;
     Ok (VView (str "f")); Err eof; Err eof; Ok VUnit; Ok (VView initial)] /\
  (let r := snd (run_rops (reader_of initial) [RPeek; RPop 1; RPeek; RPop 3]) in
   pos r = 4%nat /\ cnt_remaining r = 7%nat /\ view_remaining r = str "ghi def") /\
  fst (run_rops (reader_of (str "abc -348648"))
    [RReadN 4; RParseInt iso u8 10; RParseInt iso i16 10; RParseInt iso i32 10])
  = [Ok (VView (str "abc ")); Err out_of_range; Err out_of_range; Ok (VInt (-348648))].
Proof. vm_compute. repeat split. Qed.

Definition opts (incl keep ign : bool) : read_until_options :=
  {| include_delimiter := incl; keep_delimiter := keep; ignore_eof := ign |}.
Definition until_c (c : Z) (o : read_until_options) :=
  let (x, r) := read_until_char (reader_of (str "a12bcd")) c o in (x, view_remaining r).
Example reader_read_until :
  let d := default_read_until_options in
  fst (read_until_char (reader_of (str "a12bcd")) 98 d) = Ok (str "a12") /\
  fst (read_until_str (reader_of (str "abcabd123")) (str "abd") d) = Ok (str "abc") /\
  fst (read_until_any_of (reader_of (str "a12bcd")) (str "cb") d) = Ok (str "a12") /\
  fst (read_until_none_of (reader_of (str "a12bcd")) (str "12a") d) = Ok (str "a12") /\
  fst (read_until (reader_of (str "a12bcd")) (fun c => c =? 98) d) = Ok (str "a12") /\
  (forall ign, until_c 99 (opts true true ign) = (Ok (str "a12bc"), str "cd")) /\
  (forall ign, until_c 99 (opts true false ign) = (Ok (str "a12bc"), str "d")) /\
  (forall ign, until_c 99 (opts false true ign) = (Ok (str "a12b"), str "cd")) /\
  (forall ign, until_c 99 (opts false false ign) = (Ok (str "a12b"), str "d")) /\
  (forall i k, until_c 120 (opts i k true) = (Err invalid_data, str "a12bcd")) /\
  (forall i k, until_c 120 (opts i k false) = (Ok (str "a12bcd"), [])) /\
  (forall ign, fst (read_until_char (reader_of []) 120 (opts false false ign)) = Err eof) /\
  fst (run_rops (reader_of (str "0;1;2;3;4")) (repeat (RUntilChar 59 d) 6))
    = [Ok (VView (str "0")); Ok (VView (str "1")); Ok (VView (str "2")); Ok (VView (str "3")); Ok (VView (str "4")); Err eof].
Proof. repeat split; repeat (let b := fresh in intros b; destruct b); vm_compute; reflexivity. Qed.

Definition sub (s : list Z) (skip : nat) (p : Z) (len : option Z) : outcome (list Z) :=
  do r <- subreader 0 (set_pos (reader_of s) skip) p len ;; Ok (view_remaining r).
Definition sub_cases (s : list Z) (skip : nat) : list (outcome (list Z)) :=
  flat_map (fun p => sub s skip (Z.of_nat p) None :: map (fun len => sub s skip (Z.of_nat p) (Some (Z.of_nat len))) (seq 0 4)) (seq 0 4).
Definition sub_expected : list (outcome (list Z)) :=
  flat_map (fun p => Ok (skipn p (str "abc")) :: map (fun len => Ok (firstn len (skipn p (str "abc")))) (seq 0 4)) (seq 0 4).
Definition sub_then (f : reader -> reader) (s : list Z) (skip : nat) : outcome (list Z) :=
  do r <- subreader 0 (set_pos (reader_of s) skip) 0 None ;; Ok (view_remaining (f r)).
Example reader_subreader :
  sub [] 0 0 None = Ok [] /\ sub [] 0 0 (Some 0) = Ok [] /\ sub [] 0 0 (Some 2) = Ok [] /\ sub [] 0 1 (Some 0) = Err eof /\
  sub_cases (str "abc") 0 = sub_expected /\ sub (str "abc") 0 4 None = Err eof /\
  sub_cases (str "123abc") 3 = sub_expected /\ sub (str "123abc") 3 4 None = Err eof /\
  sub_then (fun r => unpop r 1) (str "123abc") 3 = Ok (str "abc") /\ sub_then (fun r => pop r 1) (str "123abc") 3 = Ok (str "bc").
Proof. vm_compute. repeat split. Qed.

(** ** detail/test_conversion.cpp, test_decode.cpp, test_utf.cpp, test_bitset.cpp *)
Definition digit_ok (first off n base : Z) : bool :=
  forallb (fun i => let v := Z.of_nat i in
    match char_to_digit (first + v) base with
    | Some d => (v + off <? base) && (d =? v + off)
    | None => negb (v + off <? base)
    end) (seq 0 (Z.to_nat n)).
Definition all_bases (f : Z -> bool) : bool := forallb (fun b => f (Z.of_nat b)) (seq 2 35).
Definition none_digit (c base : Z) : bool := match char_to_digit c base with None => true | _ => false end.
Example char_to_digit_cases :
  all_bases (digit_ok 48 0 10) = true /\ all_bases (digit_ok 65 10 27) = true /\ all_bases (digit_ok 97 10 27) = true /\
  forallb (fun p => none_digit (fst p) (snd p))
    [(9, 2); (50, 2); (1, 2); (56, 8); (16, 10); (47, 10); (58, 10); (65, 10); (97, 10); (71, 16); (103, 16); (87, 32); (119, 32);
     (91, 36); (123, 36); (128, 2); (127, 2); (128, 36); (127, 36)] = true /\
  map (fun p => char_to_digit (fst p) (snd p)) [(48, 2); (49, 2); (55, 8); (57, 10); (70, 16); (102, 16); (86, 32); (118, 32); (90, 36); (122, 36)]
    = map Some [0; 1; 7; 9; 15; 15; 31; 31; 35; 35].
Proof. vm_compute. repeat split. Qed.

Example decode_cases :
  d_category (decode 9221120237041090560) = cat_nan /\
  d_category (decode 9219994337134247936) = cat_nan /\
  (d_category (decode 9218868437227405312), d_negative (decode 9218868437227405312)) = (cat_infinity, false) /\
  (d_category (decode 18442240474082181120), d_negative (decode 18442240474082181120)) = (cat_infinity, true) /\
  d_finite (decode 1) = mk_finite 2 1 1 (-1075) true /\
  (d_category (decode 0), d_negative (decode 0)) = (cat_zero, false) /\
  (d_category (decode 9223372036854775808), d_negative (decode 9223372036854775808)) = (cat_zero, true) /\
  d_finite (decode 4503599627370496) = mk_finite 18014398509481984 1 2 (-1076) true /\
  d_finite (decode 9218868437227405311) = mk_finite 18014398509481982 1 1 970 false.
Proof. vm_compute. repeat split. Qed.

Definition escapes (input expected : list Z) : Prop :=
  count_size_when_escaped input = length expected /\
  option_map fst (write_escaped (mk_esc input []) (length expected)) = Some expected.
Fixpoint chunks (h : esc_helper) (ns : list nat) : option (list (list Z)) :=
  match ns with
  | [] => Some []
  | n :: ns => match write_escaped h n with
               | Some (out, h) => option_map (cons out) (chunks h ns)
               | None => None
               end
  end.
Example write_escaped_cases :
  escapes (str " !/09:@AZ[`az~") (str " !/09:@AZ[`az~") /\
  escapes [10; 13; 9; 92; 39; 34] (str "\n\r\t\\\'\""") /\
  escapes [0; 25; 127; 255] (str "\x00\x19\x7f\xff") /\
  escapes [120; 5; 13; 19; 9; 116; 128; 48] (str "x\x05\r\x13\tt\x800") /\
  chunks (mk_esc (str "a") []) [0; 1; 4]%nat = Some [[]; str "a"; []] /\
  chunks (mk_esc (str "a") []) [1; 4]%nat = Some [str "a"; []] /\
  chunks (mk_esc [10] []) [0; 2; 4]%nat = Some [[]; str "\n"; []] /\
  chunks (mk_esc [10] []) [1; 1; 4]%nat = Some [str "\"; str "n"; []] /\
  chunks (mk_esc [10] []) [1; 0; 1; 4]%nat = Some [str "\"; []; str "n"; []] /\
  chunks (mk_esc [10] []) [3; 4]%nat = Some [str "\n"; []] /\
  chunks (mk_esc [245] []) [0; 4; 4]%nat = Some [[]; str "\xf5"; []] /\
  chunks (mk_esc [245] []) [1; 1; 1; 1; 4]%nat = Some [str "\"; str "x"; str "f"; str "5"; []] /\
  chunks (mk_esc [245] []) [2; 2; 4]%nat = Some [str "\x"; str "f5"; []] /\
  chunks (mk_esc [245] []) [2; 0; 2; 4]%nat = Some [str "\x"; []; str "f5"; []] /\
  chunks (mk_esc [245] []) [3; 3; 4]%nat = Some [str "\xf"; str "5"; []] /\
  chunks (mk_esc [245] []) [5; 4]%nat = Some [str "\xf5"; []].
Proof. vm_compute. repeat split. Qed.

Definition bits (n upto : nat) : outcome bitset := bitset_set_all (bitset_new n) (seq 0 upto).
Definition all_of (n upto : nat) : outcome bool := do b <- bits n upto ;; bitset_all b.
Definition all_first_of (n upto k : nat) : outcome bool := do b <- bits n upto ;; bitset_all_first b k.
Example bitset_cases :
  (all_of 0 0 = Ok true /\ all_first_of 0 0 0 = Ok true /\ all_first_of 0 0 100 = Ok false) /\
  (all_of 1 0 = Ok false /\ all_first_of 1 0 1 = Ok false /\ all_first_of 1 0 2 = Ok false /\
   all_of 1 1 = Ok true /\ all_first_of 1 1 1 = Ok true /\ all_first_of 1 1 2 = Ok false) /\
  forallb (fun n => match all_of n 0, all_of n (n - 1), all_first_of n (n - 1) (n - 1), all_first_of n (n - 1) n, all_of n n, all_first_of n n n with
                    | Ok false, Ok false, Ok true, Ok false, Ok true, Ok true => true | _, _, _, _, _, _ => false end)
    [8; 13; 64; 123; 256; 74]%nat = true /\
  (all_of 123 55 = Ok false /\ all_first_of 123 55 55 = Ok true /\ all_first_of 123 55 56 = Ok false).
Proof. vm_compute. repeat split. Qed.

(** ** test_writer.cpp *)
Definition mem0 := memory_buffer default_cache_size 0.
Definition writes (cs : list wcall) : list (outcome unit) * list Z :=
  let (log, b) := run_bops mem_vt (fun b => b) mem0 (map Do cs) in (map snd log, mem_view b).
Definition wi (v base : Z) (up : bool) := WInt i32 v base up.
Example writer_calls :
  writes [WChar 99] = ([Ok tt], str "c") /\
  writes [WCharN 99 3] = ([Ok tt], str "ccc") /\
  writes [WCharEscaped 34] = ([Ok tt], str "'\""'") /\
  writes [WStr (str "s")] = ([Ok tt], str "s") /\
  writes [WStrEscaped (str "'")] = ([Ok tt], str """\'""") /\
  writes [WStrEscaped []] = ([Ok tt], str """""") /\
  writes [wi 1 10 false; wi 15 16 false; wi 10 11 true; wi (-3) 2 false; wi 3 1 false; wi 3 37 false; wi 9999 10 false; wi 414 15 false]
    = ([Ok tt; Ok tt; Ok tt; Ok tt; Err invalid_argument; Err invalid_argument; Ok tt; Ok tt], str "1fA-1199991c9") /\
  writes [wi 0 10 false; wi 0 16 false; wi 0 8 false; wi 0 2 false; wi 0 36 false] = (repeat (Ok tt) 5, str "00000") /\
  map snd (fst (run_bops span_vt (fun b => b) empty_span_buffer
    (map Do [WChar 97; WCharN 97 1; WCharEscaped 97; WStr (str "a"); WStrEscaped (str "a"); wi 0 10 false]))) = repeat (Err eof) 6.
Proof. vm_compute. repeat split. Qed.

Definition lorem := str "Lorem ipsum dolor sit amet, consetetur sadipscing elitr, sed diam nonumy eirmod tempor invidunt ut labore et dolor e magna aliquyam erat, sed diam voluptua.".
Definition at_vero := str "At vero eos et accusam et justo duo dolores et ea rebum. Stet clita kasd gubergren, no sea takimata sanctus est Lorem ipsum do lor sit amet.".
Example writer_with_cached_buffer :
  let (log, b) := run_bops (iter_vt sink_put) (fun b => b) (iterator_buffer default_cache_size [])
    (map Do [WCharN 120 129; WStr lorem; WStrEscaped at_vero]) in
  map snd log = [Ok tt; Ok tt; Ok tt] /\
  fst (iter_out sink_put b) = repeat 120 129%nat ++ lorem ++ [34] ++ at_vero ++ [34].
Proof. vm_compute. repeat split. Qed.

(** ** test_buffer.cpp: an area of [n] characters filled with one character *)
Definition fills {K} (vt : vtable K) (b : bst K) (n : nat) (c : Z) : outcome nat * bst K :=
  sdo (a, b) <- get_write_area_of vt b n ;;
  sdo (_, b) <- store_area vt b a (repeat c (s_len a)) ;;
  (Ok (s_len a), b).
Fixpoint filled {K} (vt : vtable K) (b : bst K) (l : list (nat * Z)) : list (outcome nat) * bst K :=
  match l with
  | [] => ([], b)
  | (n, c) :: l => let (o, b) := fills vt b n c in let (os, b) := filled vt b l in (o :: os, b)
  end.
Definition xyz := [(15%nat, 120); (55%nat, 121); (128%nat, 122)].
Definition text_of (l : list (nat * Z)) : list Z := flat_map (fun p => repeat (snd p) (fst p)) l.
Definition mem_cap (b : bst mem_k) : nat := length (m_cells (b_kind b)).
Example memory_buffer_cases :
  mem_cap (memory_buffer 15 0) = 15%nat /\ mem_cap (memory_buffer 15 18) = 18%nat /\ mem_view (memory_buffer 15 0) = [] /\
  map (fun cap => let (os, b) := filled mem_vt (memory_buffer 15 cap) xyz in
    (os, mem_view b, Nat.eqb (mem_cap (mem_reset b)) (mem_cap b), fst (fills mem_vt (mem_reset b) 15 120))) [0; 18]%nat
    = repeat ([Ok 15; Ok 55; Ok 128]%nat, text_of xyz, true, Ok 15%nat) 2%nat /\
  (let l := repeat (1%nat, 97) 16 ++ [(1%nat, 98); (30%nat, 99)] in
   let (os, b) := filled mem_vt mem0 l in mem_view b = text_of l) /\
  (let l := [(7%nat, 120); (5%nat, 121); (8%nat, 122)] in
   let (os, b) := filled mem_vt (memory_buffer 1 0) l in mem_view b = text_of l).
Proof. vm_compute. repeat split. Qed.

Example span_buffer_cases :
  let b0 := span_buffer (repeat 0 198) in
  (let (os, b) := filled span_vt b0 xyz in
   os = [Ok 15; Ok 55; Ok 128]%nat /\ span_view b = text_of xyz /\
   fst (get_write_area_of span_vt b 1) = Err eof /\ option_map s_len (match fst (get_write_area_of span_vt b 0) with Ok a => Some a | _ => None end) = Some 0%nat /\
   fst (fills span_vt (span_reset b) 15 120) = Ok 15%nat) /\
  fst (get_write_area_of_max span_vt empty_span_buffer 100) = Err eof /\
  fst (v_request span_vt empty_span_buffer 0 0) = Err eof /\
  (let b := span_buffer (repeat 0 50) in
   fst (get_write_area_of_max span_vt b 100) = Ok (mk_span 0 50) /\ fst (v_request span_vt b 0 0) = Err eof /\
   let (o, b) := get_write_area_of_max span_vt b 60 in
   o = Ok (mk_span 0 50) /\ fst (get_write_area_of_max span_vt b 60) = Err eof /\
   match fst (get_write_area_of_max span_vt b 0) with Ok a => s_len a = 0%nat | _ => False end) /\
  match fst (get_write_area_of_max span_vt (span_reset (snd (get_write_area_of_max span_vt (span_buffer (repeat 0 542)) 500))) 600) with
  | Ok a => s_len a = 542%nat | _ => False end.
Proof. vm_compute. repeat split. Qed.

Example counting_buffer_cases :
  let b0 := counting_buffer default_cache_size in
  let (o1, b1) := get_write_area_of count_vt b0 15 in
  let (o2, b2) := get_write_area_of count_vt b1 55 in
  let (o3, b3) := get_write_area_of count_vt b2 128 in
  let (o4, b4) := get_write_area_of count_vt b3 128 in
  let (o5, b5) := get_write_area_of count_vt b4 129 in
  map count_count [b0; b1; b2; b3; b4; b5] = [0; 15; 70; 198; 326; 326]%nat /\ o5 = Err eof.
Proof. vm_compute. repeat split. Qed.

Definition it_steps := [(128%nat, 120); (2%nat, 121); (128%nat, 122); (3%nat, 120); (2%nat, 121); (42%nat, 122)].
Example iterator_buffer_cases :
  (let (os, b) := filled ptr_vt (pointer_buffer 1000 (repeat 0 5)) [(2%nat, 120); (3%nat, 121)] in
   os = [Ok 2; Ok 3]%nat /\ ptr_out b = 5%nat /\ b_kind b = str "xxyyy") /\
  (let b0 := iterator_buffer default_cache_size [] in
   let vt := iter_vt sink_put in
   fst (get_write_area_of vt b0 129) = Err eof /\
   forallb (fun k => let b := snd (filled vt b0 (firstn k it_steps)) in
     Nat.eqb (length (i_it (b_kind b))) (length (text_of (firstn (nth k [0; 0; 1; 2; 3; 3; 3]%nat 0%nat) it_steps)))) (seq 0 7) = true /\
   i_it (b_kind (iter_flush sink_put (snd (filled vt b0 it_steps)))) = text_of it_steps /\
   i_it (b_kind (iter_flush sink_put (iter_flush sink_put (snd (filled vt b0 it_steps))))) = text_of it_steps) /\
  (let l := [(2%nat, 120); (42%nat, 121); (3%nat, 122)] in
   let b := snd (filled back_vt (back_buffer 15 15 []) l) in
   k_cont (b_kind b) <> text_of l /\ firstn 47 (k_cont (b_kind b)) = text_of l /\
   k_cont (b_kind (back_flush b)) = text_of l /\ k_cont (b_kind (back_flush (back_flush b))) = text_of l).
Proof. vm_compute. repeat split; try reflexivity; discriminate. Qed.

Example file_buffer_cases :
  let b0 := file_buffer default_cache_size [] [] in
  let b1 := snd (fills file_vt b0 2 121) in
  let (f1, b2) := file_flush b1 in
  let b3 := snd (fills file_vt b2 4 122) in
  let (f2, b4) := file_flush b3 in
  let b5 := snd (filled file_vt b4 [(128%nat, 120); (2%nat, 122)]) in
  fst (get_write_area_of file_vt b0 129) = Err eof /\
  map (fun b => f_out (b_kind b)) [b1; b2; b3; b4; b5] = [[]; str "yy"; str "yy"; str "yyzzzz"; str "yyzzzz" ++ repeat 120 128%nat] /\
  f1 = Ok tt /\ f2 = Ok tt.
Proof. vm_compute. repeat split. Qed.

Definition primary (b : bst (trunc_k (list Z))) : list Z := span_view (tr_primary (b_kind b)).
Definition p64 := span_buffer (repeat 0 64).
Definition tvt := trunc_vt span_vt.
Definition t48 := truncating_buffer default_cache_size p64 48.
Definition t86 := truncating_buffer default_cache_size p64 86.
Definition flushed b := snd (trunc_flush span_vt b).
Definition seen (b : bst (trunc_k (list Z))) : nat * nat := (trunc_count b, length (primary b)).
Definition ab (a b : nat) : list Z := repeat 97 a ++ repeat 98 b.
Example truncating_buffer_cases :
  (forall explicit : bool,
    let b1 := snd (fills tvt t48 40 97) in
    let b1 := if explicit then flushed b1 else b1 in
    seen b1 = (40, if explicit then 40 else 0)%nat /\
    (let b2 := snd (fills tvt b1 8 98) in
     seen b2 = (48, if explicit then 40 else 0)%nat /\
     (let b2 := if explicit then flushed b2 else b2 in
      seen b2 = (48, if explicit then 48 else 0)%nat /\
      let b3 := snd (fills tvt b2 128 99) in seen b3 = (176, 48)%nat /\ seen (flushed b3) = (176, 48)%nat /\ primary (flushed b3) = ab 40 8)) /\
    (let b2 := snd (fills tvt b1 128 98) in seen b2 = (168, 40)%nat /\ primary (flushed b2) = ab 40 8)) /\
  (forall explicit : bool,
    let b1 := snd (fills tvt t48 128 97) in
    seen b1 = (128, 0)%nat /\
    (let b1 := if explicit then flushed b1 else b1 in
     let b2 := snd (get_write_area_of tvt b1 128) in seen b2 = (256, 48)%nat /\ primary b2 = ab 48 0)) /\
  (forall explicit : bool,
    let b1 := snd (fills tvt t86 60 97) in
    let b1 := if explicit then flushed b1 else b1 in
    seen b1 = (60, if explicit then 60 else 0)%nat /\
    (let b2 := snd (fills tvt b1 8 98) in trunc_count b2 = 68%nat /\
     is_ok (fst (get_write_area_of tvt b2 128)) = false /\ primary (snd (get_write_area_of tvt b2 128)) = ab 60 4)) /\
  (let b1 := snd (fills tvt t86 90 97) in
   seen b1 = (90, 0)%nat /\ is_ok (fst (trunc_flush span_vt b1)) = false /\ primary (flushed b1) = ab 64 0) /\
  (let (o, b) := get_write_area_of_max tvt (truncating_buffer default_cache_size p64 64) 138 in
   o = Ok (mk_span 0 128) /\
   let b := snd (store_area tvt b (mk_span 0 128) (repeat 97 128%nat)) in
   primary b = [] /\ fst (trunc_flush span_vt b) = Ok tt /\ primary (flushed b) = ab 64 0).
Proof. split; [|split; [|split]]; try (intros [|]); vm_compute; repeat split. Qed.

(** ** test_iterator.cpp *)
Definition message := str "acbx40!lqcl.qxon0241".
Example truncating_iterator_cases :
  let t := fold_left (trunc_put sink_put) message (mk_trunc_it [] 10 0) in
  t_count t = 20 /\ t_out t = firstn 10 message.
Proof. vm_compute. repeat split. Qed.

(** ** detail/test_ct_vector.cpp *)
Definition vsize (v : vec) := (x_size v, x_cap v).
Fixpoint vsizes (h : heap) (v : vec) (ns : list nat) : list (nat * nat) :=
  match ns with
  | [] => []
  | n :: ns => match vec_reserve h v n with Ok (h, v) => vsize v :: vsizes h v ns | _ => [] end
  end.
Example ct_vector_reserve :
  vsize (fresh_vec 1) = (0, 1)%nat /\
  vsizes [] (fresh_vec 1) [1; 5; 4; 5; 10; 15; 9; 15; 0; 1; 15]%nat
    = [(1, 1); (5, 5); (4, 5); (5, 5); (10, 10); (15, 15); (9, 15); (15, 15); (0, 15); (1, 15); (15, 15)]%nat /\
  vsizes [] (fresh_vec 5) [5; 4; 5; 10; 15; 9; 15; 0; 15]%nat
    = [(5, 5); (4, 5); (5, 5); (10, 10); (15, 15); (9, 15); (15, 15); (0, 15); (15, 15)]%nat.
Proof. vm_compute. repeat split. Qed.

(** ** test_result.cpp *)
Definition r1 : result Z := of_value 1.
Definition r2 : result Z := of_value 2.
Definition e_eof : result Z := of_error (err_code eof).
Definition e_arg : result Z := of_error (err_code invalid_argument).
Definition req := result_eq Z.eqb.
Example result_cases :
  (has_value r1 = true /\ result_value r1 = Ok 1 /\ has_error r1 = false /\ result_error r1 = Abort) /\
  (has_value e_eof = false /\ result_value e_eof = Abort /\ has_error e_eof = true /\
   assume_error e_eof = err_code eof /\ result_error e_eof = Ok (err_code eof)) /\
  (req r1 r1 = Ok true /\ req e_eof e_eof = Ok true /\ req e_eof e_arg = Ok false /\ req r1 e_eof = Ok false /\
   req e_eof r1 = Ok false /\ req r1 r2 = Ok false) /\
  (result_eq_value Z.eqb r1 1 = Ok true /\ result_eq_value Z.eqb r2 1 = Ok false /\
   result_eq_err r1 (err_code eof) = Ok false /\ result_eq_value Z.eqb e_eof 1 = Ok false) /\
  (value_or (of_value (str "abc")) (str "def") = str "abc" /\ value_or (of_error (err_code invalid_data)) (str "def") = str "def") /\
  map to_string_err (map err_code [eof; invalid_argument; invalid_data; invalid_format; out_of_range])
    = [Ok (str "eof"); Ok (str "invalid argument"); Ok (str "invalid data"); Ok (str "invalid format"); Ok (str "out of range")] /\
  to_string_err no_err = Ok (str "no error") /\
  try_value r1 (fun _ => Ok (of_value (str "1"))) = Ok (of_value (str "1")) /\
  try_value e_eof (fun _ => Ok (of_value (str "1"))) = Ok (of_error (err_code eof)).
Proof. vm_compute. repeat split. Qed.
(** ** detail/test_bignum.cpp *)
Definition mx := 2 ^ 32 - 1.
Definition from (n : nat) (l : list Z) : bignum := mk_bn n (l ++ repeat 0 (max_blocks - length l)).
Definition is (o : outcome bignum) (b : bignum) : Prop := o = Ok b.
Definition cmp a b := bn_compare a b.
Example bignum_cases :
  map (fun p => let '(a, b, c) := p in carrying_add a b c)
    [(0, 0, false); (0, 0, true); (1, 0, false); (1, 1, false); (1, 1, true); (mx, 1, false); (mx, 1, true); (1, mx, false); (1, mx, true); (mx, mx, false); (mx, mx, true)]
    = [(0, false); (1, false); (1, false); (2, false); (3, false); (0, true); (1, true); (0, true); (1, true); (mx - 1, true); (mx, true)] /\
  map (fun p => let '(a, b, c) := p in borrowing_sub a b c)
    [(0, 0, false); (0, 0, true); (1, 0, false); (1, 1, false); (1, 1, true); (mx, 1, false); (mx, 1, true); (1, mx, false); (1, mx, true); (mx, mx, false); (mx, mx, true)]
    = [(0, false); (mx, true); (1, false); (0, false); (mx, true); (mx - 1, false); (mx - 2, false); (2, true); (1, true); (0, false); (mx, true)] /\
  map (fun p => let '(a, b, c) := p in carrying_mul a b c)
    [(0, 0, 0); (0, 0, 4); (2, 0, 0); (2, 3, 0); (2, 3, 4); (mx, mx, 0); (mx, mx - 1, 0); (mx, mx, 9); (mx, mx, mx)]
    = [(0, 0); (4, 0); (0, 0); (6, 0); (10, 0); (1, mx - 1); (2, mx - 2); (10, mx - 1); (0, mx)] /\
  bn_of_u32 15 = from 1 [15; 0] /\
  bn_of_u64 15 = from 1 [15; 0] /\
  bn_of_u64 592359492949 = from 2 [3948973397; 137] /\
  bn_is_zero (bn_of_u32 0) = true /\
  bn_is_zero (bn_of_u32 129) = false /\
  bn_is_zero (bn_of_u64 592359492949) = false /\
  is (bn_add_small (bn_of_u32 (mx - 1)) 1) (from 1 [mx; 0]) /\
  is (do b <- bn_add_small (bn_of_u32 (mx - 1)) 1 ;; bn_add_small b 3) (from 2 [2; 1]) /\
  is (bn_add_small (bn_of_u32 (mx - 1)) 4) (from 2 [2; 1]) /\
  is (bn_add (bn_of_u64 1556071210855981587) (bn_of_u64 288265577972367376)) (bn_of_u64 1844336788828348963) /\
  is (bn_add (bn_of_u64 288265577972367376) (bn_of_u64 164119559012368)) (bn_of_u64 288429697531379744) /\
  is (bn_add (bn_of_u64 1556071210855981587) (bn_of_u32 143755544)) (bn_of_u64 1556071210999737131) /\
  is (bn_sub_small (from 2 [2; 1]) 1) (from 2 [1; 1]) /\
  is (bn_sub_small (from 2 [1; 1]) 1) (from 2 [0; 1]) /\
  is (bn_sub_small (from 2 [0; 1]) 3) (from 1 [mx - 2; 0]) /\
  is (bn_sub_small (from 2 [2; 1]) 5) (from 1 [mx - 2; 0]) /\
  is (bn_sub_small (from 1 [mx - 2]) (mx - 2)) (from 1 [0; 0]) /\
  is (bn_sub (from 3 [4; 1; 2]) (from 3 [4; 1; 2])) (from 0 []) /\
  is (bn_sub (from 3 [4; 1; 2]) (from 3 [2; 1; 2])) (from 1 [2]) /\
  is (bn_sub (from 1 [2]) (from 1 [2])) (from 0 [0]) /\
  is (bn_sub (from 3 [4; 1; 2]) (from 2 [4; 1])) (from 3 [0; 0; 2]) /\
  is (bn_sub (from 3 [0; 0; 2]) (from 2 [4; 1])) (from 3 [mx - 3; mx - 1; 1]) /\
  is (bn_sub (from 3 [mx - 3; mx - 1; 1]) (from 1 [2])) (from 3 [mx - 5; mx - 1; 1]) /\
  is (bn_sub (from 3 [0; 0; 2]) (from 1 [2])) (from 3 [mx - 1; mx; 1]) /\
  is (bn_mul_small (from 3 [4; 1; 2]) 2) (from 3 [8; 2; 4]) /\
  is (bn_mul_small (from 3 [8; 2; 4]) 3) (from 3 [24; 6; 12]) /\
  is (bn_mul_small (from 3 [24; 6; 12]) 360000000) (from 4 [50065408; 2160000002; 25032704; 1]) /\
  is (bn_mul_small (from 4 [50065408; 2160000002; 25032704; 1]) 0) (from 4 [0; 0; 0; 0]) /\
  is (bn_muladd_small (from 3 [4; 1; 5]) 1860000000 15) (from 4 [3145032719; 1860000001; 710065408; 2]) /\
  is (bn_mul_digits (from 2 [117327783; 607]) [152131585; 547]) (from 3 [280407975; 1907502595; 332065]) /\
  is (bn_mul_digits (from 3 [959858; 1547; 499669885]) [18959849; 65907; 594953; 9985999; 5499; 598879596]) (from 9 [986308290; 2397938630; 2743294157; 1925473916; 3187470779; 4197912536; 1955690142; 2089129235; 69672730]) /\
  is (bn_mul_pow5 (from 1 [2]) 5) (from 1 [6250]) /\
  is (bn_mul_pow5 (from 2 [1898; 125]) 13) (from 3 [1907158706; 2264035804; 35]) /\
  is (bn_mul_pow5 (from 2 [79581; 498859848]) 57) (from 7 [2630842737; 672537777; 2761821040; 1492594830; 2410358682; 1582604142; 2]) /\
  bn_div_rem_small (bn_of_u64 1556071210855981587) 1156768797 = Ok (176420025, from 2 [1345187746; 0]) /\
  bn_div_rem_small (bn_of_u64 288265577972367376) 1447597603 = Ok (1158428448, from 2 [199133776; 0]) /\
  bn_div_rem_small (bn_of_u64 1771485346875711896) 7 = Ok (2, from 2 [942727226; 58922296]) /\
  bn_div_rem_small (bn_of_u64 1771485346875711896) 1 = Ok (0, bn_of_u64 1771485346875711896) /\
  bn_div_rem_small (bn_of_u64 2359312) 5448 = Ok (328, from 1 [433]) /\
  bn_div_rem_small (bn_of_u64 2359312) 2359328 = Ok (2359312, from 1 [0]) /\
  is (bn_mul_pow2 (from 3 [1; 3; 2]) 1) (from 3 [2; 6; 4]) /\
  is (bn_mul_pow2 (from 3 [2; 6; 4]) 9) (from 3 [1024; 3072; 2048]) /\
  is (bn_mul_pow2 (from 3 [1024; 3072; 2048]) 32) (from 4 [0; 1024; 3072; 2048]) /\
  is (bn_mul_pow2 (from 4 [0; 1024; 3072; 2048]) 67) (from 6 [0; 0; 0; 8192; 24576; 16384]) /\
  is (bn_mul_pow2 (from 6 [0; 0; 0; 8192; 24576; 16384]) 19) (from 7 [0; 0; 0; 0; 1; 3; 2]) /\
  cmp (from 3 [5; 1; 3]) (from 3 [5; 1; 3]) = Ok Eq /\
  cmp (from 3 [5; 1; 3]) (from 2 [1; 3]) = Ok Gt /\
  cmp (from 2 [1; 3]) (from 3 [5; 1; 3]) = Ok Lt /\
  cmp (from 3 [5; 1; 3]) (from 2 [4; 1; 3]) = Ok Gt /\
  cmp (from 2 [4; 1; 3]) (from 3 [5; 1; 3]) = Ok Lt.
Proof. vm_compute. repeat split. Qed.
