(** The assertions of test_scan.cpp, integer_ranges.hpp, detail/test_dragon.cpp and the calls of
    parse_int in test_reader.cpp (446 of them); one Example per test case. The range tests read numbers
    which do not fit their type: they hold under [fwrapv] (see the property about signed overflow).
    Cases with many digits are checked when this file is compiled but not kept (Check instead of Example):
    checking them again without the virtual machine takes minutes. *)
From Verif Require Import Base Conversion Reader Buffer Writer Bitset Specs FormatArg FloatArg Float32 Format FormatApi Scan Dragon Bignum CtVector Result Direct Validated Custom Conformance.

Example scan_scan_API :
  scan iso (str "abc{") (str "abc{{") [] [] = (Ok tt, []) /\
  scan iso (str "1,-2!") (str "{},{}{}") [SInt u32; SInt i32; SChar] [NInt 0; NInt 0; NChar 0] = (Ok tt, [NInt (1); NInt (-2); NChar 33]) /\
  scan iso (str "1,-2!") (str "{},{}{}") [SInt u32; SInt i32; SChar] [NInt 0; NInt 0; NChar 0] = (Ok tt, [NInt (1); NInt (-2); NChar 33]).
Proof. vm_compute. repeat split. Qed.

Example scan_vscan_API :
  scan iso (str "abc{") (str "abc{{") [] [] = (Ok tt, []) /\
  scan iso (str "1,-2!") (str "{},{}{}") [SInt u32; SInt i32; SChar] [NInt 0; NInt 0; NChar 0] = (Ok tt, [NInt (1); NInt (-2); NChar 33]) /\
  scan iso (str "1,-2!") (str "{},{}{}") [SInt u32; SInt i32; SChar] [NInt 0; NInt 0; NChar 0] = (Ok tt, [NInt (1); NInt (-2); NChar 33]).
Proof. vm_compute. repeat split. Qed.

Example scan_scan_from_API :
  after_scan (scan_from iso (reader_of (str "abc")) (str "abc") [] []) = (Ok tt, [], []) /\
  after_scan (scan_from iso (reader_of (str "abc{")) (str "abc{{") [] []) = (Ok tt, [], []) /\
  after_scan (scan_from iso (reader_of (str "1,-2!rest")) (str "{},{}{}") [SInt u32; SInt i32; SChar] [NInt 0; NInt 0; NChar 0]) = (Ok tt, str "rest", [NInt (1); NInt (-2); NChar 33]) /\
  after_scan (scan_from iso (reader_of (str "1,-2!rest")) (str "{},{}{}") [SInt u32; SInt i32; SChar] [NInt 0; NInt 0; NChar 0]) = (Ok tt, str "rest", [NInt (1); NInt (-2); NChar 33]).
Proof. vm_compute. repeat split. Qed.

Example scan_vscan_from_API :
  after_scan (scan_from iso (reader_of (str "1,-2!rest")) (str "{},{}{}") [SInt u32; SInt i32; SChar] [NInt 0; NInt 0; NChar 0]) = (Ok tt, str "rest", [NInt (1); NInt (-2); NChar 33]) /\
  after_scan (scan_from iso (reader_of (str "1,-2!rest")) (str "{},{}{}") [SInt u32; SInt i32; SChar] [NInt 0; NInt 0; NChar 0]) = (Ok tt, str "rest", [NInt (1); NInt (-2); NChar 33]).
Proof. vm_compute. repeat split. Qed.

Example scan_incomplete_scan :
  is_ok (fst (scan iso (str "1,-2rest") (str "{},{}") [SInt i32; SInt i32] [NInt 0; NInt 0])) = false /\
  is_ok (fst (scan iso (str "1,-2rest") (str "{},{}") [SInt i32; SInt i32] [NInt 0; NInt 0])) = false /\
  fst (after_scan (scan_from iso (reader_of (str "1,-2rest")) (str "{},{}") [SInt i32; SInt i32] [NInt 0; NInt 0])) = (Ok tt, str "rest").
Proof. vm_compute. repeat split. Qed.

Example scan_scan_char :
  scan iso (str "o") (str "{}") [SChar] [NChar 0] = (Ok tt, [NChar 111]) /\
  scan iso (str "k") (str "{:c}") [SChar] [NChar 0] = (Ok tt, [NChar 107]) /\
  scan iso (str "f") (str "{:1}") [SChar] [NChar 0] = (Ok tt, [NChar 102]) /\
  scan iso (str "g") (str "{:1c}") [SChar] [NChar 0] = (Ok tt, [NChar 103]) /\
  scan_validate (str "{:c}") [SChar] = Ok true /\
  scan_validate (str "{:0}") [SChar] = Ok false /\
  scan_validate (str "{:2}") [SChar] = Ok false /\
  scan_validate (str "{:d}") [SChar] = Ok false /\
  scan_validate (str "{:#}") [SChar] = Ok false.
Proof. vm_compute. repeat split. Qed.

Example scan_detect_base_1 :
  scan iso (str "0b1011") (str "{:#}") [SInt i32] [NInt 0] = (Ok tt, [NInt (11)]) /\
  scan iso (str "0B101") (str "{:#}") [SInt i32] [NInt 0] = (Ok tt, [NInt (5)]) /\
  scan iso (str "+0b1010") (str "{:#}") [SInt i32] [NInt 0] = (Ok tt, [NInt (10)]) /\
  scan iso (str "-0b111") (str "{:#}") [SInt i32] [NInt 0] = (Ok tt, [NInt (-7)]) /\
  scan iso (str "0175") (str "{:#}") [SInt i32] [NInt 0] = (Ok tt, [NInt (125)]) /\
  scan iso (str "+054") (str "{:#}") [SInt i32] [NInt 0] = (Ok tt, [NInt (44)]) /\
  scan iso (str "-0023") (str "{:#}") [SInt i32] [NInt 0] = (Ok tt, [NInt (-19)]) /\
  scan iso (str "-0") (str "{:#}") [SInt i32] [NInt 0] = (Ok tt, [NInt (0)]) /\
  scan iso (str "0") (str "{:#}") [SInt i32] [NInt 0] = (Ok tt, [NInt (0)]) /\
  scan iso (str "1") (str "{:#}") [SInt i32] [NInt 0] = (Ok tt, [NInt (1)]) /\
  scan iso (str "+1") (str "{:#}") [SInt i32] [NInt 0] = (Ok tt, [NInt (1)]) /\
  scan iso (str "-1") (str "{:#}") [SInt i32] [NInt 0] = (Ok tt, [NInt (-1)]) /\
  scan iso (str "0x58") (str "{:#}") [SInt i32] [NInt 0] = (Ok tt, [NInt (88)]) /\
  scan iso (str "0XAe") (str "{:#}") [SInt i32] [NInt 0] = (Ok tt, [NInt (174)]) /\
  scan iso (str "+0x5") (str "{:#}") [SInt i32] [NInt 0] = (Ok tt, [NInt (5)]) /\
  scan iso (str "-0x1") (str "{:#}") [SInt i32] [NInt 0] = (Ok tt, [NInt (-1)]).
Proof. vm_compute. repeat split. Qed.

Example scan_detect_base_2 :
  fst (scan iso (str "-") (str "{:#}") [SInt i32] [NInt 0]) = Err eof /\
  fst (scan iso (str "--1") (str "{:#}") [SInt i32] [NInt 0]) = Err invalid_data /\
  fst (scan iso (str "a") (str "{:#}") [SInt i32] [NInt 0]) = Err invalid_data /\
  fst (scan iso (str "0xx") (str "{:#}") [SInt i32] [NInt 0]) = Err invalid_data /\
  fst (scan iso (str "0x+1") (str "{:#}") [SInt i32] [NInt 0]) = Err invalid_data /\
  fst (scan iso (str "0x-1") (str "{:#}") [SInt i32] [NInt 0]) = Err invalid_data /\
  scan iso (str "+5") (str "{:#}") [SInt u32] [NInt 0] = (Ok tt, [NInt (5)]) /\
  fst (scan iso (str "-1") (str "{:#}") [SInt u32] [NInt 0]) = Err out_of_range /\
  fst (scan iso (str "-0x5") (str "{:#}") [SInt u32] [NInt 0]) = Err out_of_range /\
  scan_validate (str "{:#x}") [SInt i32] = Ok true /\
  scan_validate (str "{:d#}") [SInt i32] = Ok false /\
  scan_validate (str "{:f}") [SInt i32] = Ok false /\
  scan_validate (str "{:.5}") [SInt i32] = Ok false.
Proof. vm_compute. repeat split. Qed.

Example scan_integral_with_width :
  scan iso (str "1524") (str "{:2}{:2}") [SInt i32; SInt i32] [NInt 0; NInt 0] = (Ok tt, [NInt (15); NInt (24)]) /\
  scan iso (str "+0x5") (str "{:#4}") [SInt i32] [NInt 0] = (Ok tt, [NInt (5)]) /\
  scan iso (str "+0x5") (str "{:#2}x{}") [SInt i32; SInt i32] [NInt 0; NInt 0] = (Ok tt, [NInt (0); NInt (5)]) /\
  fst (scan iso (str "12ab") (str "{:4}") [SInt i32] [NInt 0]) = Err invalid_data /\
  fst (scan iso (str "+0x5") (str "{:#1}0x5") [SInt i32] [NInt 0]) = Err eof /\
  fst (scan iso (str "+0x5") (str "{:#6}") [SInt i32] [NInt 0]) = Err eof /\
  fst (scan iso (str "+0x5") (str "{:#3}5") [SInt i32] [NInt 0]) = Err eof /\
  scan_validate (str "{:+5}") [SInt i32] = Ok false /\
  scan_validate (str "{:-5}") [SInt i32] = Ok false.
Proof. vm_compute. repeat split. Qed.

Example scan_scan_binary :
  scan iso (str "1011") (str "{:b}") [SInt i32] [NInt 0] = (Ok tt, [NInt (11)]) /\
  scan iso (str "+1001") (str "{:b}") [SInt i32] [NInt 0] = (Ok tt, [NInt (9)]) /\
  scan iso (str "-11") (str "{:b}") [SInt i32] [NInt 0] = (Ok tt, [NInt (-3)]) /\
  is_ok (fst (scan iso (str "2") (str "{:b}") [SInt i32] [NInt 0])) = false /\
  scan iso (str "0b10") (str "{:#b}") [SInt i32] [NInt 0] = (Ok tt, [NInt (2)]) /\
  scan iso (str "0B110") (str "{:#b}") [SInt i32] [NInt 0] = (Ok tt, [NInt (6)]) /\
  scan iso (str "+0b101") (str "{:#b}") [SInt i32] [NInt 0] = (Ok tt, [NInt (5)]) /\
  scan iso (str "-0b101") (str "{:#b}") [SInt i32] [NInt 0] = (Ok tt, [NInt (-5)]) /\
  fst (scan iso (str "0") (str "{:#b}") [SInt i32] [NInt 0]) = Err eof /\
  fst (scan iso (str "0o") (str "{:#b}") [SInt i32] [NInt 0]) = Err invalid_data /\
  fst (scan iso (str "0x1") (str "{:#b}") [SInt i32] [NInt 0]) = Err invalid_data /\
  fst (scan iso (str "0b+1") (str "{:#b}") [SInt i32] [NInt 0]) = Err invalid_data /\
  fst (scan iso (str "0b-1") (str "{:#b}") [SInt i32] [NInt 0]) = Err invalid_data.
Proof. vm_compute. repeat split. Qed.

Example scan_scan_octal :
  scan iso (str "75") (str "{:o}") [SInt i32] [NInt 0] = (Ok tt, [NInt (61)]) /\
  scan iso (str "+12") (str "{:o}") [SInt i32] [NInt 0] = (Ok tt, [NInt (10)]) /\
  scan iso (str "-62") (str "{:o}") [SInt i32] [NInt 0] = (Ok tt, [NInt (-50)]) /\
  fst (scan iso (str "8") (str "{:o}") [SInt i32] [NInt 0]) = Err invalid_data /\
  scan iso (str "00") (str "{:#o}") [SInt i32] [NInt 0] = (Ok tt, [NInt (0)]) /\
  scan iso (str "050") (str "{:#o}") [SInt i32] [NInt 0] = (Ok tt, [NInt (40)]) /\
  scan iso (str "+050") (str "{:#o}") [SInt i32] [NInt 0] = (Ok tt, [NInt (40)]) /\
  scan iso (str "-050") (str "{:#o}") [SInt i32] [NInt 0] = (Ok tt, [NInt (-40)]) /\
  fst (scan iso (str "0") (str "{:#o}") [SInt i32] [NInt 0]) = Err eof /\
  fst (scan iso (str "0o") (str "{:#o}") [SInt i32] [NInt 0]) = Err invalid_data /\
  fst (scan iso (str "0+0") (str "{:#o}") [SInt i32] [NInt 0]) = Err invalid_data /\
  fst (scan iso (str "0-0") (str "{:#o}") [SInt i32] [NInt 0]) = Err invalid_data /\
  fst (scan iso (str "0b3") (str "{:#o}") [SInt i32] [NInt 0]) = Err invalid_data /\
  fst (scan iso (str "0x3") (str "{:#o}") [SInt i32] [NInt 0]) = Err invalid_data.
Proof. vm_compute. repeat split. Qed.

Example scan_scan_decimal_1 :
  scan iso (str "49") (str "{}") [SInt i32] [NInt 0] = (Ok tt, [NInt (49)]) /\
  scan iso (str "-87") (str "{}") [SInt i32] [NInt 0] = (Ok tt, [NInt (-87)]) /\
  scan iso (str "59849") (str "{:d}") [SInt i32] [NInt 0] = (Ok tt, [NInt (59849)]) /\
  scan iso (str "+47891") (str "{:d}") [SInt i32] [NInt 0] = (Ok tt, [NInt (47891)]) /\
  scan iso (str "-259") (str "{:d}") [SInt i32] [NInt 0] = (Ok tt, [NInt (-259)]) /\
  fst (scan iso (str "a") (str "{:d}") [SInt i32] [NInt 0]) = Err invalid_data /\
  scan iso (str "42") (str "{:#d}") [SInt i32] [NInt 0] = (Ok tt, [NInt (42)]) /\
  scan iso (str "240") (str "{:#d}") [SInt i32] [NInt 0] = (Ok tt, [NInt (240)]) /\
  scan iso (str "+42") (str "{:#d}") [SInt i32] [NInt 0] = (Ok tt, [NInt (42)]) /\
  scan iso (str "-42") (str "{:#d}") [SInt i32] [NInt 0] = (Ok tt, [NInt (-42)]) /\
  after_scan (scan_from iso (reader_of (str "0x5")) (str "{}") [SInt i32] [NInt 0]) = (Ok tt, str "x5", [NInt (0)]) /\
  after_scan (scan_from iso (reader_of (str "0b3")) (str "{:#d}") [SInt i32] [NInt 0]) = (Ok tt, str "b3", [NInt (0)]) /\
  scan iso (str "0") (str "{:#d}") [SInt i32] [NInt 0] = (Ok tt, [NInt (0)]) /\
  scan iso (str "127") (str "{}") [SInt i8] [NInt 0] = (Ok tt, [NInt (127)]) /\
  fst (scan iso (str "128") (str "{}") [SInt i8] [NInt 0]) = Err out_of_range /\
  scan iso (str "-128") (str "{}") [SInt i8] [NInt 0] = (Ok tt, [NInt (-128)]).
Proof. vm_compute. repeat split. Qed.

Example scan_scan_decimal_2 :
  fst (scan iso (str "-129") (str "{}") [SInt i8] [NInt 0]) = Err out_of_range /\
  scan iso (str "255") (str "{}") [SInt u8] [NInt 0] = (Ok tt, [NInt (255)]) /\
  fst (scan iso (str "256") (str "{}") [SInt u8] [NInt 0]) = Err out_of_range.
Proof. vm_compute. repeat split. Qed.

Example scan_scan_hex :
  scan iso (str "Ad") (str "{:x}") [SInt i32] [NInt 0] = (Ok tt, [NInt (173)]) /\
  scan iso (str "+fe") (str "{:x}") [SInt i32] [NInt 0] = (Ok tt, [NInt (254)]) /\
  scan iso (str "-1d") (str "{:x}") [SInt i32] [NInt 0] = (Ok tt, [NInt (-29)]) /\
  fst (scan iso (str "g") (str "{:x}") [SInt i32] [NInt 0]) = Err invalid_data /\
  scan iso (str "0xdf") (str "{:#x}") [SInt i32] [NInt 0] = (Ok tt, [NInt (223)]) /\
  scan iso (str "0X1e") (str "{:#x}") [SInt i32] [NInt 0] = (Ok tt, [NInt (30)]) /\
  scan iso (str "+0x1e") (str "{:#x}") [SInt i32] [NInt 0] = (Ok tt, [NInt (30)]) /\
  scan iso (str "-0x1e") (str "{:#x}") [SInt i32] [NInt 0] = (Ok tt, [NInt (-30)]) /\
  fst (scan iso (str "da") (str "{:#x}") [SInt i32] [NInt 0]) = Err invalid_data /\
  fst (scan iso (str "0b3") (str "{:#x}") [SInt i32] [NInt 0]) = Err invalid_data /\
  fst (scan iso (str "0o3") (str "{:#x}") [SInt i32] [NInt 0]) = Err invalid_data /\
  fst (scan iso (str "0x+3") (str "{:#x}") [SInt i32] [NInt 0]) = Err invalid_data /\
  fst (scan iso (str "0x-3") (str "{:#x}") [SInt i32] [NInt 0]) = Err invalid_data.
Proof. vm_compute. repeat split. Qed.

Example scan_scan_string_1 :
  scan iso (str "abc") (str "{}") [SStr] [NStr []] = (Ok tt, [NStr (str "abc")]) /\
  scan iso (str "abc") (str "a{}") [SStr] [NStr []] = (Ok tt, [NStr (str "bc")]) /\
  scan iso (str "abc") (str "ab{}") [SStr] [NStr []] = (Ok tt, [NStr (str "c")]) /\
  scan iso (str "abc") (str "abc{}") [SStr] [NStr []] = (Ok tt, [NStr []]) /\
  scan iso (str "abc") (str "{:3}") [SStr] [NStr []] = (Ok tt, [NStr (str "abc")]) /\
  scan iso (str "aaa") (str "{:2}a") [SStr] [NStr []] = (Ok tt, [NStr (str "aa")]) /\
  fst (scan iso (str "abc") (str "{:4}") [SStr] [NStr []]) = Err eof /\
  fst (scan iso (str "abc") (str "{:3}c") [SStr] [NStr []]) = Err eof /\
  scan iso (str "abc") (str "{}b{}") [SStr; SStr] [NStr []; NStr []] = (Ok tt, [NStr (str "a"); NStr (str "c")]) /\
  scan iso (str "abc") (str "{}abc") [SStr] [NStr []] = (Ok tt, [NStr []]) /\
  scan iso (str "abc") (str "{}{}c") [SStr; SStr] [NStr []; NStr []] = (Ok tt, [NStr []; NStr (str "ab")]) /\
  scan iso (str "abc") (str "{:2}{}c") [SStr; SStr] [NStr []; NStr []] = (Ok tt, [NStr (str "ab"); NStr []]) /\
  scan iso (str "abc") (str "{:1}{}c") [SStr; SStr] [NStr []; NStr []] = (Ok tt, [NStr (str "a"); NStr (str "b")]) /\
  scan iso (str "abc{") (str "{}{{") [SStr] [NStr []] = (Ok tt, [NStr (str "abc")]) /\
  scan iso (str "abc}") (str "{}}}") [SStr] [NStr []] = (Ok tt, [NStr (str "abc")]) /\
  scan iso (str "abc{}def}x") (str "{}}}x") [SStr] [NStr []] = (Ok tt, [NStr (str "abc{}def")]).
Proof. vm_compute. repeat split. Qed.

Example scan_scan_string_2 :
  scan iso (str "abc{}def}x12") (str "{}}}x{}") [SStr; SStr] [NStr []; NStr []] = (Ok tt, [NStr (str "abc{}def"); NStr (str "12")]) /\
  fst (scan iso (str "abc{x") (str "{}{{y") [SStr] [NStr []]) = Err invalid_data /\
  scan_validate (str "{:s}") [SStr] = Ok true /\
  scan_validate (str "{:s}") [SStr] = Ok true /\
  scan_validate (str "{:#}") [SStr] = Ok false /\
  scan_validate (str "{:d}") [SStr] = Ok false.
Proof. vm_compute. repeat split. Qed.

Example scan_integral_of_different_types_1 :
  scan fwrapv (str "-127") (str "{}") [SInt i8] [NInt 0] = (Ok tt, [NInt (-127)]) /\
  scan fwrapv (str "-128") (str "{}") [SInt i8] [NInt 0] = (Ok tt, [NInt (-128)]) /\
  fst (scan fwrapv (str "-129") (str "{}") [SInt i8] [NInt 0]) = Err out_of_range /\
  fst (scan fwrapv (str "-1280") (str "{}") [SInt i8] [NInt 0]) = Err out_of_range /\
  scan fwrapv (str "126") (str "{}") [SInt i8] [NInt 0] = (Ok tt, [NInt (126)]) /\
  scan fwrapv (str "127") (str "{}") [SInt i8] [NInt 0] = (Ok tt, [NInt (127)]) /\
  fst (scan fwrapv (str "128") (str "{}") [SInt i8] [NInt 0]) = Err out_of_range /\
  fst (scan fwrapv (str "1270") (str "{}") [SInt i8] [NInt 0]) = Err out_of_range /\
  scan fwrapv (str "1") (str "{}") [SInt u8] [NInt 0] = (Ok tt, [NInt (1)]) /\
  scan fwrapv (str "0") (str "{}") [SInt u8] [NInt 0] = (Ok tt, [NInt (0)]) /\
  fst (scan fwrapv (str "-1") (str "{}") [SInt u8] [NInt 0]) = Err out_of_range /\
  fst (scan fwrapv (str "-10") (str "{}") [SInt u8] [NInt 0]) = Err out_of_range /\
  scan fwrapv (str "254") (str "{}") [SInt u8] [NInt 0] = (Ok tt, [NInt (254)]) /\
  scan fwrapv (str "255") (str "{}") [SInt u8] [NInt 0] = (Ok tt, [NInt (255)]) /\
  fst (scan fwrapv (str "256") (str "{}") [SInt u8] [NInt 0]) = Err out_of_range /\
  fst (scan fwrapv (str "2550") (str "{}") [SInt u8] [NInt 0]) = Err out_of_range.
Proof. vm_compute. repeat split. Qed.

Example scan_integral_of_different_types_2 :
  scan fwrapv (str "-32767") (str "{}") [SInt i16] [NInt 0] = (Ok tt, [NInt (-32767)]) /\
  scan fwrapv (str "-32768") (str "{}") [SInt i16] [NInt 0] = (Ok tt, [NInt (-32768)]) /\
  fst (scan fwrapv (str "-32769") (str "{}") [SInt i16] [NInt 0]) = Err out_of_range /\
  fst (scan fwrapv (str "-327680") (str "{}") [SInt i16] [NInt 0]) = Err out_of_range /\
  scan fwrapv (str "32766") (str "{}") [SInt i16] [NInt 0] = (Ok tt, [NInt (32766)]) /\
  scan fwrapv (str "32767") (str "{}") [SInt i16] [NInt 0] = (Ok tt, [NInt (32767)]) /\
  fst (scan fwrapv (str "327678") (str "{}") [SInt i16] [NInt 0]) = Err out_of_range /\
  fst (scan fwrapv (str "327670") (str "{}") [SInt i16] [NInt 0]) = Err out_of_range /\
  scan fwrapv (str "1") (str "{}") [SInt u16] [NInt 0] = (Ok tt, [NInt (1)]) /\
  scan fwrapv (str "0") (str "{}") [SInt u16] [NInt 0] = (Ok tt, [NInt (0)]) /\
  fst (scan fwrapv (str "-1") (str "{}") [SInt u16] [NInt 0]) = Err out_of_range /\
  fst (scan fwrapv (str "-10") (str "{}") [SInt u16] [NInt 0]) = Err out_of_range /\
  scan fwrapv (str "65534") (str "{}") [SInt u16] [NInt 0] = (Ok tt, [NInt (65534)]) /\
  scan fwrapv (str "65535") (str "{}") [SInt u16] [NInt 0] = (Ok tt, [NInt (65535)]) /\
  fst (scan fwrapv (str "65536") (str "{}") [SInt u16] [NInt 0]) = Err out_of_range /\
  fst (scan fwrapv (str "655350") (str "{}") [SInt u16] [NInt 0]) = Err out_of_range.
Proof. vm_compute. repeat split. Qed.

Example scan_integral_of_different_types_3 :
  scan fwrapv (str "-2147483647") (str "{}") [SInt i32] [NInt 0] = (Ok tt, [NInt (-2147483647)]) /\
  scan fwrapv (str "-2147483648") (str "{}") [SInt i32] [NInt 0] = (Ok tt, [NInt (-2147483648)]) /\
  fst (scan fwrapv (str "-2147483649") (str "{}") [SInt i32] [NInt 0]) = Err out_of_range /\
  fst (scan fwrapv (str "-21474836480") (str "{}") [SInt i32] [NInt 0]) = Err out_of_range /\
  scan fwrapv (str "2147483646") (str "{}") [SInt i32] [NInt 0] = (Ok tt, [NInt (2147483646)]) /\
  scan fwrapv (str "2147483647") (str "{}") [SInt i32] [NInt 0] = (Ok tt, [NInt (2147483647)]) /\
  fst (scan fwrapv (str "2147483648") (str "{}") [SInt i32] [NInt 0]) = Err out_of_range /\
  fst (scan fwrapv (str "21474836470") (str "{}") [SInt i32] [NInt 0]) = Err out_of_range /\
  scan fwrapv (str "1") (str "{}") [SInt u32] [NInt 0] = (Ok tt, [NInt (1)]) /\
  scan fwrapv (str "0") (str "{}") [SInt u32] [NInt 0] = (Ok tt, [NInt (0)]) /\
  fst (scan fwrapv (str "-1") (str "{}") [SInt u32] [NInt 0]) = Err out_of_range /\
  fst (scan fwrapv (str "-10") (str "{}") [SInt u32] [NInt 0]) = Err out_of_range /\
  scan fwrapv (str "4294967294") (str "{}") [SInt u32] [NInt 0] = (Ok tt, [NInt (4294967294)]) /\
  scan fwrapv (str "4294967295") (str "{}") [SInt u32] [NInt 0] = (Ok tt, [NInt (4294967295)]) /\
  fst (scan fwrapv (str "4294967296") (str "{}") [SInt u32] [NInt 0]) = Err out_of_range /\
  fst (scan fwrapv (str "42949672950") (str "{}") [SInt u32] [NInt 0]) = Err out_of_range.
Proof. vm_compute. repeat split. Qed.

Example scan_integral_of_different_types_4 :
  scan fwrapv (str "-9223372036854775807") (str "{}") [SInt i64] [NInt 0] = (Ok tt, [NInt (-9223372036854775807)]) /\
  scan fwrapv (str "-9223372036854775808") (str "{}") [SInt i64] [NInt 0] = (Ok tt, [NInt (-9223372036854775808)]) /\
  fst (scan fwrapv (str "-9223372036854775809") (str "{}") [SInt i64] [NInt 0]) = Err out_of_range /\
  fst (scan fwrapv (str "-92233720368547758080") (str "{}") [SInt i64] [NInt 0]) = Err out_of_range /\
  scan fwrapv (str "9223372036854775806") (str "{}") [SInt i64] [NInt 0] = (Ok tt, [NInt (9223372036854775806)]) /\
  scan fwrapv (str "9223372036854775807") (str "{}") [SInt i64] [NInt 0] = (Ok tt, [NInt (9223372036854775807)]) /\
  fst (scan fwrapv (str "9223372036854775808") (str "{}") [SInt i64] [NInt 0]) = Err out_of_range /\
  fst (scan fwrapv (str "-92233720368547758070") (str "{}") [SInt i64] [NInt 0]) = Err out_of_range /\
  scan fwrapv (str "1") (str "{}") [SInt u64] [NInt 0] = (Ok tt, [NInt (1)]) /\
  scan fwrapv (str "0") (str "{}") [SInt u64] [NInt 0] = (Ok tt, [NInt (0)]) /\
  fst (scan fwrapv (str "-1") (str "{}") [SInt u64] [NInt 0]) = Err out_of_range /\
  fst (scan fwrapv (str "-10") (str "{}") [SInt u64] [NInt 0]) = Err out_of_range /\
  scan fwrapv (str "18446744073709551614") (str "{}") [SInt u64] [NInt 0] = (Ok tt, [NInt (18446744073709551614)]) /\
  scan fwrapv (str "18446744073709551615") (str "{}") [SInt u64] [NInt 0] = (Ok tt, [NInt (18446744073709551615)]) /\
  fst (scan fwrapv (str "18446744073709551616") (str "{}") [SInt u64] [NInt 0]) = Err out_of_range /\
  fst (scan fwrapv (str "184467440737095516150") (str "{}") [SInt u64] [NInt 0]) = Err out_of_range.
Proof. vm_compute. repeat split. Qed.

Example reader_parse_int_ranges_1 :
  fst (parse_int fwrapv i8 10 (reader_of (str "-127"))) = Ok (-127) /\
  fst (parse_int fwrapv i8 10 (reader_of (str "-128"))) = Ok (-128) /\
  fst (parse_int fwrapv i8 10 (reader_of (str "-129"))) = Err out_of_range /\
  fst (parse_int fwrapv i8 10 (reader_of (str "-1280"))) = Err out_of_range /\
  fst (parse_int fwrapv i8 10 (reader_of (str "126"))) = Ok (126) /\
  fst (parse_int fwrapv i8 10 (reader_of (str "127"))) = Ok (127) /\
  fst (parse_int fwrapv i8 10 (reader_of (str "128"))) = Err out_of_range /\
  fst (parse_int fwrapv i8 10 (reader_of (str "1270"))) = Err out_of_range /\
  fst (parse_int fwrapv u8 10 (reader_of (str "1"))) = Ok (1) /\
  fst (parse_int fwrapv u8 10 (reader_of (str "0"))) = Ok (0) /\
  fst (parse_int fwrapv u8 10 (reader_of (str "-1"))) = Err out_of_range /\
  fst (parse_int fwrapv u8 10 (reader_of (str "-10"))) = Err out_of_range /\
  fst (parse_int fwrapv u8 10 (reader_of (str "254"))) = Ok (254) /\
  fst (parse_int fwrapv u8 10 (reader_of (str "255"))) = Ok (255) /\
  fst (parse_int fwrapv u8 10 (reader_of (str "256"))) = Err out_of_range /\
  fst (parse_int fwrapv u8 10 (reader_of (str "2550"))) = Err out_of_range.
Proof. vm_compute. repeat split. Qed.

Example reader_parse_int_ranges_2 :
  fst (parse_int fwrapv i16 10 (reader_of (str "-32767"))) = Ok (-32767) /\
  fst (parse_int fwrapv i16 10 (reader_of (str "-32768"))) = Ok (-32768) /\
  fst (parse_int fwrapv i16 10 (reader_of (str "-32769"))) = Err out_of_range /\
  fst (parse_int fwrapv i16 10 (reader_of (str "-327680"))) = Err out_of_range /\
  fst (parse_int fwrapv i16 10 (reader_of (str "32766"))) = Ok (32766) /\
  fst (parse_int fwrapv i16 10 (reader_of (str "32767"))) = Ok (32767) /\
  fst (parse_int fwrapv i16 10 (reader_of (str "327678"))) = Err out_of_range /\
  fst (parse_int fwrapv i16 10 (reader_of (str "327670"))) = Err out_of_range /\
  fst (parse_int fwrapv u16 10 (reader_of (str "1"))) = Ok (1) /\
  fst (parse_int fwrapv u16 10 (reader_of (str "0"))) = Ok (0) /\
  fst (parse_int fwrapv u16 10 (reader_of (str "-1"))) = Err out_of_range /\
  fst (parse_int fwrapv u16 10 (reader_of (str "-10"))) = Err out_of_range /\
  fst (parse_int fwrapv u16 10 (reader_of (str "65534"))) = Ok (65534) /\
  fst (parse_int fwrapv u16 10 (reader_of (str "65535"))) = Ok (65535) /\
  fst (parse_int fwrapv u16 10 (reader_of (str "65536"))) = Err out_of_range /\
  fst (parse_int fwrapv u16 10 (reader_of (str "655350"))) = Err out_of_range.
Proof. vm_compute. repeat split. Qed.

Example reader_parse_int_ranges_3 :
  fst (parse_int fwrapv i32 10 (reader_of (str "-2147483647"))) = Ok (-2147483647) /\
  fst (parse_int fwrapv i32 10 (reader_of (str "-2147483648"))) = Ok (-2147483648) /\
  fst (parse_int fwrapv i32 10 (reader_of (str "-2147483649"))) = Err out_of_range /\
  fst (parse_int fwrapv i32 10 (reader_of (str "-21474836480"))) = Err out_of_range /\
  fst (parse_int fwrapv i32 10 (reader_of (str "2147483646"))) = Ok (2147483646) /\
  fst (parse_int fwrapv i32 10 (reader_of (str "2147483647"))) = Ok (2147483647) /\
  fst (parse_int fwrapv i32 10 (reader_of (str "2147483648"))) = Err out_of_range /\
  fst (parse_int fwrapv i32 10 (reader_of (str "21474836470"))) = Err out_of_range /\
  fst (parse_int fwrapv u32 10 (reader_of (str "1"))) = Ok (1) /\
  fst (parse_int fwrapv u32 10 (reader_of (str "0"))) = Ok (0) /\
  fst (parse_int fwrapv u32 10 (reader_of (str "-1"))) = Err out_of_range /\
  fst (parse_int fwrapv u32 10 (reader_of (str "-10"))) = Err out_of_range /\
  fst (parse_int fwrapv u32 10 (reader_of (str "4294967294"))) = Ok (4294967294) /\
  fst (parse_int fwrapv u32 10 (reader_of (str "4294967295"))) = Ok (4294967295) /\
  fst (parse_int fwrapv u32 10 (reader_of (str "4294967296"))) = Err out_of_range /\
  fst (parse_int fwrapv u32 10 (reader_of (str "42949672950"))) = Err out_of_range.
Proof. vm_compute. repeat split. Qed.

Example reader_parse_int_ranges_4 :
  fst (parse_int fwrapv i64 10 (reader_of (str "-9223372036854775807"))) = Ok (-9223372036854775807) /\
  fst (parse_int fwrapv i64 10 (reader_of (str "-9223372036854775808"))) = Ok (-9223372036854775808) /\
  fst (parse_int fwrapv i64 10 (reader_of (str "-9223372036854775809"))) = Err out_of_range /\
  fst (parse_int fwrapv i64 10 (reader_of (str "-92233720368547758080"))) = Err out_of_range /\
  fst (parse_int fwrapv i64 10 (reader_of (str "9223372036854775806"))) = Ok (9223372036854775806) /\
  fst (parse_int fwrapv i64 10 (reader_of (str "9223372036854775807"))) = Ok (9223372036854775807) /\
  fst (parse_int fwrapv i64 10 (reader_of (str "9223372036854775808"))) = Err out_of_range /\
  fst (parse_int fwrapv i64 10 (reader_of (str "-92233720368547758070"))) = Err out_of_range /\
  fst (parse_int fwrapv u64 10 (reader_of (str "1"))) = Ok (1) /\
  fst (parse_int fwrapv u64 10 (reader_of (str "0"))) = Ok (0) /\
  fst (parse_int fwrapv u64 10 (reader_of (str "-1"))) = Err out_of_range /\
  fst (parse_int fwrapv u64 10 (reader_of (str "-10"))) = Err out_of_range /\
  fst (parse_int fwrapv u64 10 (reader_of (str "18446744073709551614"))) = Ok (18446744073709551614) /\
  fst (parse_int fwrapv u64 10 (reader_of (str "18446744073709551615"))) = Ok (18446744073709551615) /\
  fst (parse_int fwrapv u64 10 (reader_of (str "18446744073709551616"))) = Err out_of_range /\
  fst (parse_int fwrapv u64 10 (reader_of (str "184467440737095516150"))) = Err out_of_range.
Proof. vm_compute. repeat split. Qed.

Example reader_parse_int_1 :
  fst (parse_int iso i32 10 (reader_of (str "-"))) = Err eof /\
  fst (parse_int iso u32 10 (reader_of (str "-"))) = Err eof /\
  fst (parse_int iso i32 10 (reader_of (str "- "))) = Err invalid_data /\
  fst (parse_int iso u32 10 (reader_of (str "- "))) = Err invalid_data /\
  fst (parse_int iso i32 8 (reader_of (str "-8"))) = Err invalid_data /\
  fst (parse_int iso u32 8 (reader_of (str "-8"))) = Err invalid_data /\
  fst (parse_int iso i32 8 (reader_of (str "-7"))) = Ok (-7) /\
  fst (parse_int iso u32 8 (reader_of (str "-7"))) = Err out_of_range /\
  fst (parse_int iso i32 10 (reader_of (str "+"))) = Err eof /\
  fst (parse_int iso u32 10 (reader_of (str "+"))) = Err eof /\
  fst (parse_int iso i32 10 (reader_of (str "+ "))) = Err invalid_data /\
  fst (parse_int iso u32 10 (reader_of (str "+ "))) = Err invalid_data /\
  fst (parse_int iso i32 8 (reader_of (str "+8"))) = Err invalid_data /\
  fst (parse_int iso u32 8 (reader_of (str "+8"))) = Err invalid_data /\
  fst (parse_int iso i32 8 (reader_of (str "+7"))) = Ok (7) /\
  fst (parse_int iso u32 8 (reader_of (str "+7"))) = Ok (7).
Proof. vm_compute. repeat split. Qed.

Example reader_parse_int_2 :
  fst (parse_int iso i32 10 (reader_of (str "+-1"))) = Err invalid_data /\
  fst (parse_int iso u32 10 (reader_of (str "-+1"))) = Err invalid_data /\
  fst (parse_int iso i32 10 (reader_of (str "0159fE"))) = Ok (159) /\
  fst (parse_int iso i32 2 (reader_of (str "0159fE"))) = Ok (1) /\
  fst (parse_int iso i32 8 (reader_of (str "0159fE"))) = Ok (13) /\
  fst (parse_int iso i32 16 (reader_of (str "0159fE"))) = Ok (88574) /\
  fst (parse_int iso i32 10 (reader_of (str "-1078aB"))) = Ok (-1078) /\
  fst (parse_int iso i32 2 (reader_of (str "-1078aB"))) = Ok (-2) /\
  fst (parse_int iso i32 8 (reader_of (str "-1078aB"))) = Ok (-71) /\
  fst (parse_int iso i32 16 (reader_of (str "-1078aB"))) = Ok (-1079467) /\
  fst (parse_int iso i32 1 (reader_of (str "1"))) = Err invalid_argument /\
  fst (parse_int iso i32 37 (reader_of (str "1"))) = Err invalid_argument.
Proof. vm_compute. repeat split. Qed.

Example dragon_format_exact_1 :
  exact 4591870180066957722 mode_significand (40) = Ok (str "1000000000000000055511151231257827021182", 0) /\
  exact 4591870180066957722 mode_decimal_point (40) = Ok (str "1000000000000000055511151231257827021182", 0) /\
  exact 4601778099247172813 mode_significand (40) = Ok (str "4500000000000000111022302462515654042363", 0) /\
  exact 4601778099247172813 mode_decimal_point (40) = Ok (str "4500000000000000111022302462515654042363", 0) /\
  exact 4602678819172646912 mode_significand (40) = Ok (str "5000000000000000000000000000000000000000", 0) /\
  exact 4602678819172646912 mode_decimal_point (40) = Ok (str "5000000000000000000000000000000000000000", 0) /\
  exact 4606732058837280358 mode_significand (40) = Ok (str "9499999999999999555910790149937383830547", 0) /\
  exact 4606732058837280358 mode_decimal_point (40) = Ok (str "9499999999999999555910790149937383830547", 0) /\
  exact 4636737291354636288 mode_significand (40) = Ok (str "1000000000000000000000000000000000000000", 3) /\
  exact 4636737291354636288 mode_decimal_point (37) = Ok (str "1000000000000000000000000000000000000000", 3) /\
  exact 4652002910794678272 mode_significand (40) = Ok (str "9995000000000000000000000000000000000000", 3) /\
  exact 4652002910794678272 mode_decimal_point (37) = Ok (str "9995000000000000000000000000000000000000", 3) /\
  exact 4599676419421066581 mode_significand (40) = Ok (str "3333333333333333148296162562473909929395", 0) /\
  exact 4599676419421066581 mode_decimal_point (40) = Ok (str "3333333333333333148296162562473909929395", 0) /\
  exact 4614256655080292474 mode_significand (40) = Ok (str "3141592000000000162174274009885266423225", 1) /\
  exact 4614256655080292474 mode_decimal_point (39) = Ok (str "3141592000000000162174274009885266423225", 1).
Proof. vm_compute. repeat split. Qed.

(* dragon_format_exact_2 *)
Check (ltac:(vm_compute; repeat split) :
  exact 4868796335060135680 mode_significand (40) = Ok (str "3141592000000000000000000000000000000000", 18) /\
  exact 4868796335060135680 mode_decimal_point (22) = Ok (str "3141592000000000000000000000000000000000", 18) /\
  exact 4950912855330343670 mode_significand (40) = Ok (str "9999999999999999161139200000000000000000", 23) /\
  exact 4950912855330343670 mode_decimal_point (17) = Ok (str "9999999999999999161139200000000000000000", 23) /\
  exact 9218868437227405311 mode_significand (40) = Ok (str "1797693134862315708145274237317043567981", 309) /\
  exact 9218868437227405311 mode_decimal_point (-269) = Ok (str "1797693134862315708145274237317043567981", 309) /\
  exact 4503599627370496 mode_significand (40) = Ok (str "2225073858507201383090232717332404064219", (-307)) /\
  exact 4503599627370496 mode_decimal_point (347) = Ok (str "2225073858507201383090232717332404064219", (-307)) /\
  exact 1 mode_significand (760) = Ok (str "4940656458412465441765687928682213723650598026143247644255856825006755072702087518652998363616359923797965646954457177309266567103559397963987747960107818781263007131903114045278458171678489821036887186360569987307230500063874091535649843873124733972731696151400317153853980741262385655911710266585566867681870395603106249319452715914924553293054565444011274801297099995419319894090804165633245247571478690147267801593552386115501348035264934720193790268107107491703332226844753335720832431936092382893458368060106011506169809753078342277318329247904982524730776375927247874656084778203734469699533647017972677717585125660551199131504891101451037862738167250955837389733598993664809941164205702637090279242767544565229087538682506419718265533447265625000000000", (-323)) /\
  exact 1 mode_decimal_point (1083) = Ok (str "4940656458412465441765687928682213723650598026143247644255856825006755072702087518652998363616359923797965646954457177309266567103559397963987747960107818781263007131903114045278458171678489821036887186360569987307230500063874091535649843873124733972731696151400317153853980741262385655911710266585566867681870395603106249319452715914924553293054565444011274801297099995419319894090804165633245247571478690147267801593552386115501348035264934720193790268107107491703332226844753335720832431936092382893458368060106011506169809753078342277318329247904982524730776375927247874656084778203734469699533647017972677717585125660551199131504891101451037862738167250955837389733598993664809941164205702637090279242767544565229087538682506419718265533447265625000000000", (-323)) /\
  exact 3305145957255478728 mode_significand (1) = Ok (str "9", (-87)) /\
  exact 3305145957255478728 mode_decimal_point (88) = Ok (str "9", (-87)) /\
  exact 1131101895249690741 mode_significand (2) = Ok (str "46", (-232)) /\
  exact 1131101895249690741 mode_decimal_point (234) = Ok (str "46", (-232)) /\
  exact 5910626004430990155 mode_significand (3) = Ok (str "141", 88) /\
  exact 5910626004430990155 mode_decimal_point (-85) = Ok (str "141", 88)).

(* dragon_format_exact_3 *)
Check (ltac:(vm_compute; repeat split) :
  exact 5169556327165320908 mode_significand (4) = Ok (str "3981", 38) /\
  exact 5169556327165320908 mode_decimal_point (-34) = Ok (str "3981", 38) /\
  exact 5289197412101736395 mode_significand (5) = Ok (str "41040", 46) /\
  exact 5289197412101736395 mode_decimal_point (-41) = Ok (str "41040", 46) /\
  exact 8114753636809865642 mode_significand (6) = Ok (str "292084", 235) /\
  exact 8114753636809865642 mode_decimal_point (-229) = Ok (str "292084", 235) /\
  exact 2788605635199231860 mode_significand (7) = Ok (str "2891946", (-121)) /\
  exact 2788605635199231860 mode_decimal_point (128) = Ok (str "2891946", (-121)) /\
  exact 83322922250798166 mode_significand (8) = Ok (str "43787718", (-302)) /\
  exact 83322922250798166 mode_decimal_point (310) = Ok (str "43787718", (-302)) /\
  exact 6538195998165829956 mode_significand (9) = Ok (str "122770163", 130) /\
  exact 6538195998165829956 mode_decimal_point (-121) = Ok (str "122770163", 130) /\
  exact 6540705463173547763 mode_significand (10) = Ok (str "1841552452", 130) /\
  exact 6540705463173547763 mode_decimal_point (-120) = Ok (str "1841552452", 130) /\
  exact 5261237760331999669 mode_significand (11) = Ok (str "54835744350", 44) /\
  exact 5261237760331999669 mode_decimal_point (-33) = Ok (str "54835744350", 44)).

(* dragon_format_exact_4 *)
Check (ltac:(vm_compute; repeat split) :
  exact 8041647186118247058 mode_significand (12) = Ok (str "389190181146", 230) /\
  exact 8041647186118247058 mode_decimal_point (-218) = Ok (str "389190181146", 230) /\
  exact 8037143586490876562 mode_significand (13) = Ok (str "1945950905732", 230) /\
  exact 8037143586490876562 mode_decimal_point (-217) = Ok (str "1945950905732", 230) /\
  exact 5372490528939408115 mode_significand (14) = Ok (str "14460958381605", 52) /\
  exact 5372490528939408115 mode_decimal_point (-38) = Ok (str "14460958381605", 52) /\
  exact 337707035473321425 mode_significand (15) = Ok (str "417367747458531", (-285)) /\
  exact 337707035473321425 mode_decimal_point (300) = Ok (str "417367747458531", (-285)) /\
  exact 1660280866941059724 mode_significand (16) = Ok (str "1107950772878888", (-196)) /\
  exact 1660280866941059724 mode_decimal_point (212) = Ok (str "1107950772878888", (-196)) /\
  exact 3127075010784424107 mode_significand (17) = Ok (str "12345501366327440", (-98)) /\
  exact 3127075010784424107 mode_decimal_point (115) = Ok (str "12345501366327440", (-98)) /\
  exact 8092346846277075077 mode_significand (18) = Ok (str "925031711960365024", 233) /\
  exact 8092346846277075077 mode_decimal_point (-215) = Ok (str "925031711960365024", 233) /\
  exact 1115399725144531802 mode_significand (19) = Ok (str "4198047150284889840", (-233)) /\
  exact 1115399725144531802 mode_decimal_point (252) = Ok (str "4198047150284889840", (-233))).

(* dragon_format_exact_5 *)
Check (ltac:(vm_compute; repeat split) :
  exact 3291521426156352095 mode_significand (20) = Ok (str "11716315319786511046", (-87)) /\
  exact 3291521426156352095 mode_decimal_point (107) = Ok (str "11716315319786511046", (-87)) /\
  exact 5753326583764063439 mode_significand (21) = Ok (str "432810072844612493629", 77) /\
  exact 5753326583764063439 mode_decimal_point (-56) = Ok (str "432810072844612493629", 77) /\
  exact 2714754826636960890 mode_significand (22) = Ok (str "3317710118160031081518", (-126)) /\
  exact 2714754826636960890 mode_decimal_point (148) = Ok (str "3317710118160031081518", (-126)) /\
  exact 9130860103934702298 mode_significand (1) = Ok (str "3", 303) /\
  exact 9130860103934702298 mode_decimal_point (-302) = Ok (str "3", 303) /\
  exact 7253004531862572998 mode_significand (2) = Ok (str "76", 177) /\
  exact 7253004531862572998 mode_decimal_point (-175) = Ok (str "76", 177) /\
  exact 7248500932235202502 mode_significand (3) = Ok (str "378", 177) /\
  exact 7248500932235202502 mode_decimal_point (-174) = Ok (str "378", 177) /\
  exact 532219561813921069 mode_significand (4) = Ok (str "4350", (-272)) /\
  exact 532219561813921069 mode_decimal_point (276) = Ok (str "4350", (-272)) /\
  exact 4193484964622220787 mode_significand (5) = Ok (str "23037", (-27)) /\
  exact 4193484964622220787 mode_decimal_point (32) = Ok (str "23037", (-27))).

(* dragon_format_exact_6 *)
Check (ltac:(vm_compute; repeat split) :
  exact 6478394945241064620 mode_significand (6) = Ok (str "126301", 126) /\
  exact 6478394945241064620 mode_decimal_point (-120) = Ok (str "126301", 126) /\
  exact 4081102099168333807 mode_significand (7) = Ok (str "7142211", (-35)) /\
  exact 4081102099168333807 mode_decimal_point (42) = Ok (str "7142211", (-35)) /\
  exact 1003664641253156897 mode_significand (8) = Ok (str "13934574", (-240)) /\
  exact 1003664641253156897 mode_decimal_point (248) = Ok (str "13934574", (-240)) /\
  exact 1333054112555413487 mode_significand (9) = Ok (str "141463449", (-218)) /\
  exact 1333054112555413487 mode_decimal_point (227) = Ok (str "141463449", (-218)) /\
  exact 3120930175348577518 mode_significand (10) = Ok (str "4539277920", (-99)) /\
  exact 3120930175348577518 mode_decimal_point (109) = Ok (str "4539277920", (-99)) /\
  exact 3116426575721207022 mode_significand (11) = Ok (str "22696389598", (-99)) /\
  exact 3116426575721207022 mode_decimal_point (110) = Ok (str "22696389598", (-99)) /\
  exact 3111922976093836526 mode_significand (12) = Ok (str "113481947988", (-99)) /\
  exact 3111922976093836526 mode_decimal_point (111) = Ok (str "113481947988", (-99)) /\
  exact 3722435642050146346 mode_significand (13) = Ok (str "7700366561890", (-59)) /\
  exact 3722435642050146346 mode_decimal_point (72) = Ok (str "7700366561890", (-59))).

(* dragon_format_exact_7 *)
Check (ltac:(vm_compute; repeat split) :
  exact 3717932042422775850 mode_significand (14) = Ok (str "38501832809448", (-59)) /\
  exact 3717932042422775850 mode_decimal_point (73) = Ok (str "38501832809448", (-59)) /\
  exact 3713428442795405354 mode_significand (15) = Ok (str "192509164047238", (-59)) /\
  exact 3713428442795405354 mode_decimal_point (74) = Ok (str "192509164047238", (-59)) /\
  exact 7312325848315931338 mode_significand (16) = Ok (str "6898586531774201", 181) /\
  exact 7312325848315931338 mode_decimal_point (-165) = Ok (str "6898586531774201", 181) /\
  exact 5581048456364302559 mode_significand (17) = Ok (str "13076622631878654", 66) /\
  exact 5581048456364302559 mode_decimal_point (-49) = Ok (str "13076622631878654", 66) /\
  exact 7840646807246648332 mode_significand (18) = Ok (str "136052020756121240", 217) /\
  exact 7840646807246648332 mode_decimal_point (-199) = Ok (str "136052020756121240", 217) /\
  exact 7951343930154187393 mode_significand (19) = Ok (str "3592810217475959676", 224) /\
  exact 7951343930154187393 mode_decimal_point (-205) = Ok (str "3592810217475959676", 224) /\
  exact 7493780157268776495 mode_significand (20) = Ok (str "89125197712484551899", 193) /\
  exact 7493780157268776495 mode_decimal_point (-173) = Ok (str "89125197712484551899", 193) /\
  exact 6069208425174192953 mode_significand (21) = Ok (str "558769757362301140950", 98) /\
  exact 6069208425174192953 mode_decimal_point (-77) = Ok (str "558769757362301140950", 98)).

Example dragon_format_exact_8 :
  exact 2827802864145224998 mode_significand (22) = Ok (str "1176257830728540379990", (-118)) /\
  exact 2827802864145224998 mode_decimal_point (140) = Ok (str "1176257830728540379990", (-118)).
Proof. vm_compute. repeat split. Qed.

(* dragon_format_shortest *)
Check (ltac:(vm_compute; repeat split) :
  shortest 4591870180066957722 = Ok (str "1", 0) /\
  shortest 4636737291354636288 = Ok (str "1", 3) /\
  shortest 4599676419421066581 = Ok (str "3333333333333333", 0) /\
  shortest 4607182453159755776 = Ok (str "10000076293945313", 1) /\
  shortest 4614256655080292474 = Ok (str "3141592", 1) /\
  shortest 4868796335060135680 = Ok (str "3141592", 18) /\
  shortest 4895412794951729152 = Ok (str "18446744073709552", 20) /\
  shortest 4950912855330343670 = Ok (str "1", 24) /\
  shortest 9218868437227405311 = Ok (str "17976931348623157", 309) /\
  shortest 4503599627370496 = Ok (str "22250738585072014", (-307)) /\
  shortest 1 = Ok (str "5", (-323)) /\
  shortest 1099727251911443 = Ok (str "5433374549648463", (-308))).

(* dragon_additional_1 *)
Check (ltac:(vm_compute; repeat split) :
  exact 42005966290891775 mode_significand 0 = Ok ([], (-304)) /\
  exact 42005966290891775 mode_significand 1 = Ok (str "8", (-305)) /\
  exact 42005966290891775 mode_significand 2 = Ok (str "76", (-305)) /\
  exact 42005966290891775 mode_significand 3 = Ok (str "756", (-305)) /\
  exact 42005966290891775 mode_significand 4 = Ok (str "7560", (-305)) /\
  exact 42005966290891775 mode_significand 5 = Ok (str "75600", (-305)) /\
  exact 42005966290891775 mode_significand 6 = Ok (str "755997", (-305)) /\
  exact 4591870180066957594 mode_significand 17 = Ok (str "99999999999998229", (-1)) /\
  exact 18373185954351160777 mode_significand 0 = Ok ([], 304) /\
  exact 18373185954351160777 mode_significand 1 = Ok (str "5", 304) /\
  exact 18373185954351160777 mode_significand 2 = Ok (str "46", 304) /\
  exact 18373185954351160777 mode_significand 3 = Ok (str "457", 304) /\
  exact 18374757124371651904 mode_significand 0 = Ok (str "1", 305) /\
  exact 18374757124371651904 mode_significand 1 = Ok (str "6", 304) /\
  exact 18374757124371651904 mode_significand 2 = Ok (str "56", 304) /\
  exact 18374757124371651904 mode_significand 3 = Ok (str "557", 304)).

Example dragon_additional_2 :
  exact 3761126029036565298 mode_decimal_point 15 = Ok ([], (-56)) /\
  exact 4337127894015884452 mode_decimal_point 18 = Ok (str "1", (-17)) /\
  exact 4681301825747756082 mode_decimal_point 16 = Ok (str "955393266803182486910", 5) /\
  exact 4363772758706893618 mode_decimal_point 16 = Ok (str "1", (-15)) /\
  exact 42005966290891775 mode_decimal_point 16 = Ok ([], (-304)).
Proof. vm_compute. repeat split. Qed.

