(** The assertions of test_format.cpp (456 of them), in the order of that file; one Example per test case.
    Left out: types whose text depends on the platform and checks of the types alone.
    Cases with many digits are checked when this file is compiled but not kept (Check instead of Example):
    checking them again without the virtual machine takes minutes. *)
From Verif Require Import Base Conversion Reader Buffer Writer Bitset Specs FormatArg FloatArg Float32 Format FormatApi Scan Dragon Bignum CtVector Result Direct Validated Custom Conformance.

Example format_escape :
  formats (str "{{") [] = Ok (str "{") /\
  formats (str "before {{") [] = Ok (str "before {") /\
  formats (str "{{ after") [] = Ok (str "{ after") /\
  formats (str "before {{ after") [] = Ok (str "before { after") /\
  formats (str "}}") [] = Ok (str "}") /\
  formats (str "before }}") [] = Ok (str "before }") /\
  formats (str "}} after") [] = Ok (str "} after") /\
  formats (str "before }} after") [] = Ok (str "before } after") /\
  formats (str "{{}}") [] = Ok (str "{}") /\
  formats (str "{{{0}}}") [I i32 (42)] = Ok (str "{42}").
Proof. vm_compute. repeat split. Qed.

Example format_unmatched_braces :
  formats (str "{") [] = Err invalid_format /\
  formats (str "}") [] = Err invalid_format /\
  formats (str "{0{}") [] = Err invalid_format.
Proof. vm_compute. repeat split. Qed.

Example format_no_args :
  formats (str "test") [] = Ok (str "test").
Proof. vm_compute. repeat split. Qed.

Example format_args_in_different_positions :
  formats (str "{0}") [I i32 (42)] = Ok (str "42") /\
  formats (str "before {0}") [I i32 (42)] = Ok (str "before 42") /\
  formats (str "{0} after") [I i32 (42)] = Ok (str "42 after") /\
  formats (str "before {0} after") [I i32 (42)] = Ok (str "before 42 after") /\
  formats (str "{0} = {1}") [S (str "answer"); I i32 (42)] = Ok (str "answer = 42") /\
  formats (str "{1} is the {0}") [S (str "answer"); I i32 (42)] = Ok (str "42 is the answer") /\
  formats (str "{0}{1}{0}") [S (str "abra"); S (str "cad")] = Ok (str "abracadabra").
Proof. vm_compute. repeat split. Qed.

Example format_auto_arg_index :
  formats (str "{}{}{}") [C 97; C 98; C 99] = Ok (str "abc") /\
  formats (str "{0}{}") [C 97; C 98] = Err invalid_format /\
  formats (str "{}{0}") [C 97; C 98] = Err invalid_format /\
  formats (str "{:.2}") [D 4608238512912635789] = Ok (str "1.2") /\
  formats (str "{0}:.{}") [D 4608238512912635789; I i32 (2)] = Err invalid_format /\
  formats (str "{:.{0}}") [D 4608238512912635789; I i32 (2)] = Err invalid_format /\
  formats (str "{}") [] = Err invalid_format.
Proof. vm_compute. repeat split. Qed.

Example format_empty_specs :
  formats (str "{0:}") [I i32 (42)] = Ok (str "42").
Proof. vm_compute. repeat split. Qed.

Example format_left_align :
  formats (str "{0:<}") [I i32 (42)] = Ok (str "42") /\
  formats (str "{0:<4}") [I i32 (42)] = Ok (str "42  ") /\
  formats (str "{0:<4o}") [I i32 (34)] = Ok (str "42  ") /\
  formats (str "{0:<4x}") [I i32 (66)] = Ok (str "42  ") /\
  formats (str "{0:<5}") [I i32 (-42)] = Ok (str "-42  ") /\
  formats (str "{0:<5}") [I u32 (42)] = Ok (str "42   ") /\
  formats (str "{0:<5}") [I i64 (-42)] = Ok (str "-42  ") /\
  formats (str "{0:<5}") [I u64 (42)] = Ok (str "42   ") /\
  formats (str "{0:<5}") [I i64 (-42)] = Ok (str "-42  ") /\
  formats (str "{0:<5}") [I u64 (42)] = Ok (str "42   ") /\
  formats (str "{0:<5}") [D 13854479828675198976] = Ok (str "-42  ") /\
  formats (str "{0:<5}") [C 99] = Ok (str "c    ") /\
  formats (str "{0:<5}") [S (str "abc")] = Ok (str "abc  ") /\
  formats (str "{0:<8}") [P 64206] = Ok (str "0xface  ").
Proof. vm_compute. repeat split. Qed.

Example format_right_align :
  formats (str "{0:>}") [I i32 (42)] = Ok (str "42") /\
  formats (str "{0:>4}") [I i32 (42)] = Ok (str "  42") /\
  formats (str "{0:>4o}") [I i32 (34)] = Ok (str "  42") /\
  formats (str "{0:>4x}") [I i32 (66)] = Ok (str "  42") /\
  formats (str "{0:>5}") [I i32 (-42)] = Ok (str "  -42") /\
  formats (str "{0:>5}") [I u32 (42)] = Ok (str "   42") /\
  formats (str "{0:>5}") [I i64 (-42)] = Ok (str "  -42") /\
  formats (str "{0:>5}") [I u64 (42)] = Ok (str "   42") /\
  formats (str "{0:>5}") [I i64 (-42)] = Ok (str "  -42") /\
  formats (str "{0:>5}") [I u64 (42)] = Ok (str "   42") /\
  formats (str "{0:>5}") [D 13854479828675198976] = Ok (str "  -42") /\
  formats (str "{0:>5}") [C 99] = Ok (str "    c") /\
  formats (str "{0:>5}") [S (str "abc")] = Ok (str "  abc") /\
  formats (str "{0:>8}") [P 64206] = Ok (str "  0xface").
Proof. vm_compute. repeat split. Qed.

Example format_center_align :
  formats (str "{0:^}") [I i32 (42)] = Ok (str "42") /\
  formats (str "{0:^5}") [I i32 (42)] = Ok (str " 42  ") /\
  formats (str "{0:^5o}") [I i32 (34)] = Ok (str " 42  ") /\
  formats (str "{0:^5x}") [I i32 (66)] = Ok (str " 42  ") /\
  formats (str "{0:^5}") [I i32 (-42)] = Ok (str " -42 ") /\
  formats (str "{0:^5}") [I u32 (42)] = Ok (str " 42  ") /\
  formats (str "{0:^5}") [I i64 (-42)] = Ok (str " -42 ") /\
  formats (str "{0:^5}") [I u64 (42)] = Ok (str " 42  ") /\
  formats (str "{0:^5}") [I i64 (-42)] = Ok (str " -42 ") /\
  formats (str "{0:^5}") [I u64 (42)] = Ok (str " 42  ") /\
  formats (str "{0:^5}") [D 13854479828675198976] = Ok (str " -42 ") /\
  formats (str "{0:^5}") [C 99] = Ok (str "  c  ") /\
  formats (str "{0:^6}") [S (str "abc")] = Ok (str " abc  ") /\
  formats (str "{0:^8}") [P 64206] = Ok (str " 0xface ").
Proof. vm_compute. repeat split. Qed.

Example format_fill :
  formats (str "{0:*>4}") [I i32 (42)] = Ok (str "**42") /\
  formats (str "{0:*>5}") [I i32 (-42)] = Ok (str "**-42") /\
  formats (str "{0:*>5}") [I u32 (42)] = Ok (str "***42") /\
  formats (str "{0:*>5}") [I i64 (-42)] = Ok (str "**-42") /\
  formats (str "{0:*>5}") [I u64 (42)] = Ok (str "***42") /\
  formats (str "{0:*>5}") [I i64 (-42)] = Ok (str "**-42") /\
  formats (str "{0:*>5}") [I u64 (42)] = Ok (str "***42") /\
  formats (str "{0:*>5}") [D 13854479828675198976] = Ok (str "**-42") /\
  formats (str "{0:*<5}") [C 99] = Ok (str "c****") /\
  formats (str "{0:*<5}") [S (str "abc")] = Ok (str "abc**") /\
  formats (str "{0:*>8}") [P 64206] = Ok (str "**0xface") /\
  formats (str "{:}=") [S (str "foo")] = Ok (str "foo=") /\
  formats ([123; 58; 0; 62; 52; 125]) [C 42] = Ok ([0; 0; 0; 42]).
Proof. vm_compute. repeat split. Qed.

Example format_plus_sign :
  formats (str "{0:+}") [I i32 (42)] = Ok (str "+42") /\
  formats (str "{0:+}") [I i32 (-42)] = Ok (str "-42") /\
  formats (str "{0:+}") [I i32 (42)] = Ok (str "+42") /\
  formats (str "{0:+}") [I u32 (42)] = Err invalid_format /\
  formats (str "{0:+}") [I i64 (42)] = Ok (str "+42") /\
  formats (str "{0:+}") [I u64 (42)] = Err invalid_format /\
  formats (str "{0:+}") [I i64 (42)] = Ok (str "+42") /\
  formats (str "{0:+}") [I u64 (42)] = Err invalid_format /\
  formats (str "{0:+}") [D 4631107791820423168] = Ok (str "+42") /\
  formats (str "{0:+") [C 99] = Err invalid_format /\
  formats (str "{0:+}") [C 99] = Err invalid_format /\
  formats (str "{0:+}") [S (str "abc")] = Err invalid_format /\
  formats (str "{0:+}") [P 66] = Err invalid_format.
Proof. vm_compute. repeat split. Qed.

Example format_minus_sign :
  formats (str "{0:-}") [I i32 (42)] = Ok (str "42") /\
  formats (str "{0:-}") [I i32 (-42)] = Ok (str "-42") /\
  formats (str "{0:-}") [I i32 (42)] = Ok (str "42") /\
  formats (str "{0:-}") [I u32 (42)] = Err invalid_format /\
  formats (str "{0:-}") [I i64 (42)] = Ok (str "42") /\
  formats (str "{0:-}") [I i64 (42)] = Ok (str "42") /\
  formats (str "{0:-}") [D 4631107791820423168] = Ok (str "42") /\
  formats (str "{0:-}") [C 99] = Err invalid_format /\
  formats (str "{0:-}") [S (str "abc")] = Err invalid_format /\
  formats (str "{0:-}") [P 66] = Err invalid_format.
Proof. vm_compute. repeat split. Qed.

Example format_space_sign :
  formats (str "{0: }") [I i32 (42)] = Ok (str " 42") /\
  formats (str "{0: }") [I i32 (-42)] = Ok (str "-42") /\
  formats (str "{0: }") [I i32 (42)] = Ok (str " 42") /\
  formats (str "{0: }") [I u32 (42)] = Err invalid_format /\
  formats (str "{0: }") [I i64 (42)] = Ok (str " 42") /\
  formats (str "{0: }") [I u64 (42)] = Err invalid_format /\
  formats (str "{0: }") [I i64 (42)] = Ok (str " 42") /\
  formats (str "{0: }") [I u64 (42)] = Err invalid_format /\
  formats (str "{0: }") [D 4631107791820423168] = Ok (str " 42") /\
  formats (str "{0: ") [C 99] = Err invalid_format /\
  formats (str "{0: }") [C 99] = Err invalid_format /\
  formats (str "{0: }") [S (str "abc")] = Err invalid_format /\
  formats (str "{0: }") [P 66] = Err invalid_format.
Proof. vm_compute. repeat split. Qed.

Example format_hash_flag_1 :
  formats (str "{0:#}") [I i32 (42)] = Ok (str "42") /\
  formats (str "{0:#}") [I i32 (-42)] = Ok (str "-42") /\
  formats (str "{0:#b}") [I i32 (42)] = Ok (str "0b101010") /\
  formats (str "{0:#B}") [I i32 (42)] = Ok (str "0B101010") /\
  formats (str "{0:#b}") [I i32 (-42)] = Ok (str "-0b101010") /\
  formats (str "{0:#x}") [I i32 (66)] = Ok (str "0x42") /\
  formats (str "{0:#X}") [I i32 (66)] = Ok (str "0X42") /\
  formats (str "{0:#x}") [I i32 (-66)] = Ok (str "-0x42") /\
  formats (str "{0:#o}") [I i32 (0)] = Ok (str "0") /\
  formats (str "{0:#o}") [I i32 (34)] = Ok (str "042") /\
  formats (str "{0:#o}") [I i32 (-34)] = Ok (str "-042") /\
  formats (str "{0:#}") [I u32 (42)] = Ok (str "42") /\
  formats (str "{0:#x}") [I u32 (66)] = Ok (str "0x42") /\
  formats (str "{0:#o}") [I u32 (34)] = Ok (str "042") /\
  formats (str "{0:#}") [I i64 (-42)] = Ok (str "-42") /\
  formats (str "{0:#x}") [I i64 (66)] = Ok (str "0x42").
Proof. vm_compute. repeat split. Qed.

Example format_hash_flag_2 :
  formats (str "{0:#x}") [I i64 (-66)] = Ok (str "-0x42") /\
  formats (str "{0:#o}") [I i64 (34)] = Ok (str "042") /\
  formats (str "{0:#o}") [I i64 (-34)] = Ok (str "-042") /\
  formats (str "{0:#}") [I u64 (42)] = Ok (str "42") /\
  formats (str "{0:#x}") [I u64 (66)] = Ok (str "0x42") /\
  formats (str "{0:#o}") [I u64 (34)] = Ok (str "042") /\
  formats (str "{0:#}") [I i64 (-42)] = Ok (str "-42") /\
  formats (str "{0:#x}") [I i64 (66)] = Ok (str "0x42") /\
  formats (str "{0:#x}") [I i64 (-66)] = Ok (str "-0x42") /\
  formats (str "{0:#o}") [I i64 (34)] = Ok (str "042") /\
  formats (str "{0:#o}") [I i64 (-34)] = Ok (str "-042") /\
  formats (str "{0:#}") [I u64 (42)] = Ok (str "42") /\
  formats (str "{0:#x}") [I u64 (66)] = Ok (str "0x42") /\
  formats (str "{0:#o}") [I u64 (34)] = Ok (str "042") /\
  formats (str "{0:#}") [D 13854479828675198976] = Ok (str "-42.") /\
  formats (str "{:#.0e}") [D 4631107791820423168] = Ok (str "4.e+01").
Proof. vm_compute. repeat split. Qed.

Example format_hash_flag_3 :
  formats (str "{:#.0f}") [D 4576918229304087675] = Ok (str "0.") /\
  formats (str "{:#.2g}") [D 4602678819172646912] = Ok (str "0.50") /\
  formats (str "{:#.0f}") [D 4602678819172646912] = Ok (str "0.") /\
  formats (str "{0:#") [C 99] = Err invalid_format /\
  formats (str "{0:#}") [C 99] = Err invalid_format /\
  formats (str "{0:#}") [S (str "abc")] = Err invalid_format /\
  formats (str "{0:#}") [P 66] = Err invalid_format.
Proof. vm_compute. repeat split. Qed.

Example format_zero_flag :
  formats (str "{0:0}") [] = Err invalid_format /\
  formats (str "{0:05}") [I i32 (-42)] = Ok (str "-0042") /\
  formats (str "{0:05}") [I u32 (42)] = Ok (str "00042") /\
  formats (str "{0:05}") [I i64 (-42)] = Ok (str "-0042") /\
  formats (str "{0:05}") [I u64 (42)] = Ok (str "00042") /\
  formats (str "{0:05}") [I i64 (-42)] = Ok (str "-0042") /\
  formats (str "{0:05}") [I u64 (42)] = Ok (str "00042") /\
  formats (str "{0:07}") [D 13854479828675198976] = Ok (str "-000042") /\
  formats (str "{0:0") [C 99] = Err invalid_format /\
  formats (str "{0:05}") [C 99] = Err invalid_format /\
  formats (str "{0:05}") [S (str "abc")] = Err invalid_format /\
  formats (str "{0:05}") [P 66] = Err invalid_format.
Proof. vm_compute. repeat split. Qed.

Example format_zero_flag_and_align :
  formats (str "{0:<05}") [I i32 (42)] = Ok (str "42   ") /\
  formats (str "{0:<05}") [I i32 (-42)] = Ok (str "-42  ") /\
  formats (str "{0:^05}") [I i32 (42)] = Ok (str " 42  ") /\
  formats (str "{0:^05}") [I i32 (-42)] = Ok (str " -42 ") /\
  formats (str "{0:>05}") [I i32 (42)] = Ok (str "   42") /\
  formats (str "{0:>05}") [I i32 (-42)] = Ok (str "  -42") /\
  formats (str "{0:>05}") [I i32 (-42)] = Ok (str "  -42").
Proof. vm_compute. repeat split. Qed.

Example format_zero_flag_sign_and_prefix :
  formats (str "{0:#8x}") [I i32 (42)] = Ok (str "    0x2a") /\
  formats (str "{0:+#8x}") [I i32 (42)] = Ok (str "   +0x2a") /\
  formats (str "{0:#08x}") [I i32 (42)] = Ok (str "0x00002a") /\
  formats (str "{0:+#08x}") [I i32 (42)] = Ok (str "+0x0002a") /\
  formats (str "{0:#8x}") [I i32 (-42)] = Ok (str "   -0x2a") /\
  formats (str "{0:#08x}") [I i32 (-42)] = Ok (str "-0x0002a").
Proof. vm_compute. repeat split. Qed.

Example format_width :
  formats (str "{0:4}") [I i32 (-42)] = Ok (str " -42") /\
  formats (str "{0:5}") [I u32 (42)] = Ok (str "   42") /\
  formats (str "{0:6}") [I i64 (-42)] = Ok (str "   -42") /\
  formats (str "{0:7}") [I u64 (42)] = Ok (str "     42") /\
  formats (str "{0:6}") [I i64 (-42)] = Ok (str "   -42") /\
  formats (str "{0:7}") [I u64 (42)] = Ok (str "     42") /\
  formats (str "{0:8}") [D 13831590283569088430] = Ok (str "   -1.23") /\
  formats (str "{0:10}") [P 51966] = Ok (str "    0xcafe") /\
  formats (str "{0:11}") [C 120] = Ok (str "x          ") /\
  formats (str "{0:12}") [S (str "str")] = Ok (str "str         ") /\
  formats (str "{:#6}") [D 4631107791820423168] = Ok (str "   42.") /\
  formats (str "{:6c}") [I i32 (120)] = Ok (str "x     ") /\
  formats (str "{:06.0f}") [D 4576251327624355367] = Ok (str "000000") /\
  formats (str "{:>06.0f}") [D 4576251327624355367] = Ok (str "     0") /\
  formats (str "{:5?}") [S ([10])] = Ok (str """\n"" ").
Proof. vm_compute. repeat split. Qed.

Example format_precision_1 :
  formats (str "{0:.") [D 0] = Err invalid_format /\
  formats (str "{0:.}") [D 0] = Err invalid_format /\
  formats (str "{0:.2") [I i32 (0)] = Err invalid_format /\
  formats (str "{0:.2}") [I i32 (42)] = Err invalid_format /\
  formats (str "{0:.2f}") [I i32 (42)] = Err invalid_format /\
  formats (str "{0:.2}") [I u32 (42)] = Err invalid_format /\
  formats (str "{0:.2f}") [I u32 (42)] = Err invalid_format /\
  formats (str "{0:.2}") [I i64 (42)] = Err invalid_format /\
  formats (str "{0:.2f}") [I i64 (42)] = Err invalid_format /\
  formats (str "{0:.2}") [I u64 (42)] = Err invalid_format /\
  formats (str "{0:.2f}") [I u64 (42)] = Err invalid_format /\
  formats (str "{0:.2}") [I i64 (42)] = Err invalid_format /\
  formats (str "{0:.2f}") [I i64 (42)] = Err invalid_format /\
  formats (str "{0:.2}") [I u64 (42)] = Err invalid_format /\
  formats (str "{0:.2f}") [I u64 (42)] = Err invalid_format /\
  formats (str "{0:3.0}") [C 120] = Err invalid_format.
Proof. vm_compute. repeat split. Qed.

(* format_precision_2 *)
Check (ltac:(vm_compute; repeat split) :
  formats (str "{0:.2}") [D 4608238512912635789] = Ok (str "1.2") /\
  formats (str "{:.2}") [D 5446014599976507226] = Ok (str "1.2e+56") /\
  formats (str "{0:.3}") [D 4607632778762754458] = Ok (str "1.1") /\
  formats (str "{:.0e}") [D 4607182418800017408] = Ok (str "1e+00") /\
  formats (str "{:9.1e}") [D 0] = Ok (str "  0.0e+00") /\
  formats (str "{:.494}") [D 1] = Ok (str "4.9406564584124654417656879286822137236505980261432476442558568250067550727020875186529983636163599237979656469544571773092665671035593979639877479601078187812630071319031140452784581716784898210368871863605699873072305000638740915356498438731247339727316961514003171538539807412623856559117102665855668676818703956031062493194527159149245532930545654440112748012970999954193198940908041656332452475714786901472678015935523861155013480352649347201937902681071074917033322268447533357208324319361e-324") /\
  formats (str "{:.1074f}") [D 2251799813685247] = Ok (str "0.000000000000000000000000000000000000000000000000000000000000000000000000000000000000000000000000000000000000000000000000000000000000000000000000000000000000000000000000000000000000000000000000000000000000000000000000000000000000000000000000000000000000000000000000000000000000000000000000000000000000000000011125369292536001974794705174196578555408151220097935502168610941188377918212765972516343092975036449821973082295255257060115216350589991277712958367490630117905929859841230389390918834098872901901436146744891481783855515684045945852790730869510920249999085073508530447847699191207220144923697506364091346191991439687709317412516750986976248236963110036026612374264815950891959274661955324658603957152278824769715636076627184299166723835546449645510774971693438713638053647253122439855983379480721317237125449221625555807852490014795730938283082752410423453096175678781984785030237967235773880780838466700475216341692176261952746284764203742099143200565744025992819599676261037554186719805929421244681962777939941034720757232455434770912461317493580281734466552734375") /\
  formats (str "{:#.0f}") [D 4638355772470722560] = Ok (str "123.") /\
  formats (str "{:.02f}") [D 4608236261112822104] = Ok (str "1.23") /\
  formats (str "{:.1g}") [D 4562254508917369340] = Ok (str "0.001") /\
  formats (str "{}") [F 1316166528] = Ok (str "1019666432") /\
  formats (str "{:.0e}") [D 4621537642612260864] = Ok (str "1e+01") /\
  formats (str "{:.1e}") [D 4098448866519239753] = Ok (str "1.0e-34") /\
  formats (str "{0:.2}") [P 51966] = Err invalid_format /\
  formats (str "{0:.2f}") [P 51966] = Err invalid_format /\
  formats (str "{0:.2e}") [P 51966] = Err invalid_format).

Example format_precision_3 :
  formats (str "{0:.-1e}") [D 4631107791820423168] = Err invalid_format /\
  formats (str "{0:.-1e}") [D 4631107791820423168] = Err invalid_format.
Proof. vm_compute. repeat split. Qed.

Example format_format_bool :
  formats (str "{}") [B true] = Ok (str "true") /\
  formats (str "{}") [B false] = Ok (str "false") /\
  formats (str "{:d}") [B true] = Ok (str "1") /\
  formats (str "{:5}") [B true] = Ok (str "true ") /\
  formats (str "{:s}") [B true] = Ok (str "true") /\
  formats (str "{:s}") [B false] = Ok (str "false") /\
  formats (str "{:6s}") [B false] = Ok (str "false ").
Proof. vm_compute. repeat split. Qed.

Example format_format_short :
  formats (str "{0:d}") [I i32 (42)] = Ok (str "42") /\
  formats (str "{0:d}") [I u32 (42)] = Ok (str "42").
Proof. vm_compute. repeat split. Qed.

Example format_format_int :
  formats (str "{0:v") [I i32 (42)] = Err invalid_format /\
  formats (str "{:c}") [I i32 (120)] = Ok (str "x").
Proof. vm_compute. repeat split. Qed.

Example format_format_bin :
  formats (str "{0:b}") [I i32 (0)] = Ok (str "0") /\
  formats (str "{0:b}") [I i32 (42)] = Ok (str "101010") /\
  formats (str "{0:b}") [I u32 (42)] = Ok (str "101010") /\
  formats (str "{0:b}") [I i32 (-42)] = Ok (str "-101010") /\
  formats (str "{0:b}") [I i32 (12345)] = Ok (str "11000000111001") /\
  formats (str "{0:b}") [I i32 (305419896)] = Ok (str "10010001101000101011001111000") /\
  formats (str "{0:b}") [I u32 (2427178479)] = Ok (str "10010000101010111100110111101111") /\
  formats (str "{0:b}") [I u32 (4294967295)] = Ok (str "11111111111111111111111111111111").
Proof. vm_compute. repeat split. Qed.

Example format_format_dec :
  formats (str "{0}") [I i32 (0)] = Ok (str "0") /\
  formats (str "{0}") [I i32 (42)] = Ok (str "42") /\
  formats (str "{:}>") [I i32 (42)] = Ok (str "42>") /\
  formats (str "{0:d}") [I i32 (42)] = Ok (str "42") /\
  formats (str "{0}") [I u32 (42)] = Ok (str "42") /\
  formats (str "{0}") [I i32 (-42)] = Ok (str "-42") /\
  formats (str "{0}") [I i32 (12345)] = Ok (str "12345") /\
  formats (str "{0}") [I i32 (67890)] = Ok (str "67890").
Proof. vm_compute. repeat split. Qed.

Example format_format_hex :
  formats (str "{0:x}") [I i32 (0)] = Ok (str "0") /\
  formats (str "{0:x}") [I i32 (66)] = Ok (str "42") /\
  formats (str "{0:x}") [I u32 (66)] = Ok (str "42") /\
  formats (str "{0:x}") [I i32 (-66)] = Ok (str "-42") /\
  formats (str "{0:x}") [I i32 (305419896)] = Ok (str "12345678") /\
  formats (str "{0:x}") [I u32 (2427178479)] = Ok (str "90abcdef") /\
  formats (str "{0:X}") [I i32 (305419896)] = Ok (str "12345678") /\
  formats (str "{0:X}") [I u32 (2427178479)] = Ok (str "90ABCDEF").
Proof. vm_compute. repeat split. Qed.

Example format_format_oct :
  formats (str "{0:o}") [I i32 (0)] = Ok (str "0") /\
  formats (str "{0:o}") [I i32 (34)] = Ok (str "42") /\
  formats (str "{0:o}") [I u32 (34)] = Ok (str "42") /\
  formats (str "{0:o}") [I i32 (-34)] = Ok (str "-42") /\
  formats (str "{0:o}") [I i32 (2739128)] = Ok (str "12345670").
Proof. vm_compute. repeat split. Qed.

Example format_format_double :
  formats (str "{}") [D 0] = Ok (str "0") /\
  formats (str "{:}") [D 0] = Ok (str "0") /\
  formats (str "{:f}") [D 0] = Ok (str "0.000000") /\
  formats (str "{:g}") [D 0] = Ok (str "0") /\
  formats (str "{:}") [D 4645615188041950822] = Ok (str "392.65") /\
  formats (str "{:g}") [D 4645615188041950822] = Ok (str "392.65") /\
  formats (str "{:G}") [D 4645615188041950822] = Ok (str "392.65") /\
  formats (str "{:g}") [D 4707020849150951424] = Ok (str "4.9014e+06") /\
  formats (str "{:f}") [D 4645615188041950822] = Ok (str "392.650000") /\
  formats (str "{:F}") [D 4645615188041950822] = Ok (str "392.650000") /\
  formats (str "{0:e}") [D 4645615188041950822] = Ok (str "3.926500e+02") /\
  formats (str "{0:E}") [D 4645615188041950822] = Ok (str "3.926500E+02") /\
  formats (str "{0:+010.4g}") [D 4645615188041950822] = Ok (str "+0000392.6") /\
  formats (str "{:f}") [D 4890909195324358656] = Ok (str "9223372036854775808.000000").
Proof. vm_compute. repeat split. Qed.

Example format_precision_rounding :
  formats (str "{:.0f}") [D 0] = Ok (str "0") /\
  formats (str "{:.0f}") [D 4576918229304087675] = Ok (str "0") /\
  formats (str "{:.0f}") [D 4591870180066957722] = Ok (str "0") /\
  formats (str "{:.3f}") [D 4557658675569630296] = Ok (str "0.000") /\
  formats (str "{:.3f}") [D 4557750909289998844] = Ok (str "0.001") /\
  formats (str "{:.3f}") [D 4564514235066398760] = Ok (str "0.001") /\
  formats (str "{:.3f}") [D 4564560351926583034] = Ok (str "0.002") /\
  formats (str "{:.3f}") [D 4607181518080091934] = Ok (str "1.000") /\
  formats (str "{:.3}") [D 4563315196701607639] = Ok (str "0.00123") /\
  formats (str "{:.16g}") [D 4591870180066957722] = Ok (str "0.1") /\
  formats (str "{:.0}") [D 4607182418800017408] = Ok (str "1") /\
  formats (str "{:.17f}") [D 4642138646636500432] = Ok (str "225.51575035152063720") /\
  formats (str "{:.1f}") [D 14052819394725049330] = Ok (str "-761519619559038.2") /\
  formats (str "{}") [D 3773471124928680318] = Ok (str "1.9156918820264798e-56") /\
  formats (str "{:.4f}") [D 4395624485722620867] = Ok (str "0.0000") /\
  formats (str "{:f}") [D 4795085276723472354] = Ok (str "3788512123356.985352").
Proof. vm_compute. repeat split. Qed.

Example format_prettify_float :
  formats (str "{}") [D 4547007122018943789] = Ok (str "0.0001") /\
  formats (str "{}") [D 4532020583610935537] = Ok (str "1e-05") /\
  formats (str "{}") [D 4831355200913801216] = Ok (str "1000000000000000") /\
  formats (str "{}") [D 4846369599423283200] = Ok (str "1e+16") /\
  formats (str "{}") [D 4547006384149180840] = Ok (str "9.999e-05") /\
  formats (str "{}") [D 4756540486875873280] = Ok (str "10000000000") /\
  formats (str "{}") [D 4771362005757984768] = Ok (str "100000000000") /\
  formats (str "{}") [D 4757767320795873280] = Ok (str "12340000000") /\
  formats (str "{}") [D 4623136420479977390] = Ok (str "12.34") /\
  formats (str "{}") [D 4563333643445681349] = Ok (str "0.001234") /\
  formats (str "{}") [F 1036831949] = Ok (str "0.10000000149011612").
Proof. vm_compute. repeat split. Qed.

Example format_format_nan :
  formats (str "{}") [D 9221120237041090560] = Ok (str "nan") /\
  formats (str "{:+}") [D 9221120237041090560] = Ok (str "+nan") /\
  formats (str "{:+06}") [D 9221120237041090560] = Ok (str "  +nan") /\
  formats (str "{:<+06}") [D 9221120237041090560] = Ok (str "+nan  ") /\
  formats (str "{:^+06}") [D 9221120237041090560] = Ok (str " +nan ") /\
  formats (str "{:>+06}") [D 9221120237041090560] = Ok (str "  +nan") /\
  formats (str "{}") [D 18444492273895866368] = Ok (str "-nan") /\
  formats (str "{:+06}") [D 18444492273895866368] = Ok (str "  -nan") /\
  formats (str "{: }") [D 9221120237041090560] = Ok (str " nan") /\
  formats (str "{:F}") [D 9221120237041090560] = Ok (str "NAN") /\
  formats (str "{:<7}") [D 9221120237041090560] = Ok (str "nan    ") /\
  formats (str "{:^7}") [D 9221120237041090560] = Ok (str "  nan  ") /\
  formats (str "{:>7}") [D 9221120237041090560] = Ok (str "    nan") /\
  formats (str "{:07}") [D 9221120237041090560] = Ok (str "    nan") /\
  formats (str "{:x>07}") [D 9221120237041090560] = Ok (str "xxxxnan").
Proof. vm_compute. repeat split. Qed.

Example format_format_infinity :
  formats (str "{}") [D 9218868437227405312] = Ok (str "inf") /\
  formats (str "{:+}") [D 9218868437227405312] = Ok (str "+inf") /\
  formats (str "{}") [D 18442240474082181120] = Ok (str "-inf") /\
  formats (str "{:+06}") [D 9218868437227405312] = Ok (str "  +inf") /\
  formats (str "{:+06}") [D 18442240474082181120] = Ok (str "  -inf") /\
  formats (str "{:<+06}") [D 9218868437227405312] = Ok (str "+inf  ") /\
  formats (str "{:^+06}") [D 9218868437227405312] = Ok (str " +inf ") /\
  formats (str "{:>+06}") [D 9218868437227405312] = Ok (str "  +inf") /\
  formats (str "{: }") [D 9218868437227405312] = Ok (str " inf") /\
  formats (str "{:F}") [D 9218868437227405312] = Ok (str "INF") /\
  formats (str "{:<7}") [D 9218868437227405312] = Ok (str "inf    ") /\
  formats (str "{:^7}") [D 9218868437227405312] = Ok (str "  inf  ") /\
  formats (str "{:>7}") [D 9218868437227405312] = Ok (str "    inf") /\
  formats (str "{:07}") [D 9218868437227405312] = Ok (str "    inf") /\
  formats (str "{:x>07}") [D 9218868437227405312] = Ok (str "xxxxinf").
Proof. vm_compute. repeat split. Qed.

Example format_format_char :
  formats (str "{0}") [C 97] = Ok (str "a") /\
  formats (str "{0:c}") [C 122] = Ok (str "z") /\
  formats (str "{0:d}") [C 48] = Ok (str "48") /\
  formats (str "{0:x}") [C 48] = Ok (str "30") /\
  formats (str "{}") [C 10] = Ok ([10]) /\
  formats (str "{:?}") [C 10] = Ok (str "'\n'").
Proof. vm_compute. repeat split. Qed.

Example format_format_unsigned_char :
  formats (str "{}") [I u32 (42)] = Ok (str "42") /\
  formats (str "{}") [I u32 (42)] = Ok (str "42").
Proof. vm_compute. repeat split. Qed.

Example format_format_cstring :
  formats (str "{0}") [S (str "test")] = Ok (str "test") /\
  formats (str "{0:s}") [S (str "test")] = Ok (str "test") /\
  formats (str "{0}") [S (str "nonconst")] = Ok (str "nonconst").
Proof. vm_compute. repeat split. Qed.

Example format_format_pointer :
  formats (str "{0}") [P 0] = Ok (str "0x0") /\
  formats (str "{0}") [P 4660] = Ok (str "0x1234") /\
  formats (str "{0:p}") [P 4660] = Ok (str "0x1234") /\
  formats (str "{0}") [P 18446744073709551615] = Ok (str "0xffffffffffffffff") /\
  formats (str "{}") [P 0] = Ok (str "0x0") /\
  formats (str "{}") [P 1110] = Ok (str "0x456") /\
  formats (str "{}") [P 1929] = Ok (str "0x789") /\
  formats (str "{}") [P 1052946] = Ok (str "0x101112") /\
  formats (str "{}") [P 0] = Ok (str "0x0") /\
  formats (str "{}") [P 0] = Ok (str "0x0") /\
  formats (str "{}") [P 0] = Ok (str "0x0") /\
  formats (str "{}") [P 0] = Ok (str "0x0") /\
  formats (str "{}") [P 0] = Ok (str "0x0") /\
  formats (str "{}") [P 0] = Ok (str "0x0").
Proof. vm_compute. repeat split. Qed.

Example format_format_enum :
  formats (str "{}") [I i32 (0)] = Ok (str "0").
Proof. vm_compute. repeat split. Qed.

Example format_format_string :
  formats (str "{}") [S (str "test")] = Ok (str "test") /\
  formats (str "{:s}") [S (str "test")] = Ok (str "test") /\
  formats (str "{:?}") [S (str "test")] = Ok (str """test""") /\
  formats (str "{:*^10?}") [S (str "test")] = Ok (str "**""test""**") /\
  formats (str "{:?}") [S ([9; 101; 115; 116])] = Ok (str """\test""") /\
  formats (str "{:x}") [S (str "test")] = Err invalid_format.
Proof. vm_compute. repeat split. Qed.

Example format_format_string_view :
  formats (str "{}") [S (str "test")] = Ok (str "test") /\
  formats (str "{:s}") [S (str "test")] = Ok (str "test") /\
  formats (str "{:.0}") [S (str "test")] = Ok ([]) /\
  formats (str "{:.2}") [S (str "test")] = Ok (str "te") /\
  formats (str "{:.4}") [S (str "test")] = Ok (str "test") /\
  formats (str "{:.6}") [S (str "test")] = Ok (str "test") /\
  formats (str "{:?}") [S ([116; 10; 115; 116])] = Ok (str """t\nst""") /\
  formats (str "{}") [S []] = Ok ([]) /\
  formats (str "{:?}") [S ([116; 10; 13; 9; 92; 39; 34; 115; 116])] = Ok (str """t\n\r\t\\\'\""st""") /\
  formats (str "{:?}") [S ([5; 171; 239])] = Ok (str """\x05\xab\xef""") /\
  validate_string (str "{:.3?}") [FCore TStr] = Ok false.
Proof. vm_compute. repeat split. Qed.

Example format_validate_format_string_1 :
  validate_string ([]) [] = Ok true /\
  validate_string (str "abc") [] = Ok true /\
  validate_string (str "abc{") [] = Ok false /\
  validate_string (str "abc{x") [] = Ok false /\
  validate_string (str "abc{{") [] = Ok true /\
  validate_string (str "abc}") [] = Ok false /\
  validate_string (str "abc}x") [] = Ok false /\
  validate_string (str "abc}}") [] = Ok true /\
  validate_string (str "abc{}") [FCore (TInt i32)] = Ok true /\
  validate_string (str "abc{0}") [FCore (TInt i32)] = Ok true /\
  validate_string (str "abc{1}") [FCore (TInt i32)] = Ok false /\
  validate_string (str "abc{0}{}") [FCore (TInt i32); FCore (TInt i32)] = Ok false /\
  validate_string (str "abc{}{1}") [FCore (TInt i32); FCore (TInt i32)] = Ok false /\
  validate_string (str "abc{0}{1}") [FCore (TInt i32); FCore (TInt i32)] = Ok true /\
  validate_string (str "abc{:}") [FCore (TInt i32)] = Ok true /\
  validate_string (str "abc{:f}") [FCore (TInt i32)] = Ok false.
Proof. vm_compute. repeat split. Qed.

Example format_validate_format_string_2 :
  validate_string (str "abc") [FCore (TInt i32)] = Ok false /\
  validate_string (str "{:<10}") [FCore (TInt i32)] = Ok true /\
  validate_string (str "{:^10}") [FCore (TInt i32)] = Ok true /\
  validate_string (str "{:>10}") [FCore (TInt i32)] = Ok true /\
  validate_string (str "{:<<10}") [FCore (TInt i32)] = Ok true /\
  validate_string (str "{:^^10}") [FCore (TInt i32)] = Ok true /\
  validate_string (str "{:>>10}") [FCore (TInt i32)] = Ok true /\
  validate_string (str "{:<}") [FCore (TInt i32)] = Ok true /\
  validate_string (str "{:a<10}") [FCore (TInt i32)] = Ok true /\
  validate_string (str "{:a^10}") [FCore (TInt i32)] = Ok true /\
  validate_string (str "{:a>10}") [FCore (TInt i32)] = Ok true /\
  validate_string (str "{:a=10}") [FCore (TInt i32)] = Ok false /\
  validate_string (str "{:a<}") [FCore (TInt i32)] = Ok true /\
  validate_string (str "{:a<010}") [FCore (TInt i32)] = Ok true /\
  validate_string (str "{:a<-10}") [FCore (TInt i32)] = Ok true /\
  validate_string (str "{:a<+10}") [FCore (TInt i32)] = Ok true.
Proof. vm_compute. repeat split. Qed.

Example format_validate_format_string_3 :
  validate_string (str "{:a< 10}") [FCore (TInt i32)] = Ok true /\
  validate_string (str "{:a<-#10}") [FCore (TInt i32)] = Ok true /\
  validate_string (str "{:a<--10}") [FCore (TInt i32)] = Ok false /\
  validate_string (str "{:+}") [FCore (TInt i32)] = Ok true /\
  validate_string (str "{:-}") [FCore (TInt i32)] = Ok true /\
  validate_string (str "{: }") [FCore (TInt i32)] = Ok true /\
  validate_string (str "{:<}") [FCore (TInt i32)] = Ok true /\
  validate_string (str "{:+10}") [FCore (TInt i32)] = Ok true /\
  validate_string (str "{:-10}") [FCore (TInt i32)] = Ok true /\
  validate_string (str "{: 10}") [FCore (TInt i32)] = Ok true /\
  validate_string (str "{:+#10}") [FCore (TInt i32)] = Ok true /\
  validate_string (str "{:-#10}") [FCore (TInt i32)] = Ok true /\
  validate_string (str "{: #10}") [FCore (TInt i32)] = Ok true /\
  validate_string (str "{:010}") [FCore (TInt i32)] = Ok true /\
  validate_string (str "{:-010}") [FCore (TInt i32)] = Ok true /\
  validate_string (str "{:-#010}") [FCore (TInt i32)] = Ok true.
Proof. vm_compute. repeat split. Qed.

Example format_validate_format_string_4 :
  validate_string (str "{:0010}") [FCore (TInt i32)] = Ok true /\
  validate_string (str "{:0}") [FCore (TInt i32)] = Ok true /\
  validate_string (str "{:--010}") [FCore (TInt i32)] = Ok false /\
  validate_string (str "{:{}}") [FCore (TInt i32)] = Ok false /\
  validate_string (str "{:s}") [FCore (TInt i32)] = Ok false /\
  validate_string (str "{:.1100}") [FCore TDouble] = Ok true /\
  validate_string (str "{:.1101}") [FCore TDouble] = Ok false /\
  validate_string (str "{:.2147483648}") [FCore TDouble] = Ok false /\
  validate_string (str "{:2147483648}") [FCore TDouble] = Ok false /\
  validate_string (str "{:.+1}") [FCore TDouble] = Ok false /\
  validate_string (str "{:.-1}") [FCore TDouble] = Ok false /\
  validate_string (str "{:x}") [FCore TDouble] = Ok false /\
  validate_string (str "{}") [FCore TBool] = Ok true /\
  validate_string (str "{:d}") [FCore TBool] = Ok true /\
  validate_string (str "{:f}") [FCore TBool] = Ok false /\
  validate_string (str "{:.5}") [FCore TBool] = Ok false.
Proof. vm_compute. repeat split. Qed.

Example format_validate_format_string_5 :
  validate_string (str "{}") [FCore TChar] = Ok true /\
  validate_string (str "{:d}") [FCore TChar] = Ok true /\
  validate_string (str "{}") [FCore (TInt i32)] = Ok true /\
  validate_string (str "{}") [FCore (TInt u32)] = Ok true /\
  validate_string (str "{}") [FCore TPtr] = Ok true.
Proof. vm_compute. repeat split. Qed.

