(* ConfTest.v -- the project's test programs gtlv_dec_enc_test.c, test_gtlv_gen/gtlv_gen_test.c and test_tliv/tliv_test.c, transcribed
   to run on the model, print exactly the recorded outputs gtlv_dec_enc_test.ok, gtlv_gen_test.ok and tliv_test.ok. The structs are bytes
   in memory (MemModel.v); for the last two programs the structs and tables are those that the model of the generator (GenModel.v)
   makes of the programs' definitions. Tests of the model against the real program, not proofs about it. *)
From Coq Require Import String Ascii.
From Verif Require Import Base GtlvModel DecEncModel StrModel CStr TestTables MemModel MemSpec MemTest GenModel GtlvTest.
Local Open Scope string_scope.
Local Open Scope N_scope.
Local Open Scope list_scope.

(* a printed string: the text up to the first NUL of what a _to_str_c() function returned *)
Definition cstr_of (r : res (list N)) : list N := match r with Ok m => c_str m | _ => str "CRASH" end.
Definition junk (n : N) : list N := repeat 85 (N.to_nat n).
Definition name_c (f : strfn) : list N := cstr_of (to_str_c 256 f (junk 256) junk).
Definition rc_text {A} (r : res A) : list N := match r with Ok _ => str "0" | _ => str "ERROR" end.
Definition value_names (l : list (N * list N)) (n : N) : list N :=
  match find (fun e => fst e =? n) l with Some e => snd e | None => str "unknown" end.

(* "%d", "0x%"PRIx64, osmo_quote_str_buf3() of a text without special characters, "{%d,%s}", "{%d,%s,%s}";
   gtlv_dec_enc_test.c:130-134, 153-157, 180-184, 205-210, test_gtlv_gen/myproto_ies_custom.c *)
Definition boolname (b : bool) : list N := if b then str "true" else str "false".
Definition repeat_enum_names : N -> list N := value_names [(0, str "R_A"); (1, str "R_B"); (2, str "R_C")].
Definition str_u16 (v : tv) : strfn := snprintf (match v with TInt x => pf_u x | _ => [] end).
Definition str_u64 (v : tv) : strfn := snprintf (match v with TInt x => str "0x" ++ pf_x x | _ => [] end).
Definition str_bar (v : tv) : strfn := snprintf (match v with TStr s => [34] ++ s ++ [34] | _ => [] end).
Definition str_baz (v : tv) : strfn := snprintf (match v with TBaz x b => str "{" ++ pf_u x ++ str "," ++ boolname b ++ str "}" | _ => [] end).
Definition str_rep (v : tv) : strfn :=
  snprintf (match v with TRep x b e => str "{" ++ pf_u x ++ str "," ++ boolname b ++ str "," ++ repeat_enum_names e ++ str "}" | _ => [] end).

(* ---------------------------------------------------------------- gtlv_dec_enc_test.c *)
Definition c_leaf (be : bool) (k : tkind) : mleaf :=
  of_codec (t_codec be k) (t_leaf k) (Some (match k with KU16 => str_u16 | KBar => str_bar | KBaz => str_baz | KRep => str_rep end)).
Definition tag_names : N -> list N :=
  value_names [(1, str "FOO"); (2, str "BAR"); (3, str "BAZ"); (4, str "REPEAT_INT"); (5, str "REPEAT_STRUCT"); (6, str "NEST")].
(* msg_ie_coding2, gtlv_dec_enc_test.c:315-389: other order of the entries of msg_ie_coding *)
Definition t_msg2 : list (mcoding tkind) := match t_msg with [a; b; c; d; e; f; g; h] => [a; b; c; d; g; e; h; f] | _ => [] end.

(* enc_dec_tests[], gtlv_dec_enc_test.c:396-501: what is stored at which offset of struct decoded_msg *)
Definition init : Type := list (N * list N).
Definition fill (sz : N) (i : init) : list N := fold_left (fun m e => put_at (fst e) (snd e) m) i (repeat 0 (N.to_nat sz)).
Section DecEnc.
Variable be : bool.
Definition i32 := u2y be.
Definition base : init := [(0, i32 23); (4, str "twentythree")].
Definition baz2323 : init := [(27, [1]); (28, i32 2323); (32, [1])].
Definition rep3 : init := [(36, i32 3); (40, i32 1 ++ i32 2 ++ i32 32767)].
Definition nest42 : init := [(460, [1]); (464, i32 42); (468, str "fortytwo"); (492, i32 4242); (496, [0])].
Definition enc_dec_tests : list init :=
  [ base;
    base ++ baz2323;
    base ++ baz2323 ++ rep3;
    base ++ rep3 ++ [(72, i32 1); (76, i32 1001); (80, [1]); (84, i32 0)] ++ [(52, i32 2); (56, i32 23 ++ i32 42)] ++ nest42 ++ [(64, [1]); (68, i32 423)];
    base ++ baz2323 ++ rep3 ++ [(72, i32 2); (76, i32 1001); (80, [1]); (84, i32 0); (88, i32 1002); (92, [0]); (96, i32 1)] ++ nest42 ].

(* test_enc_dec(), gtlv_dec_enc_test.c:517-561; the msgb is zeroed behind the data *)
Definition one_dec_enc (label : list N) (c : cfg) (iec : list (mcoding tkind)) (ordered : bool) (i : N) (x : init) : list N :=
  let dm := fill 500 x in
  let text dm := name_c (mgtlvs_to_str (c_leaf be) be 500 dm tag_names 0 (Some iec)) in
  nl ++ str "=== start " ++ label ++ str " test_enc_dec[" ++ pf_u i ++ str "]" ++ nl ++
  str "encoded: " ++ text dm ++ nl ++
  match mgtlvs_encode (c_leaf be) be 500 dm c 1024 0 (Some iec) [] with
  | EOk bs =>
    str "osmo_gtlvs_encode() rc = 0" ++ nl ++ hexdump bs ++ str "." ++ nl ++
    let '(dm2, rc) := mgtlvs_decode (c_leaf be) be 500 c ordered 0 (Some iec) (bs ++ repeat 0 (1024 - length bs)) (lenN bs) (fill 500 []) in
    str "osmo_gtlvs_decode() rc = " ++ rc_text rc ++ nl ++
    str "decoded: " ++ text dm2 ++ nl ++
    (if bytes_eqb (text dm) (text dm2) then [] else str "ERROR")
  | _ => str "ERROR"
  end ++
  str "=== end " ++ label ++ str " test_enc_dec[" ++ pf_u i ++ str "]" ++ nl.
Definition test_dec_enc (label : string) (c : cfg) (iec : list (mcoding tkind)) (ordered : bool) : list N :=
  concat (map (fun e => one_dec_enc (str label) c iec ordered (fst e) (snd e)) (combine [0; 1; 2; 3; 4] enc_dec_tests)).
Definition gtlv_dec_enc_test_output : list N :=
  test_dec_enc "1: t8l8v ordered" t8l8v t_msg true ++ test_dec_enc "1: t8l8v unordered" t8l8v t_msg false ++
  test_dec_enc "1: t16l16v ordered" t16l16v t_msg true ++ test_dec_enc "1: t16l16v unordered" t16l16v t_msg false ++
  test_dec_enc "2: t8l8v ordered" t8l8v t_msg2 true ++ test_dec_enc "2: t8l8v unordered" t8l8v t_msg2 false ++
  test_dec_enc "2: t16l16v ordered" t16l16v t_msg2 true ++ test_dec_enc "2: t16l16v unordered" t16l16v t_msg2 false.
End DecEnc.

Definition gtlv_dec_enc_test_ok : list N := str "
=== start 1: t8l8v ordered test_enc_dec[0]
encoded:  'FOO'=23 'BAR'=""twentythree""
osmo_gtlvs_encode() rc = 0
01 02 00 17 02 0b 74 77 65 6e 74 79 74 68 72 65 65 .
osmo_gtlvs_decode() rc = 0
decoded:  'FOO'=23 'BAR'=""twentythree""
=== end 1: t8l8v ordered test_enc_dec[0]

=== start 1: t8l8v ordered test_enc_dec[1]
encoded:  'FOO'=23 'BAR'=""twentythree"" 'BAZ'={2323,true}
osmo_gtlvs_encode() rc = 0
01 02 00 17 02 0b 74 77 65 6e 74 79 74 68 72 65 65 03 02 89 13 .
osmo_gtlvs_decode() rc = 0
decoded:  'FOO'=23 'BAR'=""twentythree"" 'BAZ'={2323,true}
=== end 1: t8l8v ordered test_enc_dec[1]

=== start 1: t8l8v ordered test_enc_dec[2]
encoded:  'FOO'=23 'BAR'=""twentythree"" 'BAZ'={2323,true} 'REPEAT_INT'={ 1, 2, 32767 }
osmo_gtlvs_encode() rc = 0
01 02 00 17 02 0b 74 77 65 6e 74 79 74 68 72 65 65 03 02 89 13 04 02 00 01 04 02 00 02 04 02 7f ff .
osmo_gtlvs_decode() rc = 0
decoded:  'FOO'=23 'BAR'=""twentythree"" 'BAZ'={2323,true} 'REPEAT_INT'={ 1, 2, 32767 }
=== end 1: t8l8v ordered test_enc_dec[2]

=== start 1: t8l8v ordered test_enc_dec[3]
encoded:  'FOO'=23 'BAR'=""twentythree"" 'REPEAT_INT'={ 1, 2, 32767 } 'REPEAT_INT'={ 23, 42 } 'REPEAT_INT'=423 'REPEAT_STRUCT'={ {1001,true,R_A} } 'NEST'={ 'FOO'=42 'BAR'=""fortytwo"" 'BAZ'={4242,false} }
osmo_gtlvs_encode() rc = 0
01 02 00 17 02 0b 74 77 65 6e 74 79 74 68 72 65 65 04 02 00 01 04 02 00 02 04 02 7f ff 04 02 00 17 04 02 00 2a 04 02 01 a7 05 03 03 e9 80 06 12 01 02 00 2a 02 08 66 6f 72 74 79 74 77 6f 03 02 10 92 .
osmo_gtlvs_decode() rc = 0
decoded:  'FOO'=23 'BAR'=""twentythree"" 'REPEAT_INT'={ 1, 2, 32767 } 'REPEAT_INT'={ 23, 42 } 'REPEAT_INT'=423 'REPEAT_STRUCT'={ {1001,true,R_A} } 'NEST'={ 'FOO'=42 'BAR'=""fortytwo"" 'BAZ'={4242,false} }
=== end 1: t8l8v ordered test_enc_dec[3]

=== start 1: t8l8v ordered test_enc_dec[4]
encoded:  'FOO'=23 'BAR'=""twentythree"" 'BAZ'={2323,true} 'REPEAT_INT'={ 1, 2, 32767 } 'REPEAT_STRUCT'={ {1001,true,R_A}, {1002,false,R_B} } 'NEST'={ 'FOO'=42 'BAR'=""fortytwo"" 'BAZ'={4242,false} }
osmo_gtlvs_encode() rc = 0
01 02 00 17 02 0b 74 77 65 6e 74 79 74 68 72 65 65 03 02 89 13 04 02 00 01 04 02 00 02 04 02 7f ff 05 03 03 e9 80 05 03 03 ea 01 06 12 01 02 00 2a 02 08 66 6f 72 74 79 74 77 6f 03 02 10 92 .
osmo_gtlvs_decode() rc = 0
decoded:  'FOO'=23 'BAR'=""twentythree"" 'BAZ'={2323,true} 'REPEAT_INT'={ 1, 2, 32767 } 'REPEAT_STRUCT'={ {1001,true,R_A}, {1002,false,R_B} } 'NEST'={ 'FOO'=42 'BAR'=""fortytwo"" 'BAZ'={4242,false} }
=== end 1: t8l8v ordered test_enc_dec[4]

=== start 1: t8l8v unordered test_enc_dec[0]
encoded:  'FOO'=23 'BAR'=""twentythree""
osmo_gtlvs_encode() rc = 0
01 02 00 17 02 0b 74 77 65 6e 74 79 74 68 72 65 65 .
osmo_gtlvs_decode() rc = 0
decoded:  'FOO'=23 'BAR'=""twentythree""
=== end 1: t8l8v unordered test_enc_dec[0]

=== start 1: t8l8v unordered test_enc_dec[1]
encoded:  'FOO'=23 'BAR'=""twentythree"" 'BAZ'={2323,true}
osmo_gtlvs_encode() rc = 0
01 02 00 17 02 0b 74 77 65 6e 74 79 74 68 72 65 65 03 02 89 13 .
osmo_gtlvs_decode() rc = 0
decoded:  'FOO'=23 'BAR'=""twentythree"" 'BAZ'={2323,true}
=== end 1: t8l8v unordered test_enc_dec[1]

=== start 1: t8l8v unordered test_enc_dec[2]
encoded:  'FOO'=23 'BAR'=""twentythree"" 'BAZ'={2323,true} 'REPEAT_INT'={ 1, 2, 32767 }
osmo_gtlvs_encode() rc = 0
01 02 00 17 02 0b 74 77 65 6e 74 79 74 68 72 65 65 03 02 89 13 04 02 00 01 04 02 00 02 04 02 7f ff .
osmo_gtlvs_decode() rc = 0
decoded:  'FOO'=23 'BAR'=""twentythree"" 'BAZ'={2323,true} 'REPEAT_INT'={ 1, 2, 32767 }
=== end 1: t8l8v unordered test_enc_dec[2]

=== start 1: t8l8v unordered test_enc_dec[3]
encoded:  'FOO'=23 'BAR'=""twentythree"" 'REPEAT_INT'={ 1, 2, 32767 } 'REPEAT_INT'={ 23, 42 } 'REPEAT_INT'=423 'REPEAT_STRUCT'={ {1001,true,R_A} } 'NEST'={ 'FOO'=42 'BAR'=""fortytwo"" 'BAZ'={4242,false} }
osmo_gtlvs_encode() rc = 0
01 02 00 17 02 0b 74 77 65 6e 74 79 74 68 72 65 65 04 02 00 01 04 02 00 02 04 02 7f ff 04 02 00 17 04 02 00 2a 04 02 01 a7 05 03 03 e9 80 06 12 01 02 00 2a 02 08 66 6f 72 74 79 74 77 6f 03 02 10 92 .
osmo_gtlvs_decode() rc = 0
decoded:  'FOO'=23 'BAR'=""twentythree"" 'REPEAT_INT'={ 1, 2, 32767 } 'REPEAT_INT'={ 23, 42 } 'REPEAT_INT'=423 'REPEAT_STRUCT'={ {1001,true,R_A} } 'NEST'={ 'FOO'=42 'BAR'=""fortytwo"" 'BAZ'={4242,false} }
=== end 1: t8l8v unordered test_enc_dec[3]

=== start 1: t8l8v unordered test_enc_dec[4]
encoded:  'FOO'=23 'BAR'=""twentythree"" 'BAZ'={2323,true} 'REPEAT_INT'={ 1, 2, 32767 } 'REPEAT_STRUCT'={ {1001,true,R_A}, {1002,false,R_B} } 'NEST'={ 'FOO'=42 'BAR'=""fortytwo"" 'BAZ'={4242,false} }
osmo_gtlvs_encode() rc = 0
01 02 00 17 02 0b 74 77 65 6e 74 79 74 68 72 65 65 03 02 89 13 04 02 00 01 04 02 00 02 04 02 7f ff 05 03 03 e9 80 05 03 03 ea 01 06 12 01 02 00 2a 02 08 66 6f 72 74 79 74 77 6f 03 02 10 92 .
osmo_gtlvs_decode() rc = 0
decoded:  'FOO'=23 'BAR'=""twentythree"" 'BAZ'={2323,true} 'REPEAT_INT'={ 1, 2, 32767 } 'REPEAT_STRUCT'={ {1001,true,R_A}, {1002,false,R_B} } 'NEST'={ 'FOO'=42 'BAR'=""fortytwo"" 'BAZ'={4242,false} }
=== end 1: t8l8v unordered test_enc_dec[4]

=== start 1: t16l16v ordered test_enc_dec[0]
encoded:  'FOO'=23 'BAR'=""twentythree""
osmo_gtlvs_encode() rc = 0
00 01 00 02 00 17 00 02 00 0b 74 77 65 6e 74 79 74 68 72 65 65 .
osmo_gtlvs_decode() rc = 0
decoded:  'FOO'=23 'BAR'=""twentythree""
=== end 1: t16l16v ordered test_enc_dec[0]

=== start 1: t16l16v ordered test_enc_dec[1]
encoded:  'FOO'=23 'BAR'=""twentythree"" 'BAZ'={2323,true}
osmo_gtlvs_encode() rc = 0
00 01 00 02 00 17 00 02 00 0b 74 77 65 6e 74 79 74 68 72 65 65 00 03 00 02 89 13 .
osmo_gtlvs_decode() rc = 0
decoded:  'FOO'=23 'BAR'=""twentythree"" 'BAZ'={2323,true}
=== end 1: t16l16v ordered test_enc_dec[1]

=== start 1: t16l16v ordered test_enc_dec[2]
encoded:  'FOO'=23 'BAR'=""twentythree"" 'BAZ'={2323,true} 'REPEAT_INT'={ 1, 2, 32767 }
osmo_gtlvs_encode() rc = 0
00 01 00 02 00 17 00 02 00 0b 74 77 65 6e 74 79 74 68 72 65 65 00 03 00 02 89 13 00 04 00 02 00 01 00 04 00 02 00 02 00 04 00 02 7f ff .
osmo_gtlvs_decode() rc = 0
decoded:  'FOO'=23 'BAR'=""twentythree"" 'BAZ'={2323,true} 'REPEAT_INT'={ 1, 2, 32767 }
=== end 1: t16l16v ordered test_enc_dec[2]

=== start 1: t16l16v ordered test_enc_dec[3]
encoded:  'FOO'=23 'BAR'=""twentythree"" 'REPEAT_INT'={ 1, 2, 32767 } 'REPEAT_INT'={ 23, 42 } 'REPEAT_INT'=423 'REPEAT_STRUCT'={ {1001,true,R_A} } 'NEST'={ 'FOO'=42 'BAR'=""fortytwo"" 'BAZ'={4242,false} }
osmo_gtlvs_encode() rc = 0
00 01 00 02 00 17 00 02 00 0b 74 77 65 6e 74 79 74 68 72 65 65 00 04 00 02 00 01 00 04 00 02 00 02 00 04 00 02 7f ff 00 04 00 02 00 17 00 04 00 02 00 2a 00 04 00 02 01 a7 00 05 00 03 03 e9 80 00 06 00 18 00 01 00 02 00 2a 00 02 00 08 66 6f 72 74 79 74 77 6f 00 03 00 02 10 92 .
osmo_gtlvs_decode() rc = 0
decoded:  'FOO'=23 'BAR'=""twentythree"" 'REPEAT_INT'={ 1, 2, 32767 } 'REPEAT_INT'={ 23, 42 } 'REPEAT_INT'=423 'REPEAT_STRUCT'={ {1001,true,R_A} } 'NEST'={ 'FOO'=42 'BAR'=""fortytwo"" 'BAZ'={4242,false} }
=== end 1: t16l16v ordered test_enc_dec[3]

=== start 1: t16l16v ordered test_enc_dec[4]
encoded:  'FOO'=23 'BAR'=""twentythree"" 'BAZ'={2323,true} 'REPEAT_INT'={ 1, 2, 32767 } 'REPEAT_STRUCT'={ {1001,true,R_A}, {1002,false,R_B} } 'NEST'={ 'FOO'=42 'BAR'=""fortytwo"" 'BAZ'={4242,false} }
osmo_gtlvs_encode() rc = 0
00 01 00 02 00 17 00 02 00 0b 74 77 65 6e 74 79 74 68 72 65 65 00 03 00 02 89 13 00 04 00 02 00 01 00 04 00 02 00 02 00 04 00 02 7f ff 00 05 00 03 03 e9 80 00 05 00 03 03 ea 01 00 06 00 18 00 01 00 02 00 2a 00 02 00 08 66 6f 72 74 79 74 77 6f 00 03 00 02 10 92 .
osmo_gtlvs_decode() rc = 0
decoded:  'FOO'=23 'BAR'=""twentythree"" 'BAZ'={2323,true} 'REPEAT_INT'={ 1, 2, 32767 } 'REPEAT_STRUCT'={ {1001,true,R_A}, {1002,false,R_B} } 'NEST'={ 'FOO'=42 'BAR'=""fortytwo"" 'BAZ'={4242,false} }
=== end 1: t16l16v ordered test_enc_dec[4]

=== start 1: t16l16v unordered test_enc_dec[0]
encoded:  'FOO'=23 'BAR'=""twentythree""
osmo_gtlvs_encode() rc = 0
00 01 00 02 00 17 00 02 00 0b 74 77 65 6e 74 79 74 68 72 65 65 .
osmo_gtlvs_decode() rc = 0
decoded:  'FOO'=23 'BAR'=""twentythree""
=== end 1: t16l16v unordered test_enc_dec[0]

=== start 1: t16l16v unordered test_enc_dec[1]
encoded:  'FOO'=23 'BAR'=""twentythree"" 'BAZ'={2323,true}
osmo_gtlvs_encode() rc = 0
00 01 00 02 00 17 00 02 00 0b 74 77 65 6e 74 79 74 68 72 65 65 00 03 00 02 89 13 .
osmo_gtlvs_decode() rc = 0
decoded:  'FOO'=23 'BAR'=""twentythree"" 'BAZ'={2323,true}
=== end 1: t16l16v unordered test_enc_dec[1]

=== start 1: t16l16v unordered test_enc_dec[2]
encoded:  'FOO'=23 'BAR'=""twentythree"" 'BAZ'={2323,true} 'REPEAT_INT'={ 1, 2, 32767 }
osmo_gtlvs_encode() rc = 0
00 01 00 02 00 17 00 02 00 0b 74 77 65 6e 74 79 74 68 72 65 65 00 03 00 02 89 13 00 04 00 02 00 01 00 04 00 02 00 02 00 04 00 02 7f ff .
osmo_gtlvs_decode() rc = 0
decoded:  'FOO'=23 'BAR'=""twentythree"" 'BAZ'={2323,true} 'REPEAT_INT'={ 1, 2, 32767 }
=== end 1: t16l16v unordered test_enc_dec[2]

=== start 1: t16l16v unordered test_enc_dec[3]
encoded:  'FOO'=23 'BAR'=""twentythree"" 'REPEAT_INT'={ 1, 2, 32767 } 'REPEAT_INT'={ 23, 42 } 'REPEAT_INT'=423 'REPEAT_STRUCT'={ {1001,true,R_A} } 'NEST'={ 'FOO'=42 'BAR'=""fortytwo"" 'BAZ'={4242,false} }
osmo_gtlvs_encode() rc = 0
00 01 00 02 00 17 00 02 00 0b 74 77 65 6e 74 79 74 68 72 65 65 00 04 00 02 00 01 00 04 00 02 00 02 00 04 00 02 7f ff 00 04 00 02 00 17 00 04 00 02 00 2a 00 04 00 02 01 a7 00 05 00 03 03 e9 80 00 06 00 18 00 01 00 02 00 2a 00 02 00 08 66 6f 72 74 79 74 77 6f 00 03 00 02 10 92 .
osmo_gtlvs_decode() rc = 0
decoded:  'FOO'=23 'BAR'=""twentythree"" 'REPEAT_INT'={ 1, 2, 32767 } 'REPEAT_INT'={ 23, 42 } 'REPEAT_INT'=423 'REPEAT_STRUCT'={ {1001,true,R_A} } 'NEST'={ 'FOO'=42 'BAR'=""fortytwo"" 'BAZ'={4242,false} }
=== end 1: t16l16v unordered test_enc_dec[3]

=== start 1: t16l16v unordered test_enc_dec[4]
encoded:  'FOO'=23 'BAR'=""twentythree"" 'BAZ'={2323,true} 'REPEAT_INT'={ 1, 2, 32767 } 'REPEAT_STRUCT'={ {1001,true,R_A}, {1002,false,R_B} } 'NEST'={ 'FOO'=42 'BAR'=""fortytwo"" 'BAZ'={4242,false} }
osmo_gtlvs_encode() rc = 0
00 01 00 02 00 17 00 02 00 0b 74 77 65 6e 74 79 74 68 72 65 65 00 03 00 02 89 13 00 04 00 02 00 01 00 04 00 02 00 02 00 04 00 02 7f ff 00 05 00 03 03 e9 80 00 05 00 03 03 ea 01 00 06 00 18 00 01 00 02 00 2a 00 02 00 08 66 6f 72 74 79 74 77 6f 00 03 00 02 10 92 .
osmo_gtlvs_decode() rc = 0
decoded:  'FOO'=23 'BAR'=""twentythree"" 'BAZ'={2323,true} 'REPEAT_INT'={ 1, 2, 32767 } 'REPEAT_STRUCT'={ {1001,true,R_A}, {1002,false,R_B} } 'NEST'={ 'FOO'=42 'BAR'=""fortytwo"" 'BAZ'={4242,false} }
=== end 1: t16l16v unordered test_enc_dec[4]

=== start 2: t8l8v ordered test_enc_dec[0]
encoded:  'FOO'=23 'BAR'=""twentythree""
osmo_gtlvs_encode() rc = 0
01 02 00 17 02 0b 74 77 65 6e 74 79 74 68 72 65 65 .
osmo_gtlvs_decode() rc = 0
decoded:  'FOO'=23 'BAR'=""twentythree""
=== end 2: t8l8v ordered test_enc_dec[0]

=== start 2: t8l8v ordered test_enc_dec[1]
encoded:  'FOO'=23 'BAR'=""twentythree"" 'BAZ'={2323,true}
osmo_gtlvs_encode() rc = 0
01 02 00 17 02 0b 74 77 65 6e 74 79 74 68 72 65 65 03 02 89 13 .
osmo_gtlvs_decode() rc = 0
decoded:  'FOO'=23 'BAR'=""twentythree"" 'BAZ'={2323,true}
=== end 2: t8l8v ordered test_enc_dec[1]

=== start 2: t8l8v ordered test_enc_dec[2]
encoded:  'FOO'=23 'BAR'=""twentythree"" 'BAZ'={2323,true} 'REPEAT_INT'={ 1, 2, 32767 }
osmo_gtlvs_encode() rc = 0
01 02 00 17 02 0b 74 77 65 6e 74 79 74 68 72 65 65 03 02 89 13 04 02 00 01 04 02 00 02 04 02 7f ff .
osmo_gtlvs_decode() rc = 0
decoded:  'FOO'=23 'BAR'=""twentythree"" 'BAZ'={2323,true} 'REPEAT_INT'={ 1, 2, 32767 }
=== end 2: t8l8v ordered test_enc_dec[2]

=== start 2: t8l8v ordered test_enc_dec[3]
encoded:  'FOO'=23 'BAR'=""twentythree"" 'REPEAT_INT'={ 1, 2, 32767 } 'REPEAT_STRUCT'={ {1001,true,R_A} } 'REPEAT_INT'={ 23, 42 } 'NEST'={ 'FOO'=42 'BAR'=""fortytwo"" 'BAZ'={4242,false} } 'REPEAT_INT'=423
osmo_gtlvs_encode() rc = 0
01 02 00 17 02 0b 74 77 65 6e 74 79 74 68 72 65 65 04 02 00 01 04 02 00 02 04 02 7f ff 05 03 03 e9 80 04 02 00 17 04 02 00 2a 06 12 01 02 00 2a 02 08 66 6f 72 74 79 74 77 6f 03 02 10 92 04 02 01 a7 .
osmo_gtlvs_decode() rc = 0
decoded:  'FOO'=23 'BAR'=""twentythree"" 'REPEAT_INT'={ 1, 2, 32767 } 'REPEAT_STRUCT'={ {1001,true,R_A} } 'REPEAT_INT'={ 23, 42 } 'NEST'={ 'FOO'=42 'BAR'=""fortytwo"" 'BAZ'={4242,false} } 'REPEAT_INT'=423
=== end 2: t8l8v ordered test_enc_dec[3]

=== start 2: t8l8v ordered test_enc_dec[4]
encoded:  'FOO'=23 'BAR'=""twentythree"" 'BAZ'={2323,true} 'REPEAT_INT'={ 1, 2, 32767 } 'REPEAT_STRUCT'={ {1001,true,R_A}, {1002,false,R_B} } 'NEST'={ 'FOO'=42 'BAR'=""fortytwo"" 'BAZ'={4242,false} }
osmo_gtlvs_encode() rc = 0
01 02 00 17 02 0b 74 77 65 6e 74 79 74 68 72 65 65 03 02 89 13 04 02 00 01 04 02 00 02 04 02 7f ff 05 03 03 e9 80 05 03 03 ea 01 06 12 01 02 00 2a 02 08 66 6f 72 74 79 74 77 6f 03 02 10 92 .
osmo_gtlvs_decode() rc = 0
decoded:  'FOO'=23 'BAR'=""twentythree"" 'BAZ'={2323,true} 'REPEAT_INT'={ 1, 2, 32767 } 'REPEAT_STRUCT'={ {1001,true,R_A}, {1002,false,R_B} } 'NEST'={ 'FOO'=42 'BAR'=""fortytwo"" 'BAZ'={4242,false} }
=== end 2: t8l8v ordered test_enc_dec[4]

=== start 2: t8l8v unordered test_enc_dec[0]
encoded:  'FOO'=23 'BAR'=""twentythree""
osmo_gtlvs_encode() rc = 0
01 02 00 17 02 0b 74 77 65 6e 74 79 74 68 72 65 65 .
osmo_gtlvs_decode() rc = 0
decoded:  'FOO'=23 'BAR'=""twentythree""
=== end 2: t8l8v unordered test_enc_dec[0]

=== start 2: t8l8v unordered test_enc_dec[1]
encoded:  'FOO'=23 'BAR'=""twentythree"" 'BAZ'={2323,true}
osmo_gtlvs_encode() rc = 0
01 02 00 17 02 0b 74 77 65 6e 74 79 74 68 72 65 65 03 02 89 13 .
osmo_gtlvs_decode() rc = 0
decoded:  'FOO'=23 'BAR'=""twentythree"" 'BAZ'={2323,true}
=== end 2: t8l8v unordered test_enc_dec[1]

=== start 2: t8l8v unordered test_enc_dec[2]
encoded:  'FOO'=23 'BAR'=""twentythree"" 'BAZ'={2323,true} 'REPEAT_INT'={ 1, 2, 32767 }
osmo_gtlvs_encode() rc = 0
01 02 00 17 02 0b 74 77 65 6e 74 79 74 68 72 65 65 03 02 89 13 04 02 00 01 04 02 00 02 04 02 7f ff .
osmo_gtlvs_decode() rc = 0
decoded:  'FOO'=23 'BAR'=""twentythree"" 'BAZ'={2323,true} 'REPEAT_INT'={ 1, 2, 32767 }
=== end 2: t8l8v unordered test_enc_dec[2]

=== start 2: t8l8v unordered test_enc_dec[3]
encoded:  'FOO'=23 'BAR'=""twentythree"" 'REPEAT_INT'={ 1, 2, 32767 } 'REPEAT_STRUCT'={ {1001,true,R_A} } 'REPEAT_INT'={ 23, 42 } 'NEST'={ 'FOO'=42 'BAR'=""fortytwo"" 'BAZ'={4242,false} } 'REPEAT_INT'=423
osmo_gtlvs_encode() rc = 0
01 02 00 17 02 0b 74 77 65 6e 74 79 74 68 72 65 65 04 02 00 01 04 02 00 02 04 02 7f ff 05 03 03 e9 80 04 02 00 17 04 02 00 2a 06 12 01 02 00 2a 02 08 66 6f 72 74 79 74 77 6f 03 02 10 92 04 02 01 a7 .
osmo_gtlvs_decode() rc = 0
decoded:  'FOO'=23 'BAR'=""twentythree"" 'REPEAT_INT'={ 1, 2, 32767 } 'REPEAT_STRUCT'={ {1001,true,R_A} } 'REPEAT_INT'={ 23, 42 } 'NEST'={ 'FOO'=42 'BAR'=""fortytwo"" 'BAZ'={4242,false} } 'REPEAT_INT'=423
=== end 2: t8l8v unordered test_enc_dec[3]

=== start 2: t8l8v unordered test_enc_dec[4]
encoded:  'FOO'=23 'BAR'=""twentythree"" 'BAZ'={2323,true} 'REPEAT_INT'={ 1, 2, 32767 } 'REPEAT_STRUCT'={ {1001,true,R_A}, {1002,false,R_B} } 'NEST'={ 'FOO'=42 'BAR'=""fortytwo"" 'BAZ'={4242,false} }
osmo_gtlvs_encode() rc = 0
01 02 00 17 02 0b 74 77 65 6e 74 79 74 68 72 65 65 03 02 89 13 04 02 00 01 04 02 00 02 04 02 7f ff 05 03 03 e9 80 05 03 03 ea 01 06 12 01 02 00 2a 02 08 66 6f 72 74 79 74 77 6f 03 02 10 92 .
osmo_gtlvs_decode() rc = 0
decoded:  'FOO'=23 'BAR'=""twentythree"" 'BAZ'={2323,true} 'REPEAT_INT'={ 1, 2, 32767 } 'REPEAT_STRUCT'={ {1001,true,R_A}, {1002,false,R_B} } 'NEST'={ 'FOO'=42 'BAR'=""fortytwo"" 'BAZ'={4242,false} }
=== end 2: t8l8v unordered test_enc_dec[4]

=== start 2: t16l16v ordered test_enc_dec[0]
encoded:  'FOO'=23 'BAR'=""twentythree""
osmo_gtlvs_encode() rc = 0
00 01 00 02 00 17 00 02 00 0b 74 77 65 6e 74 79 74 68 72 65 65 .
osmo_gtlvs_decode() rc = 0
decoded:  'FOO'=23 'BAR'=""twentythree""
=== end 2: t16l16v ordered test_enc_dec[0]

=== start 2: t16l16v ordered test_enc_dec[1]
encoded:  'FOO'=23 'BAR'=""twentythree"" 'BAZ'={2323,true}
osmo_gtlvs_encode() rc = 0
00 01 00 02 00 17 00 02 00 0b 74 77 65 6e 74 79 74 68 72 65 65 00 03 00 02 89 13 .
osmo_gtlvs_decode() rc = 0
decoded:  'FOO'=23 'BAR'=""twentythree"" 'BAZ'={2323,true}
=== end 2: t16l16v ordered test_enc_dec[1]

=== start 2: t16l16v ordered test_enc_dec[2]
encoded:  'FOO'=23 'BAR'=""twentythree"" 'BAZ'={2323,true} 'REPEAT_INT'={ 1, 2, 32767 }
osmo_gtlvs_encode() rc = 0
00 01 00 02 00 17 00 02 00 0b 74 77 65 6e 74 79 74 68 72 65 65 00 03 00 02 89 13 00 04 00 02 00 01 00 04 00 02 00 02 00 04 00 02 7f ff .
osmo_gtlvs_decode() rc = 0
decoded:  'FOO'=23 'BAR'=""twentythree"" 'BAZ'={2323,true} 'REPEAT_INT'={ 1, 2, 32767 }
=== end 2: t16l16v ordered test_enc_dec[2]

=== start 2: t16l16v ordered test_enc_dec[3]
encoded:  'FOO'=23 'BAR'=""twentythree"" 'REPEAT_INT'={ 1, 2, 32767 } 'REPEAT_STRUCT'={ {1001,true,R_A} } 'REPEAT_INT'={ 23, 42 } 'NEST'={ 'FOO'=42 'BAR'=""fortytwo"" 'BAZ'={4242,false} } 'REPEAT_INT'=423
osmo_gtlvs_encode() rc = 0
00 01 00 02 00 17 00 02 00 0b 74 77 65 6e 74 79 74 68 72 65 65 00 04 00 02 00 01 00 04 00 02 00 02 00 04 00 02 7f ff 00 05 00 03 03 e9 80 00 04 00 02 00 17 00 04 00 02 00 2a 00 06 00 18 00 01 00 02 00 2a 00 02 00 08 66 6f 72 74 79 74 77 6f 00 03 00 02 10 92 00 04 00 02 01 a7 .
osmo_gtlvs_decode() rc = 0
decoded:  'FOO'=23 'BAR'=""twentythree"" 'REPEAT_INT'={ 1, 2, 32767 } 'REPEAT_STRUCT'={ {1001,true,R_A} } 'REPEAT_INT'={ 23, 42 } 'NEST'={ 'FOO'=42 'BAR'=""fortytwo"" 'BAZ'={4242,false} } 'REPEAT_INT'=423
=== end 2: t16l16v ordered test_enc_dec[3]

=== start 2: t16l16v ordered test_enc_dec[4]
encoded:  'FOO'=23 'BAR'=""twentythree"" 'BAZ'={2323,true} 'REPEAT_INT'={ 1, 2, 32767 } 'REPEAT_STRUCT'={ {1001,true,R_A}, {1002,false,R_B} } 'NEST'={ 'FOO'=42 'BAR'=""fortytwo"" 'BAZ'={4242,false} }
osmo_gtlvs_encode() rc = 0
00 01 00 02 00 17 00 02 00 0b 74 77 65 6e 74 79 74 68 72 65 65 00 03 00 02 89 13 00 04 00 02 00 01 00 04 00 02 00 02 00 04 00 02 7f ff 00 05 00 03 03 e9 80 00 05 00 03 03 ea 01 00 06 00 18 00 01 00 02 00 2a 00 02 00 08 66 6f 72 74 79 74 77 6f 00 03 00 02 10 92 .
osmo_gtlvs_decode() rc = 0
decoded:  'FOO'=23 'BAR'=""twentythree"" 'BAZ'={2323,true} 'REPEAT_INT'={ 1, 2, 32767 } 'REPEAT_STRUCT'={ {1001,true,R_A}, {1002,false,R_B} } 'NEST'={ 'FOO'=42 'BAR'=""fortytwo"" 'BAZ'={4242,false} }
=== end 2: t16l16v ordered test_enc_dec[4]

=== start 2: t16l16v unordered test_enc_dec[0]
encoded:  'FOO'=23 'BAR'=""twentythree""
osmo_gtlvs_encode() rc = 0
00 01 00 02 00 17 00 02 00 0b 74 77 65 6e 74 79 74 68 72 65 65 .
osmo_gtlvs_decode() rc = 0
decoded:  'FOO'=23 'BAR'=""twentythree""
=== end 2: t16l16v unordered test_enc_dec[0]

=== start 2: t16l16v unordered test_enc_dec[1]
encoded:  'FOO'=23 'BAR'=""twentythree"" 'BAZ'={2323,true}
osmo_gtlvs_encode() rc = 0
00 01 00 02 00 17 00 02 00 0b 74 77 65 6e 74 79 74 68 72 65 65 00 03 00 02 89 13 .
osmo_gtlvs_decode() rc = 0
decoded:  'FOO'=23 'BAR'=""twentythree"" 'BAZ'={2323,true}
=== end 2: t16l16v unordered test_enc_dec[1]

=== start 2: t16l16v unordered test_enc_dec[2]
encoded:  'FOO'=23 'BAR'=""twentythree"" 'BAZ'={2323,true} 'REPEAT_INT'={ 1, 2, 32767 }
osmo_gtlvs_encode() rc = 0
00 01 00 02 00 17 00 02 00 0b 74 77 65 6e 74 79 74 68 72 65 65 00 03 00 02 89 13 00 04 00 02 00 01 00 04 00 02 00 02 00 04 00 02 7f ff .
osmo_gtlvs_decode() rc = 0
decoded:  'FOO'=23 'BAR'=""twentythree"" 'BAZ'={2323,true} 'REPEAT_INT'={ 1, 2, 32767 }
=== end 2: t16l16v unordered test_enc_dec[2]

=== start 2: t16l16v unordered test_enc_dec[3]
encoded:  'FOO'=23 'BAR'=""twentythree"" 'REPEAT_INT'={ 1, 2, 32767 } 'REPEAT_STRUCT'={ {1001,true,R_A} } 'REPEAT_INT'={ 23, 42 } 'NEST'={ 'FOO'=42 'BAR'=""fortytwo"" 'BAZ'={4242,false} } 'REPEAT_INT'=423
osmo_gtlvs_encode() rc = 0
00 01 00 02 00 17 00 02 00 0b 74 77 65 6e 74 79 74 68 72 65 65 00 04 00 02 00 01 00 04 00 02 00 02 00 04 00 02 7f ff 00 05 00 03 03 e9 80 00 04 00 02 00 17 00 04 00 02 00 2a 00 06 00 18 00 01 00 02 00 2a 00 02 00 08 66 6f 72 74 79 74 77 6f 00 03 00 02 10 92 00 04 00 02 01 a7 .
osmo_gtlvs_decode() rc = 0
decoded:  'FOO'=23 'BAR'=""twentythree"" 'REPEAT_INT'={ 1, 2, 32767 } 'REPEAT_STRUCT'={ {1001,true,R_A} } 'REPEAT_INT'={ 23, 42 } 'NEST'={ 'FOO'=42 'BAR'=""fortytwo"" 'BAZ'={4242,false} } 'REPEAT_INT'=423
=== end 2: t16l16v unordered test_enc_dec[3]

=== start 2: t16l16v unordered test_enc_dec[4]
encoded:  'FOO'=23 'BAR'=""twentythree"" 'BAZ'={2323,true} 'REPEAT_INT'={ 1, 2, 32767 } 'REPEAT_STRUCT'={ {1001,true,R_A}, {1002,false,R_B} } 'NEST'={ 'FOO'=42 'BAR'=""fortytwo"" 'BAZ'={4242,false} }
osmo_gtlvs_encode() rc = 0
00 01 00 02 00 17 00 02 00 0b 74 77 65 6e 74 79 74 68 72 65 65 00 03 00 02 89 13 00 04 00 02 00 01 00 04 00 02 00 02 00 04 00 02 7f ff 00 05 00 03 03 e9 80 00 05 00 03 03 ea 01 00 06 00 18 00 01 00 02 00 2a 00 02 00 08 66 6f 72 74 79 74 77 6f 00 03 00 02 10 92 .
osmo_gtlvs_decode() rc = 0
decoded:  'FOO'=23 'BAR'=""twentythree"" 'BAZ'={2323,true} 'REPEAT_INT'={ 1, 2, 32767 } 'REPEAT_STRUCT'={ {1001,true,R_A}, {1002,false,R_B} } 'NEST'={ 'FOO'=42 'BAR'=""fortytwo"" 'BAZ'={4242,false} }
=== end 2: t16l16v unordered test_enc_dec[4]
".
Example gtlv_dec_enc_test be : gtlv_dec_enc_test_output be = gtlv_dec_enc_test_ok.
Proof. destruct be; vm_compute; reflexivity. Qed.

(* ---------------------------------------------------------------- test_gtlv_gen/gtlv_gen_test.c *)
(* test_gtlv_gen/gen__myproto_ies_auto.c:36-113. g_id stands for the address of the struct osmo_gtlv_gen_ie. *)
Definition M (d : gdef) (n : option (list gie)) (name : string) : gie := GIe (mkGMod name false 0 0 None) d n.
Definition O (d : gdef) (n : option (list gie)) (name : string) : gie := GIe (mkGMod name true 0 0 None) d n.
Definition O_MULTI (mx : N) (d : gdef) (n : option (list gie)) (name : string) : gie := GIe (mkGMod name false mx 0 None) d n.
Definition ALL_FROM_NAME : gdef := mkGDef 0 None None None.
Definition number : gdef := mkGDef 1 (Some "int") None (Some "u16").
Definition huge_number : gdef := mkGDef 2 (Some "uint64_t") None (Some "u64").
Definition moo_nest : gdef := mkGDef 3 None (Some "moo_nest") None.
Definition goo_nest : gdef := mkGDef 4 None (Some "goo_nest") None.
Definition ies_in_moo_nest : list gie := [M number None "foo"; M ALL_FROM_NAME None "bar"; M ALL_FROM_NAME None "baz"].
Definition ies_in_goo_nest : list gie := [O huge_number None "val"; M moo_nest (Some ies_in_moo_nest) "nest"].
Definition gen_msg_defs : list gmsg :=
  [("moo", [M number None "foo"; M ALL_FROM_NAME None "bar"; O ALL_FROM_NAME None "baz"; O_MULTI 32 number None "repeat_int";
            O_MULTI 32 ALL_FROM_NAME None "repeat_struct"; O moo_nest (Some ies_in_moo_nest) "nest"]);
   ("goo", [M number None "foo"; O ALL_FROM_NAME None "bar"; O_MULTI 8 goo_nest (Some ies_in_goo_nest) "nest"])].
Definition my_cfg : gcfg := mkGCfg "myproto" "MYPROTO_MSGT_" "MYPROTO_IEI_" "struct myproto_ie_" true.

(* test_gtlv_gen/myproto_ies_custom.h:26-70 *)
Definition my_te0 : tenv := fun t => get t (map (fun e : string * N * N => let '(t, s, a) := e in (t, mkTy s a []))
  [("bool", 1, 1); ("char", 1, 1); ("int", 4, 4); ("unsigned int", 4, 4); ("uint64_t", 8, 8); ("enum myproto_repeat_enum", 4, 4)]).
Definition my_te (hs : list hitem) : tenv := match cc_h my_te0 hs with Some te => te | None => fun _ => None end.
Definition gen_te : tenv := my_te
  [HStruct "struct myproto_ie_bar" [mkMemb "char" "str" (Some 23)];
   HStruct "struct myproto_ie_baz" [mkMemb "int" "v_int" None; mkMemb "bool" "v_bool" None];
   HStruct "struct myproto_ie_repeat_struct" [mkMemb "int" "v_int" None; mkMemb "bool" "v_bool" None; mkMemb "enum myproto_repeat_enum" "v_enum" None]].
Definition gen_ce (s : string) : option N := get s
  [("MYPROTO_MSGT_MOO", 1); ("MYPROTO_MSGT_GOO", 7); ("MYPROTO_IEI_FOO", 1); ("MYPROTO_IEI_BAR", 2); ("MYPROTO_IEI_BAZ", 3);
   ("MYPROTO_IEI_REPEAT_INT", 4); ("MYPROTO_IEI_REPEAT_STRUCT", 5); ("MYPROTO_IEI_MOO_NEST", 6); ("MYPROTO_IEI_VAL", 7); ("MYPROTO_IEI_GOO_NEST", 8)].

Definition compiled (te : tenv) (ce : string -> option N) (ms : list gmsg) : generated :=
  match gen_and_compile my_cfg te ce ms with Some r => r | None => mkGen (fun _ => None) [] end.

(* "ies.moo.repeat_struct[1].v_int" etc.: member names with array index *)
Fixpoint offs (te : tenv) (t : string) (path : list (string * N)) : N :=
  match path with
  | [] => 0
  | (n, i) :: path' =>
    match te t with
    | Some ty => match get n (ty_fields ty) with Some f => fi_ofs f + i * fi_elem f + offs te (fi_type f) path' | None => 999999 end
    | None => 999999
    end
  end.
Definition pinit : Type := list (list (string * N) * list N).
Definition at_ (p : string) : list (string * N) := [(p, 0)].
Definition pfill (r : generated) (p : pinit) : list N :=
  fill (gen_union_size my_cfg r) (map (fun e => (offs (gr_types r) (msg_union my_cfg) (fst e), snd e)) p).
Definition sub (path : list (string * N)) (p : pinit) : pinit := map (fun e => (path ++ fst e, snd e)) p.

(* the functions of test_gtlv_gen/myproto_ies_custom.c *)
Definition dec_u64 (m : list N) (len : N) : res tv := if negb (len =? 8) then Err EINVAL else x <- rd_be 8 m ;; Ok (TInt x).
Definition enc_u64 (room : N) (v : tv) : enc_out := match v with TInt x => (be_put 8 x, None) | _ => ([], Some EFAULT) end.
Definition u64_codec (be : bool) : codec tv :=
  mkCodec 8 (fun old v => match v with TInt x => if be then be_put 8 x else rev (be_put 8 x) | _ => old end)
            (fun b => TInt (if be then be_get b else be_get (rev b))).
Definition no_leaf : mleaf := mkMLeaf 1 None None None.
Definition gen_lk (be : bool) (f : fns) : mleaf :=
  match get (fn_dec f)
    [("myproto_dec_u16", of_codec (t_codec be KU16) l_u16 (Some str_u16));
     ("myproto_dec_u64", of_codec (u64_codec be) (mkLeaf (Some dec_u64) (Some enc_u64)) (Some str_u64));
     ("myproto_dec_bar", of_codec (t_codec be KBar) l_bar (Some str_bar));
     ("myproto_dec_baz", of_codec (t_codec be KBaz) l_baz (Some str_baz));
     ("myproto_dec_repeat_struct", of_codec (t_codec be KRep) l_rep (Some str_rep))] with
  | Some l => l
  | None => no_leaf
  end.
Definition gen_msg_names : N -> list N := value_names [(1, str "MOO"); (7, str "GOO")].
Definition gen_iei_names : N -> list N :=
  value_names [(1, str "FOO"); (2, str "BAR"); (3, str "BAZ"); (4, str "REPEAT_INT"); (5, str "REPEAT_STRUCT"); (6, str "MOO_NEST"); (7, str "VAL");
               (8, str "GOO_NEST")].

(* myproto_msg_enc/_dec/_to_str_buf(), test_enc_dec(); gtlv_gen_test.c:48-72, 202-250 = tliv_test.c:48-72, 98-145 *)
Section Gen.
Variable be : bool.
Variable r : generated.
Variable lk : fns -> mleaf.
Variables msg_names iei_names : N -> list N.
Definition msg_to_str (dm : list N) (t : N) : strfn := fun b n =>
  let sb := sb_init b n in
  sb <- sb_printf sb (msg_names t ++ str "={") ;;
  sb <- sb_append sb (gen_ies_to_str my_cfg r lk be dm t iei_names) ;;
  sb <- sb_printf sb (str " }") ;;
  sb_return sb.
Definition one_gen (label : list N) (c : cfg) (ordered : bool) (i : N) (t : N) (x : pinit) : list N :=
  let dm := pfill r x in
  let text dm := name_c (msg_to_str dm t) in
  nl ++ str "=== start " ++ label ++ str " test_enc_dec[" ++ pf_u i ++ str "]" ++ nl ++
  str "encoded: " ++ text dm ++ nl ++
  match gen_ies_encode my_cfg r lk be dm t c 1024 [t] with
  | EOk bs =>
    str "myproto_msg_enc() rc = 0" ++ nl ++ hexdump bs ++ str "." ++ nl ++
    match bs with
    | [] => str "ERROR"
    | t2 :: data =>
      let '(dm2, rc) := gen_ies_decode my_cfg r lk be c ordered t2 (data ++ repeat 0 (1024 - length bs)) (lenN data) (pfill r []) in
      let text2 := name_c (msg_to_str dm2 t2) in
      str "myproto_msg_dec() rc = " ++ rc_text rc ++ nl ++
      str "decoded: " ++ text2 ++ nl ++
      (if bytes_eqb (text dm) text2 then [] else str "ERROR")
    end
  | _ => str "ERROR"
  end ++
  str "=== end " ++ label ++ str " test_enc_dec[" ++ pf_u i ++ str "]" ++ nl.
Definition test_gen (tests : list (N * pinit)) (label : string) (c : cfg) (ordered : bool) : list N :=
  concat (map (fun e => one_gen (str label) c ordered (fst e) (fst (snd e)) (snd (snd e))) (combine [0; 1; 2; 3; 4] tests)).
End Gen.

(* tests[], gtlv_gen_test.c:76-200 *)
Section GenTests.
Variable be : bool.
Let i32 := u2y be.
Definition p_nest (foo : N) (bar : string) (v : N) (b : bool) : pinit :=
  [(at_ "foo", i32 foo); ([("bar", 0); ("str", 0)], str bar); ([("baz", 0); ("v_int", 0)], i32 v); ([("baz", 0); ("v_bool", 0)], b2y b)].
Definition m_base : pinit := [(at_ "foo", i32 23); ([("bar", 0); ("str", 0)], str "twentythree")].
Definition m_baz : pinit := [(at_ "baz_present", [1]); ([("baz", 0); ("v_int", 0)], i32 2323); ([("baz", 0); ("v_bool", 0)], [1])].
Definition m_rep : pinit := [(at_ "repeat_int_count", i32 3); ([("repeat_int", 0)], i32 1); ([("repeat_int", 1)], i32 2); ([("repeat_int", 2)], i32 32767)].
Definition m_rs (k : N) (v : N) (b : bool) (e : N) : pinit :=
  sub [("repeat_struct", k)] [(at_ "v_int", i32 v); (at_ "v_bool", b2y b); (at_ "v_enum", i32 e)].
Definition gen_tests : list (N * pinit) :=
  [(1, sub (at_ "moo") m_base);
   (1, sub (at_ "moo") (m_base ++ m_baz));
   (1, sub (at_ "moo") (m_base ++ m_baz ++ m_rep));
   (1, sub (at_ "moo") (m_base ++ m_baz ++ m_rep ++ [(at_ "repeat_struct_count", i32 2)] ++ m_rs 0 1001 true 0 ++ m_rs 1 1002 false 1 ++
        [(at_ "nest_present", [1])] ++ sub (at_ "nest") (p_nest 42 "fortytwo" 4242 false)));
   (7, sub (at_ "goo")
        ([(at_ "foo", i32 17); (at_ "bar_present", [1]); ([("bar", 0); ("str", 0)], str "gooei"); (at_ "nest_count", i32 2)] ++
         sub [("nest", 0)] ([(at_ "val_present", [1]); (at_ "val", cd_put (u64_codec be) [] (TInt 81985529216486895))] ++ sub (at_ "nest") (p_nest 11 "eleven" 1111 true)) ++
         sub [("nest", 1)] ([(at_ "val_present", [0])] ++ sub (at_ "nest") (p_nest 12 "twelve" 1212 false))))].
End GenTests.
Definition gtlv_gen_test_output (be : bool) : list N :=
  let t := test_gen be (compiled gen_te gen_ce gen_msg_defs) (gen_lk be) gen_msg_names gen_iei_names (gen_tests be) in
  t "t8l8v ordered" t8l8v true ++ t "t8l8v unordered" t8l8v false ++ t "t16l16v ordered" t16l16v true ++ t "t16l16v unordered" t16l16v false.
Definition gtlv_gen_test_ok : list N := str "
=== start t8l8v ordered test_enc_dec[0]
encoded: MOO={ 'FOO'=23 'BAR'=""twentythree"" }
myproto_msg_enc() rc = 0
01 01 02 00 17 02 0b 74 77 65 6e 74 79 74 68 72 65 65 .
myproto_msg_dec() rc = 0
decoded: MOO={ 'FOO'=23 'BAR'=""twentythree"" }
=== end t8l8v ordered test_enc_dec[0]

=== start t8l8v ordered test_enc_dec[1]
encoded: MOO={ 'FOO'=23 'BAR'=""twentythree"" 'BAZ'={2323,true} }
myproto_msg_enc() rc = 0
01 01 02 00 17 02 0b 74 77 65 6e 74 79 74 68 72 65 65 03 02 89 13 .
myproto_msg_dec() rc = 0
decoded: MOO={ 'FOO'=23 'BAR'=""twentythree"" 'BAZ'={2323,true} }
=== end t8l8v ordered test_enc_dec[1]

=== start t8l8v ordered test_enc_dec[2]
encoded: MOO={ 'FOO'=23 'BAR'=""twentythree"" 'BAZ'={2323,true} 'REPEAT_INT'={ 1, 2, 32767 } }
myproto_msg_enc() rc = 0
01 01 02 00 17 02 0b 74 77 65 6e 74 79 74 68 72 65 65 03 02 89 13 04 02 00 01 04 02 00 02 04 02 7f ff .
myproto_msg_dec() rc = 0
decoded: MOO={ 'FOO'=23 'BAR'=""twentythree"" 'BAZ'={2323,true} 'REPEAT_INT'={ 1, 2, 32767 } }
=== end t8l8v ordered test_enc_dec[2]

=== start t8l8v ordered test_enc_dec[3]
encoded: MOO={ 'FOO'=23 'BAR'=""twentythree"" 'BAZ'={2323,true} 'REPEAT_INT'={ 1, 2, 32767 } 'REPEAT_STRUCT'={ {1001,true,R_A}, {1002,false,R_B} } 'MOO_NEST'={ 'FOO'=42 'BAR'=""fortytwo"" 'BAZ'={4242,false} } }
myproto_msg_enc() rc = 0
01 01 02 00 17 02 0b 74 77 65 6e 74 79 74 68 72 65 65 03 02 89 13 04 02 00 01 04 02 00 02 04 02 7f ff 05 03 03 e9 80 05 03 03 ea 01 06 12 01 02 00 2a 02 08 66 6f 72 74 79 74 77 6f 03 02 10 92 .
myproto_msg_dec() rc = 0
decoded: MOO={ 'FOO'=23 'BAR'=""twentythree"" 'BAZ'={2323,true} 'REPEAT_INT'={ 1, 2, 32767 } 'REPEAT_STRUCT'={ {1001,true,R_A}, {1002,false,R_B} } 'MOO_NEST'={ 'FOO'=42 'BAR'=""fortytwo"" 'BAZ'={4242,false} } }
=== end t8l8v ordered test_enc_dec[3]

=== start t8l8v ordered test_enc_dec[4]
encoded: GOO={ 'FOO'=17 'BAR'=""gooei"" 'GOO_NEST'={ { 'VAL'=0x123456789abcdef 'MOO_NEST'={ 'FOO'=11 'BAR'=""eleven"" 'BAZ'={1111,true} } }, { 'MOO_NEST'={ 'FOO'=12 'BAR'=""twelve"" 'BAZ'={1212,false} } } } }
myproto_msg_enc() rc = 0
07 01 02 00 11 02 05 67 6f 6f 65 69 08 1c 07 08 01 23 45 67 89 ab cd ef 06 10 01 02 00 0b 02 06 65 6c 65 76 65 6e 03 02 84 57 08 12 06 10 01 02 00 0c 02 06 74 77 65 6c 76 65 03 02 04 bc .
myproto_msg_dec() rc = 0
decoded: GOO={ 'FOO'=17 'BAR'=""gooei"" 'GOO_NEST'={ { 'VAL'=0x123456789abcdef 'MOO_NEST'={ 'FOO'=11 'BAR'=""eleven"" 'BAZ'={1111,true} } }, { 'MOO_NEST'={ 'FOO'=12 'BAR'=""twelve"" 'BAZ'={1212,false} } } } }
=== end t8l8v ordered test_enc_dec[4]

=== start t8l8v unordered test_enc_dec[0]
encoded: MOO={ 'FOO'=23 'BAR'=""twentythree"" }
myproto_msg_enc() rc = 0
01 01 02 00 17 02 0b 74 77 65 6e 74 79 74 68 72 65 65 .
myproto_msg_dec() rc = 0
decoded: MOO={ 'FOO'=23 'BAR'=""twentythree"" }
=== end t8l8v unordered test_enc_dec[0]

=== start t8l8v unordered test_enc_dec[1]
encoded: MOO={ 'FOO'=23 'BAR'=""twentythree"" 'BAZ'={2323,true} }
myproto_msg_enc() rc = 0
01 01 02 00 17 02 0b 74 77 65 6e 74 79 74 68 72 65 65 03 02 89 13 .
myproto_msg_dec() rc = 0
decoded: MOO={ 'FOO'=23 'BAR'=""twentythree"" 'BAZ'={2323,true} }
=== end t8l8v unordered test_enc_dec[1]

=== start t8l8v unordered test_enc_dec[2]
encoded: MOO={ 'FOO'=23 'BAR'=""twentythree"" 'BAZ'={2323,true} 'REPEAT_INT'={ 1, 2, 32767 } }
myproto_msg_enc() rc = 0
01 01 02 00 17 02 0b 74 77 65 6e 74 79 74 68 72 65 65 03 02 89 13 04 02 00 01 04 02 00 02 04 02 7f ff .
myproto_msg_dec() rc = 0
decoded: MOO={ 'FOO'=23 'BAR'=""twentythree"" 'BAZ'={2323,true} 'REPEAT_INT'={ 1, 2, 32767 } }
=== end t8l8v unordered test_enc_dec[2]

=== start t8l8v unordered test_enc_dec[3]
encoded: MOO={ 'FOO'=23 'BAR'=""twentythree"" 'BAZ'={2323,true} 'REPEAT_INT'={ 1, 2, 32767 } 'REPEAT_STRUCT'={ {1001,true,R_A}, {1002,false,R_B} } 'MOO_NEST'={ 'FOO'=42 'BAR'=""fortytwo"" 'BAZ'={4242,false} } }
myproto_msg_enc() rc = 0
01 01 02 00 17 02 0b 74 77 65 6e 74 79 74 68 72 65 65 03 02 89 13 04 02 00 01 04 02 00 02 04 02 7f ff 05 03 03 e9 80 05 03 03 ea 01 06 12 01 02 00 2a 02 08 66 6f 72 74 79 74 77 6f 03 02 10 92 .
myproto_msg_dec() rc = 0
decoded: MOO={ 'FOO'=23 'BAR'=""twentythree"" 'BAZ'={2323,true} 'REPEAT_INT'={ 1, 2, 32767 } 'REPEAT_STRUCT'={ {1001,true,R_A}, {1002,false,R_B} } 'MOO_NEST'={ 'FOO'=42 'BAR'=""fortytwo"" 'BAZ'={4242,false} } }
=== end t8l8v unordered test_enc_dec[3]

=== start t8l8v unordered test_enc_dec[4]
encoded: GOO={ 'FOO'=17 'BAR'=""gooei"" 'GOO_NEST'={ { 'VAL'=0x123456789abcdef 'MOO_NEST'={ 'FOO'=11 'BAR'=""eleven"" 'BAZ'={1111,true} } }, { 'MOO_NEST'={ 'FOO'=12 'BAR'=""twelve"" 'BAZ'={1212,false} } } } }
myproto_msg_enc() rc = 0
07 01 02 00 11 02 05 67 6f 6f 65 69 08 1c 07 08 01 23 45 67 89 ab cd ef 06 10 01 02 00 0b 02 06 65 6c 65 76 65 6e 03 02 84 57 08 12 06 10 01 02 00 0c 02 06 74 77 65 6c 76 65 03 02 04 bc .
myproto_msg_dec() rc = 0
decoded: GOO={ 'FOO'=17 'BAR'=""gooei"" 'GOO_NEST'={ { 'VAL'=0x123456789abcdef 'MOO_NEST'={ 'FOO'=11 'BAR'=""eleven"" 'BAZ'={1111,true} } }, { 'MOO_NEST'={ 'FOO'=12 'BAR'=""twelve"" 'BAZ'={1212,false} } } } }
=== end t8l8v unordered test_enc_dec[4]

=== start t16l16v ordered test_enc_dec[0]
encoded: MOO={ 'FOO'=23 'BAR'=""twentythree"" }
myproto_msg_enc() rc = 0
01 00 01 00 02 00 17 00 02 00 0b 74 77 65 6e 74 79 74 68 72 65 65 .
myproto_msg_dec() rc = 0
decoded: MOO={ 'FOO'=23 'BAR'=""twentythree"" }
=== end t16l16v ordered test_enc_dec[0]

=== start t16l16v ordered test_enc_dec[1]
encoded: MOO={ 'FOO'=23 'BAR'=""twentythree"" 'BAZ'={2323,true} }
myproto_msg_enc() rc = 0
01 00 01 00 02 00 17 00 02 00 0b 74 77 65 6e 74 79 74 68 72 65 65 00 03 00 02 89 13 .
myproto_msg_dec() rc = 0
decoded: MOO={ 'FOO'=23 'BAR'=""twentythree"" 'BAZ'={2323,true} }
=== end t16l16v ordered test_enc_dec[1]

=== start t16l16v ordered test_enc_dec[2]
encoded: MOO={ 'FOO'=23 'BAR'=""twentythree"" 'BAZ'={2323,true} 'REPEAT_INT'={ 1, 2, 32767 } }
myproto_msg_enc() rc = 0
01 00 01 00 02 00 17 00 02 00 0b 74 77 65 6e 74 79 74 68 72 65 65 00 03 00 02 89 13 00 04 00 02 00 01 00 04 00 02 00 02 00 04 00 02 7f ff .
myproto_msg_dec() rc = 0
decoded: MOO={ 'FOO'=23 'BAR'=""twentythree"" 'BAZ'={2323,true} 'REPEAT_INT'={ 1, 2, 32767 } }
=== end t16l16v ordered test_enc_dec[2]

=== start t16l16v ordered test_enc_dec[3]
encoded: MOO={ 'FOO'=23 'BAR'=""twentythree"" 'BAZ'={2323,true} 'REPEAT_INT'={ 1, 2, 32767 } 'REPEAT_STRUCT'={ {1001,true,R_A}, {1002,false,R_B} } 'MOO_NEST'={ 'FOO'=42 'BAR'=""fortytwo"" 'BAZ'={4242,false} } }
myproto_msg_enc() rc = 0
01 00 01 00 02 00 17 00 02 00 0b 74 77 65 6e 74 79 74 68 72 65 65 00 03 00 02 89 13 00 04 00 02 00 01 00 04 00 02 00 02 00 04 00 02 7f ff 00 05 00 03 03 e9 80 00 05 00 03 03 ea 01 00 06 00 18 00 01 00 02 00 2a 00 02 00 08 66 6f 72 74 79 74 77 6f 00 03 00 02 10 92 .
myproto_msg_dec() rc = 0
decoded: MOO={ 'FOO'=23 'BAR'=""twentythree"" 'BAZ'={2323,true} 'REPEAT_INT'={ 1, 2, 32767 } 'REPEAT_STRUCT'={ {1001,true,R_A}, {1002,false,R_B} } 'MOO_NEST'={ 'FOO'=42 'BAR'=""fortytwo"" 'BAZ'={4242,false} } }
=== end t16l16v ordered test_enc_dec[3]

=== start t16l16v ordered test_enc_dec[4]
encoded: GOO={ 'FOO'=17 'BAR'=""gooei"" 'GOO_NEST'={ { 'VAL'=0x123456789abcdef 'MOO_NEST'={ 'FOO'=11 'BAR'=""eleven"" 'BAZ'={1111,true} } }, { 'MOO_NEST'={ 'FOO'=12 'BAR'=""twelve"" 'BAZ'={1212,false} } } } }
myproto_msg_enc() rc = 0
07 00 01 00 02 00 11 00 02 00 05 67 6f 6f 65 69 00 08 00 26 00 07 00 08 01 23 45 67 89 ab cd ef 00 06 00 16 00 01 00 02 00 0b 00 02 00 06 65 6c 65 76 65 6e 00 03 00 02 84 57 00 08 00 1a 00 06 00 16 00 01 00 02 00 0c 00 02 00 06 74 77 65 6c 76 65 00 03 00 02 04 bc .
myproto_msg_dec() rc = 0
decoded: GOO={ 'FOO'=17 'BAR'=""gooei"" 'GOO_NEST'={ { 'VAL'=0x123456789abcdef 'MOO_NEST'={ 'FOO'=11 'BAR'=""eleven"" 'BAZ'={1111,true} } }, { 'MOO_NEST'={ 'FOO'=12 'BAR'=""twelve"" 'BAZ'={1212,false} } } } }
=== end t16l16v ordered test_enc_dec[4]

=== start t16l16v unordered test_enc_dec[0]
encoded: MOO={ 'FOO'=23 'BAR'=""twentythree"" }
myproto_msg_enc() rc = 0
01 00 01 00 02 00 17 00 02 00 0b 74 77 65 6e 74 79 74 68 72 65 65 .
myproto_msg_dec() rc = 0
decoded: MOO={ 'FOO'=23 'BAR'=""twentythree"" }
=== end t16l16v unordered test_enc_dec[0]

=== start t16l16v unordered test_enc_dec[1]
encoded: MOO={ 'FOO'=23 'BAR'=""twentythree"" 'BAZ'={2323,true} }
myproto_msg_enc() rc = 0
01 00 01 00 02 00 17 00 02 00 0b 74 77 65 6e 74 79 74 68 72 65 65 00 03 00 02 89 13 .
myproto_msg_dec() rc = 0
decoded: MOO={ 'FOO'=23 'BAR'=""twentythree"" 'BAZ'={2323,true} }
=== end t16l16v unordered test_enc_dec[1]

=== start t16l16v unordered test_enc_dec[2]
encoded: MOO={ 'FOO'=23 'BAR'=""twentythree"" 'BAZ'={2323,true} 'REPEAT_INT'={ 1, 2, 32767 } }
myproto_msg_enc() rc = 0
01 00 01 00 02 00 17 00 02 00 0b 74 77 65 6e 74 79 74 68 72 65 65 00 03 00 02 89 13 00 04 00 02 00 01 00 04 00 02 00 02 00 04 00 02 7f ff .
myproto_msg_dec() rc = 0
decoded: MOO={ 'FOO'=23 'BAR'=""twentythree"" 'BAZ'={2323,true} 'REPEAT_INT'={ 1, 2, 32767 } }
=== end t16l16v unordered test_enc_dec[2]

=== start t16l16v unordered test_enc_dec[3]
encoded: MOO={ 'FOO'=23 'BAR'=""twentythree"" 'BAZ'={2323,true} 'REPEAT_INT'={ 1, 2, 32767 } 'REPEAT_STRUCT'={ {1001,true,R_A}, {1002,false,R_B} } 'MOO_NEST'={ 'FOO'=42 'BAR'=""fortytwo"" 'BAZ'={4242,false} } }
myproto_msg_enc() rc = 0
01 00 01 00 02 00 17 00 02 00 0b 74 77 65 6e 74 79 74 68 72 65 65 00 03 00 02 89 13 00 04 00 02 00 01 00 04 00 02 00 02 00 04 00 02 7f ff 00 05 00 03 03 e9 80 00 05 00 03 03 ea 01 00 06 00 18 00 01 00 02 00 2a 00 02 00 08 66 6f 72 74 79 74 77 6f 00 03 00 02 10 92 .
myproto_msg_dec() rc = 0
decoded: MOO={ 'FOO'=23 'BAR'=""twentythree"" 'BAZ'={2323,true} 'REPEAT_INT'={ 1, 2, 32767 } 'REPEAT_STRUCT'={ {1001,true,R_A}, {1002,false,R_B} } 'MOO_NEST'={ 'FOO'=42 'BAR'=""fortytwo"" 'BAZ'={4242,false} } }
=== end t16l16v unordered test_enc_dec[3]

=== start t16l16v unordered test_enc_dec[4]
encoded: GOO={ 'FOO'=17 'BAR'=""gooei"" 'GOO_NEST'={ { 'VAL'=0x123456789abcdef 'MOO_NEST'={ 'FOO'=11 'BAR'=""eleven"" 'BAZ'={1111,true} } }, { 'MOO_NEST'={ 'FOO'=12 'BAR'=""twelve"" 'BAZ'={1212,false} } } } }
myproto_msg_enc() rc = 0
07 00 01 00 02 00 11 00 02 00 05 67 6f 6f 65 69 00 08 00 26 00 07 00 08 01 23 45 67 89 ab cd ef 00 06 00 16 00 01 00 02 00 0b 00 02 00 06 65 6c 65 76 65 6e 00 03 00 02 84 57 00 08 00 1a 00 06 00 16 00 01 00 02 00 0c 00 02 00 06 74 77 65 6c 76 65 00 03 00 02 04 bc .
myproto_msg_dec() rc = 0
decoded: GOO={ 'FOO'=17 'BAR'=""gooei"" 'GOO_NEST'={ { 'VAL'=0x123456789abcdef 'MOO_NEST'={ 'FOO'=11 'BAR'=""eleven"" 'BAZ'={1111,true} } }, { 'MOO_NEST'={ 'FOO'=12 'BAR'=""twelve"" 'BAZ'={1212,false} } } } }
=== end t16l16v unordered test_enc_dec[4]
".
Example gtlv_gen_test be : gtlv_gen_test_output be = gtlv_gen_test_ok.
Proof. destruct be; vm_compute; reflexivity. Qed.

(* ---------------------------------------------------------------- test_tliv/tliv_test.c *)
(* test_tliv/gen__myproto_ies_auto.c:40-54, myproto_ies_custom.h *)
Definition tl_bar : gdef := mkGDef 1 None (Some "bar") None.
Definition tl_ie (opt : bool) (inst name : string) : gie := GIe (mkGMod name opt 0 0 (Some inst)) tl_bar None.
Definition tl_msg_defs : list gmsg :=
  [("moo", [tl_ie false "MYPROTO_IEI_BAR_ALPHA" "bar_alpha"; tl_ie true "MYPROTO_IEI_BAR_BETA" "bar_beta"; tl_ie false "MYPROTO_IEI_BAR_GAMMA" "bar_gamma"])].
Definition tl_te : tenv := my_te [HStruct "struct myproto_ie_bar" [mkMemb "int" "a" None; mkMemb "bool" "b" None]].
Definition tl_ce (s : string) : option N := get s
  [("MYPROTO_MSGT_MOO", 1); ("MYPROTO_IEI_BAR", 1); ("MYPROTO_IEI_BAR_ALPHA", 2); ("MYPROTO_IEI_BAR_BETA", 3); ("MYPROTO_IEI_BAR_GAMMA", 5)].
(* myproto_dec_bar/_enc_bar/_enc_to_str_bar(), test_tliv/myproto_ies_custom.c:31-58 *)
Definition tl_dec (m : list N) (len : N) : res tv :=
  if len <? 2 then Err EINVAL else x <- rd_be 1 m ;; y <- rd_be 1 (dropN 1 m) ;; Ok (TBaz x (y =? 1)).
Definition tl_enc (room : N) (v : tv) : enc_out := match v with TBaz x b => ([x mod 256; if b then 1 else 0], None) | _ => ([], Some EFAULT) end.
Definition tl_str (v : tv) : strfn := snprintf (match v with TBaz x b => pf_u x ++ str "," ++ boolname b | _ => [] end).
Definition tl_lk (be : bool) (f : fns) : mleaf :=
  if String.eqb (fn_dec f) "myproto_dec_bar" then of_codec (t_codec be KBaz) (mkLeaf (Some tl_dec) (Some tl_enc)) (Some tl_str) else no_leaf.
(* tliv_load_tl(), tliv_store_tl(), tliv_test.c:148-203: the instance counts in the length. gtlv->len-- of 0 wraps around *)
Definition tl_load (m : list N) (left : N) : res (tag_inst * N * N) :=
  match m with
  | t :: l :: m' =>
    if t =? 1 then
      if left <? 3 then Err ENOSPC else
      match m' with i :: _ => Ok (mkTi t true i, if l =? 0 then 2 ^ 64 - 1 else l - 1, 3) | [] => UB OobRead end
    else Ok (ti_of_tag t, l, 2)
  | _ => UB OobRead
  end.
Definition tl_store (avail : N) (ti : tag_inst) (len : N) : res (list N) :=
  if 255 <? ti_tag ti then Err EINVAL else
  if 255 <? len then Err EMSGSIZE else
  if avail <? 2 then Err ENOSPC else
  if ti_tag ti =? 1 then
    if avail <? 3 then Err ENOSPC else
    if negb (ti_ipres ti) then Err EINVAL else
    if 255 <? ti_inst ti then Err EINVAL else
    Ok [ti_tag ti; (len + 1) mod 256; ti_inst ti]
  else Ok [ti_tag ti; len].
Definition tl_cfg : cfg := mkCfg 2 tl_load tl_store.
(* tests[], tliv_test.c:76-96 *)
Definition tl_b (be : bool) (n : string) (a : N) (b : bool) : pinit := sub (at_ n) [(at_ "a", u2y be a); (at_ "b", b2y b)].
Definition tl_tests (be : bool) : list (N * pinit) :=
  [(1, sub (at_ "moo") (tl_b be "bar_alpha" 23 true ++ tl_b be "bar_gamma" 42 false));
   (1, sub (at_ "moo") (tl_b be "bar_alpha" 11 true ++ [(at_ "bar_beta_present", [1])] ++ tl_b be "bar_beta" 22 false ++ tl_b be "bar_gamma" 33 true))].
Definition tliv_test_output (be : bool) : list N :=
  let t := test_gen be (compiled tl_te tl_ce tl_msg_defs) (tl_lk be) (value_names [(1, str "MOO")]) (value_names [(1, str "BAR")]) (tl_tests be) in
  t "tliv ordered" tl_cfg true ++ t "tliv unordered" tl_cfg false.
Definition tliv_test_ok : list N := str "
=== start tliv ordered test_enc_dec[0]
encoded: MOO={ 'BAR'=23,true 'BAR'=42,false }
myproto_msg_enc() rc = 0
01 01 03 02 17 01 01 03 05 2a 00 .
myproto_msg_dec() rc = 0
decoded: MOO={ 'BAR'=23,true 'BAR'=42,false }
=== end tliv ordered test_enc_dec[0]

=== start tliv ordered test_enc_dec[1]
encoded: MOO={ 'BAR'=11,true 'BAR'=22,false 'BAR'=33,true }
myproto_msg_enc() rc = 0
01 01 03 02 0b 01 01 03 03 16 00 01 03 05 21 01 .
myproto_msg_dec() rc = 0
decoded: MOO={ 'BAR'=11,true 'BAR'=22,false 'BAR'=33,true }
=== end tliv ordered test_enc_dec[1]

=== start tliv unordered test_enc_dec[0]
encoded: MOO={ 'BAR'=23,true 'BAR'=42,false }
myproto_msg_enc() rc = 0
01 01 03 02 17 01 01 03 05 2a 00 .
myproto_msg_dec() rc = 0
decoded: MOO={ 'BAR'=23,true 'BAR'=42,false }
=== end tliv unordered test_enc_dec[0]

=== start tliv unordered test_enc_dec[1]
encoded: MOO={ 'BAR'=11,true 'BAR'=22,false 'BAR'=33,true }
myproto_msg_enc() rc = 0
01 01 03 02 0b 01 01 03 03 16 00 01 03 05 21 01 .
myproto_msg_dec() rc = 0
decoded: MOO={ 'BAR'=11,true 'BAR'=22,false 'BAR'=33,true }
=== end tliv unordered test_enc_dec[1]
".
Example tliv_test be : tliv_test_output be = tliv_test_ok.
Proof. destruct be; vm_compute; reflexivity. Qed.
