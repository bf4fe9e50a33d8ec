(* GtlvTest.v -- the project's own test program tests/libosmo-gtlv/gtlv_test.c, transcribed to run on the model of
   src/libosmo-gtlv/gtlv.c, prints exactly the output recorded in gtlv_test.ok. A test of the model against the real program,
   not a proof about it. *)
From Coq Require Import String Ascii.
From Verif Require Import Base GtlvModel StrModel.
Local Open Scope N_scope.
Local Open Scope list_scope.

Definition nl : list N := [10].
Definition hx (n : N) : N := if n <? 10 then 48 + n else 87 + n.
Definition hex2 (b : N) : list N := [hx (b / 16); hx (b mod 16)].
(* osmo_hexdump(), osmo_hexdump_nospc() of libosmocore *)
Definition hexdump (l : list N) : list N := flat_map (fun b => hex2 b ++ [32]) l.
Definition hexdump_nospc (l : list N) : list N := flat_map hex2 l.
(* osmo_gtlv_tag_inst_to_str_c(ctx, ti, NULL), gtlv.c:63-67 with a 64 byte buffer *)
Definition ti_str (ti : tag_inst) : list N :=
  match tag_inst_to_str ti None (Some (repeat 0 64)) 64 with
  | Ok (Some b, k) => takeN (Z.to_N k) b
  | _ => str "!"
  end.

Definition ie : Type := tag_inst * list N.
(* the value of the TLV just loaded *)
Definition ld_bytes (g : load) : list N := match ld_val g with Some v => takeN (ld_len g) (dropN v (ld_mem g)) | None => [] end.
Definition lineTLV (g : load) : list N :=
  str "T=" ++ ti_str (ld_ti g) ++ str " L=" ++ pf_u (ld_len g) ++ str " v=" ++ hexdump_nospc (ld_bytes g).
Definition bytes_eqb (a b : list N) : bool := if list_eq_dec N.eq_dec a b then true else false.

(* test_tlv_enc(), gtlv_test.c:41-60 *)
Fixpoint t_enc (c : cfg) (p : put) (ies : list ie) : res put :=
  match ies with
  | [] => Ok p
  | (ti, v) :: r =>
    match put_tli c p ti 0 with
    | (p1, Ok _) => p2 <- put_value p1 v ;; match put_update_tl c p2 with (p3, Ok _) => t_enc c p3 r | (_, Err e) => Err e | (_, UB u) => UB u end
    | (_, Err e) => Err e | (_, UB u) => UB u
    end
  end.

(* test_tlv_dec(), gtlv_test.c:63-97 *)
Fixpoint t_dec (c : cfg) (g : load) (ies : list ie) : list N :=
  match ies with
  | [] => []
  | (ti, v) :: r =>
    match load_next c g with
    | (g', Ok _) =>
      match ld_val g' with
      | None => []
      | Some _ =>
        str "  " ++ lineTLV g' ++ nl ++
        (if negb (ti_tag (ld_ti g') =? ti_tag ti) || negb (bytes_eqb v (ld_bytes g')) then str "ERROR" else t_dec c g' r)
      end
    | _ => str "ERROR"
    end
  end.

(* test_tlv_peek(), gtlv_test.c:99-145 *)
Fixpoint t_peek (fuel : nat) (c : cfg) (g : load) (ies : list ie) : list N :=
  match fuel with
  | O => str "FUEL"
  | S f =>
    match load_peek_tag c g with
    | Err ENOENT => str "  peek rc=-ENOENT" ++ nl ++ match ies with [] => [] | _ => str "ERROR" end
    | Ok t =>
      str "  peek T=" ++ ti_str t ++ nl ++
      match ies with
      | [] => str "ERROR"
      | (ti, _) :: r =>
        if negb (ti_match t ti) then str "ERROR" else
        match load_next c g with (g', Ok _) => t_peek f c g' r | _ => str "ERROR" end
      end
    | _ => str "ERROR"
    end
  end.

(* search for the TLV with the given value among those with the tag, gtlv_test.c:166-211 and 219-262 *)
Fixpoint t_find (fuel : nat) (c : cfg) (g : load) (i : ie) : load * list N :=
  match fuel with
  | O => (g, str "FUEL")
  | S f =>
    match load_next_by_tag_inst c g (fst i) with
    | (g', Ok _) =>
      match ld_val g' with
      | None => (g', str "ERROR")
      | Some _ =>
        if negb (ti_match (ld_ti g') (fst i)) then (g', str "ERROR") else
        if bytes_eqb (snd i) (ld_bytes g') then (g', str "  " ++ lineTLV g' ++ nl) else
        let '(g2, o) := t_find f c g' i in
        (g2, str "   (mismatch: " ++ lineTLV g' ++ str ", checking for another occurrence of T=" ++ ti_str (ld_ti g') ++ str ")" ++ nl ++ o)
      end
    | (g', _) => (g', str "ERROR")
    end
  end.
(* test_tlv_dec_by_tag(), gtlv_test.c:148-279 *)
Fixpoint t_second (fuel : nat) (c : cfg) (g : load) (ies : list ie) : load * list N :=
  match ies with
  | _ :: i :: r => let '(g1, o1) := t_find fuel c g i in let '(g2, o2) := t_second fuel c g1 r in (g2, o1 ++ o2)
  | _ => (g, [])
  end.
Definition t_by_tag (c : cfg) (m : list N) (ies : list ie) : list N :=
  let n := S (length ies) in
  str "- decoding in reverse order:" ++ nl ++
  flat_map (fun i => snd (t_find n c (load_start m (lenN m)) i)) (rev ies) ++
  str "- decoding every second tag:" ++ nl ++
  let '(g, o) := t_second n c (load_start m (lenN m)) ies in o ++
  str "- enforcing order: without restart, a past tag is not parsed again:" ++ nl ++
  match ies with
  | (ti, _) :: _ =>
    str "  osmo_gtlv_load_next_by_tag_inst(" ++ ti_str ti ++ str ") rc=" ++
    match snd (load_next_by_tag_inst c g ti) with Err ENOENT => str "-ENOENT" | _ => str "ERROR" end ++ nl
  | [] => []
  end.

(* test_tlv(), gtlv_test.c:281-299 *)
Definition t_one (label : list N) (i : N) (ies : list ie) (c : cfg) : list N :=
  nl ++ str "=== start: " ++ label ++ str "[" ++ pf_u i ++ str "]" ++ nl ++
  match t_enc c (mkPut [] 1024 None) ies with
  | Ok p =>
    let m := pt_buf p in
    str "- encoded: " ++ hexdump m ++ str "." ++ nl ++
    str "- decoding:" ++ nl ++ t_dec c (load_start m (lenN m)) ies ++
    str "- peeking:" ++ nl ++ t_peek (S (length ies)) c (load_start m (lenN m)) ies ++
    t_by_tag c m ies
  | _ => str "ERROR"
  end ++
  str "=== end: " ++ label ++ str "[" ++ pf_u i ++ str "]" ++ nl.

Definition t8l8v_test1 : list ie :=
  [(ti_of_tag 0, [35; 66]);
   (ti_of_tag 255, [35; 66]);
   (ti_of_tag 1, []);
   (ti_of_tag 123, repeat 255 255);
   (ti_of_tag 101, [17]);
   (ti_of_tag 102, [34; 34]);
   (ti_of_tag 103, [51; 51; 51])].
Definition t8l8v_test_multi : list ie :=
  [(ti_of_tag 42, [66]);
   (ti_of_tag 2, [1; 1]);
   (ti_of_tag 2, [34; 34]);
   (ti_of_tag 3, [17]);
   (ti_of_tag 3, [34; 34]);
   (ti_of_tag 3, [51; 51; 51]);
   (ti_of_tag 23, [35]);
   (ti_of_tag 42, [102; 111; 114; 116; 121; 116; 119; 111]);
   (ti_of_tag 23, [116; 119; 101; 110; 116; 121; 116; 104; 114; 101; 101])].
Definition t16l16v_test1 : list ie :=
  [(ti_of_tag 0, [35; 66]);
   (ti_of_tag 65535, [35; 66]);
   (ti_of_tag 1, []);
   (ti_of_tag 123, repeat 0 256);
   (ti_of_tag 1001, [17]);
   (ti_of_tag 1002, [34; 34]);
   (ti_of_tag 1003, [51; 51; 51])].
Definition t16l16v_test_multi : list ie :=
  [(ti_of_tag 1042, [66]);
   (ti_of_tag 102, [1; 1]);
   (ti_of_tag 102, [34; 34]);
   (ti_of_tag 103, [17]);
   (ti_of_tag 103, [34; 34]);
   (ti_of_tag 103, [51; 51; 51]);
   (ti_of_tag 1023, [35]);
   (ti_of_tag 1042, [102; 111; 114; 116; 121; 116; 119; 111]);
   (ti_of_tag 1023, [116; 119; 101; 110; 116; 121; 116; 104; 114; 101; 101])].
Definition txlxv_test1 : list ie :=
  [(ti_of_tag 0, [35; 66]);
   (ti_of_tag 127, [35; 66]);
   (ti_of_tag 128, [35; 66]);
   (ti_of_tag 32767, [35; 66]);
   (ti_of_tag 1, []);
   (ti_of_tag 123, repeat 0 256);
   (ti_of_tag 1002, [34; 34]);
   (ti_of_tag 1003, [51; 51; 51])].
Definition txlxv_test_multi : list ie :=
  [(ti_of_tag 1042, [66]);
   (ti_of_tag 1002, [1; 1]);
   (ti_of_tag 1002, [34; 34]);
   (ti_of_tag 103, [17]);
   (ti_of_tag 103, [34; 34]);
   (ti_of_tag 103, [51; 51; 51]);
   (ti_of_tag 1023, [35]);
   (ti_of_tag 1042, [102; 111; 114; 116; 121; 116; 119; 111]);
   (ti_of_tag 1023, [116; 119; 101; 110; 116; 121; 116; 104; 114; 101; 101])].
Definition tliv_test1 : list ie :=
  [(ti_of_tag 1, [0; 2]);
   (mkTi 5 true 1, [0; 23]);
   (mkTi 5 true 2, [0; 24]);
   (mkTi 5 true 3, [0; 25]);
   (ti_of_tag 6, [0; 26]);
   (mkTi 7 true 1, [0; 27]);
   (mkTi 9 true 1, [0; 28])].

(* main(), gtlv_test.c:616-629 *)
Definition gtlv_test_output : list N :=
  t_one (str "test_t8l8v") 0 t8l8v_test1 t8l8v ++
  t_one (str "test_t8l8v") 1 t8l8v_test_multi t8l8v ++
  t_one (str "test_t16l16v") 0 t16l16v_test1 t16l16v ++
  t_one (str "test_t16l16v") 1 t16l16v_test_multi t16l16v ++
  t_one (str "test_txlxv") 0 txlxv_test1 txlxv ++
  t_one (str "test_txlxv") 1 txlxv_test_multi txlxv ++
  t_one (str "test_tliv") 0 tliv_test1 tliv.

(* gtlv_test.ok; [run n s] stands for n copies of s in a row *)
Definition run (n : nat) (s : list N) : list N := concat (repeat s n).
Definition gtlv_test_ok : list N :=
  str "
=== start: test_t8l8v[0]
- encoded: 00 02 23 42 ff 02 23 42 01 00 7b " ++
  run 256 (str "ff ") ++
  str "65 01 11 66 02 22 22 67 03 33 33 33 .
- decoding:
  T=0 L=2 v=2342
  T=255 L=2 v=2342
  T=1 L=0 v=
  T=123 L=255 v=" ++
  run 255 (str "ff") ++
  str "
  T=101 L=1 v=11
  T=102 L=2 v=2222
  T=103 L=3 v=333333
- peeking:
  peek T=0
  peek T=255
  peek T=1
  peek T=123
  peek T=101
  peek T=102
  peek T=103
  peek rc=-ENOENT
- decoding in reverse order:
  T=103 L=3 v=333333
  T=102 L=2 v=2222
  T=101 L=1 v=11
  T=123 L=255 v=" ++
  run 255 (str "ff") ++
  str "
  T=1 L=0 v=
  T=255 L=2 v=2342
  T=0 L=2 v=2342
- decoding every second tag:
  T=255 L=2 v=2342
  T=123 L=255 v=" ++
  run 255 (str "ff") ++
  str "
  T=102 L=2 v=2222
- enforcing order: without restart, a past tag is not parsed again:
  osmo_gtlv_load_next_by_tag_inst(0) rc=-ENOENT
=== end: test_t8l8v[0]

=== start: test_t8l8v[1]
- encoded: 2a 01 42 02 02 01 01 02 02 22 22 03 01 11 03 02 22 22 03 03 33 33 33 17 01 23 2a 08 66 6f 72 74 79 74 77 6f 17 0b 74 77 65 6e 74 79 74 68 72 65 65 .
- decoding:
  T=42 L=1 v=42
  T=2 L=2 v=0101
  T=2 L=2 v=2222
  T=3 L=1 v=11
  T=3 L=2 v=2222
  T=3 L=3 v=333333
  T=23 L=1 v=23
  T=42 L=8 v=666f72747974776f
  T=23 L=11 v=7477656e74797468726565
- peeking:
  peek T=42
  peek T=2
  peek T=2
  peek T=3
  peek T=3
  peek T=3
  peek T=23
  peek T=42
  peek T=23
  peek rc=-ENOENT
- decoding in reverse order:
   (mismatch: T=23 L=1 v=23, checking for another occurrence of T=23)
  T=23 L=11 v=7477656e74797468726565
   (mismatch: T=42 L=1 v=42, checking for another occurrence of T=42)
  T=42 L=8 v=666f72747974776f
  T=23 L=1 v=23
   (mismatch: T=3 L=1 v=11, checking for another occurrence of T=3)
   (mismatch: T=3 L=2 v=2222, checking for another occurrence of T=3)
  T=3 L=3 v=333333
   (mismatch: T=3 L=1 v=11, checking for another occurrence of T=3)
  T=3 L=2 v=2222
  T=3 L=1 v=11
   (mismatch: T=2 L=2 v=0101, checking for another occurrence of T=2)
  T=2 L=2 v=2222
  T=2 L=2 v=0101
  T=42 L=1 v=42
- decoding every second tag:
  T=2 L=2 v=0101
  T=3 L=1 v=11
   (mismatch: T=3 L=2 v=2222, checking for another occurrence of T=3)
  T=3 L=3 v=333333
  T=42 L=8 v=666f72747974776f
- enforcing order: without restart, a past tag is not parsed again:
  osmo_gtlv_load_next_by_tag_inst(42) rc=-ENOENT
=== end: test_t8l8v[1]

=== start: test_t16l16v[0]
- encoded: 00 00 00 02 23 42 ff ff 00 02 23 42 00 01 00 00 00 7b 01 " ++
  run 257 (str "00 ") ++
  str "03 e9 00 01 11 03 ea 00 02 22 22 03 eb 00 03 33 33 33 .
- decoding:
  T=0 L=2 v=2342
  T=65535 L=2 v=2342
  T=1 L=0 v=
  T=123 L=256 v=" ++
  run 256 (str "00") ++
  str "
  T=1001 L=1 v=11
  T=1002 L=2 v=2222
  T=1003 L=3 v=333333
- peeking:
  peek T=0
  peek T=65535
  peek T=1
  peek T=123
  peek T=1001
  peek T=1002
  peek T=1003
  peek rc=-ENOENT
- decoding in reverse order:
  T=1003 L=3 v=333333
  T=1002 L=2 v=2222
  T=1001 L=1 v=11
  T=123 L=256 v=" ++
  run 256 (str "00") ++
  str "
  T=1 L=0 v=
  T=65535 L=2 v=2342
  T=0 L=2 v=2342
- decoding every second tag:
  T=65535 L=2 v=2342
  T=123 L=256 v=" ++
  run 256 (str "00") ++
  str "
  T=1002 L=2 v=2222
- enforcing order: without restart, a past tag is not parsed again:
  osmo_gtlv_load_next_by_tag_inst(0) rc=-ENOENT
=== end: test_t16l16v[0]

=== start: test_t16l16v[1]
- encoded: 04 12 00 01 42 00 66 00 02 01 01 00 66 00 02 22 22 00 67 00 01 11 00 67 00 02 22 22 00 67 00 03 33 33 33 03 ff 00 01 23 04 12 00 08 66 6f 72 74 79 74 77 6f 03 ff 00 0b 74 77 65 6e 74 79 74 68 72 65 65 .
- decoding:
  T=1042 L=1 v=42
  T=102 L=2 v=0101
  T=102 L=2 v=2222
  T=103 L=1 v=11
  T=103 L=2 v=2222
  T=103 L=3 v=333333
  T=1023 L=1 v=23
  T=1042 L=8 v=666f72747974776f
  T=1023 L=11 v=7477656e74797468726565
- peeking:
  peek T=1042
  peek T=102
  peek T=102
  peek T=103
  peek T=103
  peek T=103
  peek T=1023
  peek T=1042
  peek T=1023
  peek rc=-ENOENT
- decoding in reverse order:
   (mismatch: T=1023 L=1 v=23, checking for another occurrence of T=1023)
  T=1023 L=11 v=7477656e74797468726565
   (mismatch: T=1042 L=1 v=42, checking for another occurrence of T=1042)
  T=1042 L=8 v=666f72747974776f
  T=1023 L=1 v=23
   (mismatch: T=103 L=1 v=11, checking for another occurrence of T=103)
   (mismatch: T=103 L=2 v=2222, checking for another occurrence of T=103)
  T=103 L=3 v=333333
   (mismatch: T=103 L=1 v=11, checking for another occurrence of T=103)
  T=103 L=2 v=2222
  T=103 L=1 v=11
   (mismatch: T=102 L=2 v=0101, checking for another occurrence of T=102)
  T=102 L=2 v=2222
  T=102 L=2 v=0101
  T=1042 L=1 v=42
- decoding every second tag:
  T=102 L=2 v=0101
  T=103 L=1 v=11
   (mismatch: T=103 L=2 v=2222, checking for another occurrence of T=103)
  T=103 L=3 v=333333
  T=1042 L=8 v=666f72747974776f
- enforcing order: without restart, a past tag is not parsed again:
  osmo_gtlv_load_next_by_tag_inst(1042) rc=-ENOENT
=== end: test_t16l16v[1]

=== start: test_txlxv[0]
- encoded: 00 02 23 42 7f 02 23 42 80 01 02 23 42 ff ff 02 23 42 01 00 7b 01 " ++
  run 257 (str "00 ") ++
  str "ea 07 22 22 eb 07 03 33 33 33 .
- decoding:
  T=0 L=2 v=2342
  T=127 L=2 v=2342
  T=128 L=2 v=2342
  T=32767 L=2 v=2342
  T=1 L=0 v=
  T=123 L=256 v=" ++
  run 256 (str "00") ++
  str "
  T=1002 L=2 v=2222
  T=1003 L=3 v=333333
- peeking:
  peek T=0
  peek T=127
  peek T=128
  peek T=32767
  peek T=1
  peek T=123
  peek T=1002
  peek T=1003
  peek rc=-ENOENT
- decoding in reverse order:
  T=1003 L=3 v=333333
  T=1002 L=2 v=2222
  T=123 L=256 v=" ++
  run 256 (str "00") ++
  str "
  T=1 L=0 v=
  T=32767 L=2 v=2342
  T=128 L=2 v=2342
  T=127 L=2 v=2342
  T=0 L=2 v=2342
- decoding every second tag:
  T=127 L=2 v=2342
  T=32767 L=2 v=2342
  T=123 L=256 v=" ++
  run 256 (str "00") ++
  str "
  T=1003 L=3 v=333333
- enforcing order: without restart, a past tag is not parsed again:
  osmo_gtlv_load_next_by_tag_inst(0) rc=-ENOENT
=== end: test_txlxv[0]

=== start: test_txlxv[1]
- encoded: 92 08 01 42 ea 07 01 01 ea 07 22 22 67 01 11 67 02 22 22 67 03 33 33 33 ff 07 01 23 92 08 08 66 6f 72 74 79 74 77 6f ff 07 0b 74 77 65 6e 74 79 74 68 72 65 65 .
- decoding:
  T=1042 L=1 v=42
  T=1002 L=2 v=0101
  T=1002 L=2 v=2222
  T=103 L=1 v=11
  T=103 L=2 v=2222
  T=103 L=3 v=333333
  T=1023 L=1 v=23
  T=1042 L=8 v=666f72747974776f
  T=1023 L=11 v=7477656e74797468726565
- peeking:
  peek T=1042
  peek T=1002
  peek T=1002
  peek T=103
  peek T=103
  peek T=103
  peek T=1023
  peek T=1042
  peek T=1023
  peek rc=-ENOENT
- decoding in reverse order:
   (mismatch: T=1023 L=1 v=23, checking for another occurrence of T=1023)
  T=1023 L=11 v=7477656e74797468726565
   (mismatch: T=1042 L=1 v=42, checking for another occurrence of T=1042)
  T=1042 L=8 v=666f72747974776f
  T=1023 L=1 v=23
   (mismatch: T=103 L=1 v=11, checking for another occurrence of T=103)
   (mismatch: T=103 L=2 v=2222, checking for another occurrence of T=103)
  T=103 L=3 v=333333
   (mismatch: T=103 L=1 v=11, checking for another occurrence of T=103)
  T=103 L=2 v=2222
  T=103 L=1 v=11
   (mismatch: T=1002 L=2 v=0101, checking for another occurrence of T=1002)
  T=1002 L=2 v=2222
  T=1002 L=2 v=0101
  T=1042 L=1 v=42
- decoding every second tag:
  T=1002 L=2 v=0101
  T=103 L=1 v=11
   (mismatch: T=103 L=2 v=2222, checking for another occurrence of T=103)
  T=103 L=3 v=333333
  T=1042 L=8 v=666f72747974776f
- enforcing order: without restart, a past tag is not parsed again:
  osmo_gtlv_load_next_by_tag_inst(1042) rc=-ENOENT
=== end: test_txlxv[1]

=== start: test_tliv[0]
- encoded: 01 02 00 02 05 02 01 00 17 05 02 02 00 18 05 02 03 00 19 06 02 00 1a 07 02 01 00 1b 09 02 01 00 1c .
- decoding:
  T=1 L=2 v=0002
  T=5[1] L=2 v=0017
  T=5[2] L=2 v=0018
  T=5[3] L=2 v=0019
  T=6 L=2 v=001a
  T=7[1] L=2 v=001b
  T=9[1] L=2 v=001c
- peeking:
  peek T=1
  peek T=5[1]
  peek T=5[2]
  peek T=5[3]
  peek T=6
  peek T=7[1]
  peek T=9[1]
  peek rc=-ENOENT
- decoding in reverse order:
  T=9[1] L=2 v=001c
  T=7[1] L=2 v=001b
  T=6 L=2 v=001a
  T=5[3] L=2 v=0019
  T=5[2] L=2 v=0018
  T=5[1] L=2 v=0017
  T=1 L=2 v=0002
- decoding every second tag:
  T=5[1] L=2 v=0017
  T=5[3] L=2 v=0019
  T=7[1] L=2 v=001b
- enforcing order: without restart, a past tag is not parsed again:
  osmo_gtlv_load_next_by_tag_inst(1) rc=-ENOENT
=== end: test_tliv[0]
".

Example gtlv_test : gtlv_test_output = gtlv_test_ok.
Proof. vm_compute. reflexivity. Qed.
