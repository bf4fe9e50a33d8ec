(* TestTables.v -- the coding tables of the project's own test, tests/libosmo-gtlv/gtlv_dec_enc_test.c, as an instance
   of the model, and its expected output tests/libosmo-gtlv/gtlv_dec_enc_test.ok as a check of the model. *)
From Verif Require Import Base GtlvModel DecEncModel CStr.

(* the member types of gtlv_dec_enc_test.c:55-87 *)
Inductive tv := TInt (n : N) | TStr (s : list N) | TBaz (n : N) (b : bool) | TRep (n : N) (b : bool) (e : N).

(* dec_u16() / enc_u16(), gtlv_dec_enc_test.c:112-128 *)
Definition dec_u16 (m : list N) (len : N) : res tv :=
  if negb (len =? 2) then Err EINVAL else x <- rd_be 2 m ;; Ok (TInt x).
Definition enc_u16 (room : N) (v : tv) : enc_out :=
  match v with
  | TInt x => if 32767 <? x then ([], Some EINVAL) else (be_put 2 x, None)
  | _ => ([], Some EFAULT)
  end.

(* dec_bar() / enc_bar(), gtlv_dec_enc_test.c:136-151 *)
Definition dec_bar (m : list N) (len : N) : res tv :=
  if 22 <? len then Err EINVAL else s <- osmo_strlcpy m (N.min (len + 1) 23) ;; Ok (TStr s).
Definition enc_bar (room : N) (v : tv) : enc_out := match v with TStr s => (s, None) | _ => ([], Some EFAULT) end.

(* dec_baz() / enc_baz(), gtlv_dec_enc_test.c:159-178 *)
Definition dec_baz (m : list N) (len : N) : res tv :=
  if negb (len =? 2) then Err EINVAL else x <- rd_be 2 m ;; Ok (TBaz (x mod 32768) (32768 <=? x)).
Definition enc_baz (room : N) (v : tv) : enc_out :=
  match v with
  | TBaz x b => if 32767 <? x then ([], Some EINVAL) else (be_put 2 ((if b then 32768 else 0) + x mod 32768), None)
  | _ => ([], Some EFAULT)
  end.

(* dec_repeat_struct() / enc_repeat_struct(), gtlv_dec_enc_test.c:186-203 *)
Definition dec_rep (m : list N) (len : N) : res tv :=
  if negb (len =? 3) then Err EINVAL
  else x <- rd_be 2 m ;; y <- rd_be 1 (dropN 2 m) ;; Ok (TRep x (128 <=? y) (y mod 128)).
Definition enc_rep (room : N) (v : tv) : enc_out :=
  match v with TRep x b e => (be_put 2 x ++ [(if b then 128 else 0) + e mod 128], None) | _ => ([], Some EFAULT) end.

Definition l_u16 : leaf tv := mkLeaf (Some dec_u16) (Some enc_u16).
Definition l_bar : leaf tv := mkLeaf (Some dec_bar) (Some enc_bar).
Definition l_baz : leaf tv := mkLeaf (Some dec_baz) (Some enc_baz).
Definition l_rep : leaf tv := mkLeaf (Some dec_rep) (Some enc_rep).
Definition hd_m (t : N) : chead := mkHead (ti_of_tag t) false None.
Definition hd_o (t : N) : chead := mkHead (ti_of_tag t) true None.
Definition hd_multi (t mx mand : N) : chead := mkHead (ti_of_tag t) false (Some (mx, mand)).

(* nested_inner_msg_ies, gtlv_dec_enc_test.c:212-235 *)
Definition nested_inner_msg_ies : list (coding tv) := [CLeaf (hd_m 1) l_u16; CLeaf (hd_m 2) l_bar; CLeaf (hd_m 3) l_baz].
(* msg_ie_coding, gtlv_dec_enc_test.c:237-311 *)
Definition msg_ie_coding : list (coding tv) :=
  [ CLeaf (hd_m 1) l_u16; CLeaf (hd_m 2) l_bar; CLeaf (hd_o 3) l_baz;
    CLeaf (hd_multi 4 3 0) l_u16; CLeaf (hd_multi 4 2 0) l_u16; CLeaf (hd_o 4) l_u16;
    CLeaf (hd_multi 5 32 0) l_rep; CNest (hd_o 6) None OrdSame nested_inner_msg_ies ].

Definition twentythree : list N := [116;119;101;110;116;121;116;104;114;101;101].
Definition fortytwo : list N := [102;111;114;116;121;116;119;111].

(* test_enc_dec[3], gtlv_dec_enc_test.c *)
Definition msg3 : list (slot tv) :=
  [ [VLeaf (TInt 23)]; [VLeaf (TStr twentythree)]; []; [VLeaf (TInt 1); VLeaf (TInt 2); VLeaf (TInt 32767)];
    [VLeaf (TInt 23); VLeaf (TInt 42)]; [VLeaf (TInt 423)]; [VLeaf (TRep 1001 true 0)];
    [VStruct [[VLeaf (TInt 42)]; [VLeaf (TStr fortytwo)]; [VLeaf (TBaz 4242 false)]]] ].
(* its T8L8V encoding, gtlv_dec_enc_test.ok:29 *)
Definition msg3_t8l8v : list N :=
  [1;2;0;23;2;11] ++ twentythree ++ [4;2;0;1;4;2;0;2;4;2;127;255;4;2;0;23;4;2;0;42;4;2;1;167;5;3;3;233;128;6;18;1;2;0;42;2;8]
  ++ fortytwo ++ [3;2;16;146].

Example test3_encode : gtlvs_encode t8l8v 1024 (Some msg_ie_coding) [] msg3 = EOk msg3_t8l8v.
Proof. vm_compute. reflexivity. Qed.
(* the msgb is zero filled behind the data *)
Example test3_decode_ordered :
  gtlvs_decode t8l8v true (Some msg_ie_coding) (msg3_t8l8v ++ [0]) (lenN msg3_t8l8v) = Ok msg3.
Proof. vm_compute. reflexivity. Qed.
Example test3_decode_unordered :
  gtlvs_decode t8l8v false (Some msg_ie_coding) (msg3_t8l8v ++ [0]) (lenN msg3_t8l8v) = Ok msg3.
Proof. vm_compute. reflexivity. Qed.

(* test_enc_dec[4] and gtlv_dec_enc_test.ok: T16L16V *)
Definition msg4 : list (slot tv) :=
  [ [VLeaf (TInt 23)]; [VLeaf (TStr twentythree)]; [VLeaf (TBaz 2323 true)];
    [VLeaf (TInt 1); VLeaf (TInt 2); VLeaf (TInt 32767)]; []; [];
    [VLeaf (TRep 1001 true 0); VLeaf (TRep 1002 false 1)];
    [VStruct [[VLeaf (TInt 42)]; [VLeaf (TStr fortytwo)]; [VLeaf (TBaz 4242 false)]]] ].
Definition msg4_t16l16v : list N :=
  [0;1;0;2;0;23;0;2;0;11] ++ twentythree ++ [0;3;0;2;137;19;0;4;0;2;0;1;0;4;0;2;0;2;0;4;0;2;127;255;
   0;5;0;3;3;233;128;0;5;0;3;3;234;1;0;6;0;24;0;1;0;2;0;42;0;2;0;8] ++ fortytwo ++ [0;3;0;2;16;146].
Example test4_encode : gtlvs_encode t16l16v 1024 (Some msg_ie_coding) [] msg4 = EOk msg4_t16l16v.
Proof. vm_compute. reflexivity. Qed.
Example test4_decode_ordered :
  gtlvs_decode t16l16v true (Some msg_ie_coding) (msg4_t16l16v ++ [0]) (lenN msg4_t16l16v) = Ok msg4.
Proof. vm_compute. reflexivity. Qed.
