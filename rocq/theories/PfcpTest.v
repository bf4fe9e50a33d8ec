(* PfcpTest.v -- the messages of the project's own test tests/libosmo-pfcp/pfcp_test.c:96-470, with the output recorded in
   pfcp_test.ok: the model encodes each message to the recorded bytes, prints the recorded text, and decodes the bytes to the
   message. These are tests of the model against the real program, not proofs about it. *)
From Coq Require Import String Ascii.
From Verif Require Import Base GtlvModel DecEncModel IesModel TablesModel MsgModel StrModel NamesModel.
Local Open Scope N_scope.
Local Open Scope list_scope.

(* what pfcp_test.c prints: the names are those of pfcp_strs.c; libosmocore's texts of an IPv4 address, of the IPv6 address of
   the test, and of a quoted string *)
Definition pt_dot (a : list N) : list N := match a with [a; b; c; d] => pf_u a ++ str "." ++ pf_u b ++ str "." ++ pf_u c ++ str "." ++ pf_u d | _ => [] end.
Definition pt_sa (x : sa) : list N := match x with Sa4 a _ => pt_dot a | Sa6 _ _ => str "[102:304::]" | SaUnspec => [] end.
Definition pt_T : texts := mkTexts (name_of e_cause s_cause) (name_of e_iei s_iei) (name_of e_message_type s_message_type)
  (name_of e_3gpp_iface_type s_3gpp_iface_type) (name_of e_source_iface s_source_iface) (name_of e_dest_iface s_dest_iface)
  (name_of e_outer_header_removal_desc s_outer_header_removal_desc) pt_sa (fun s => [34] ++ s ++ [34]).

(* one test: header and IEs; recorded bytes; recorded text *)
Record ptest := mkPt { pt_h : hdr; pt_ies : list (slot iev); pt_bytes : list N; pt_text : list N }.
Definition pt0 : ptest := mkPt (mkHdr 1 1 None None 1)
  [[VLeaf (IvNum 1234)]]
  [32; 1; 0; 12; 0; 0; 1; 0; 0; 96; 0; 4; 0; 0; 4; 210]
  (str "PFCPv1 HEARTBEAT_REQ hdr={seq=1} ies={ 'Recovery Time Stamp'=1234 }").
Definition pt1 : ptest := mkPt (mkHdr 1 2 None None 2)
  [[VLeaf (IvNum 5678)]]
  [32; 2; 0; 12; 0; 0; 2; 0; 0; 96; 0; 4; 0; 0; 22; 46]
  (str "PFCPv1 HEARTBEAT_RESP hdr={seq=2} ies={ 'Recovery Time Stamp'=5678 }").
Definition pt2 : ptest := mkPt (mkHdr 1 5 None None 3)
  [[VLeaf (IvNode (NodeV4 (Sa4 [4; 3; 2; 1] 0)))];
   [VLeaf (IvNum 724249387)];
   [];
   []]
  [32; 5; 0; 21; 0; 0; 3; 0; 0; 60; 0; 5; 0; 4; 3; 2; 1; 0; 96; 0; 4; 43; 43; 43; 43]
  (str "PFCPv1 ASSOC_SETUP_REQ hdr={seq=3} ies={ 'Node ID'=v4:4.3.2.1 'Recovery Time Stamp'=724249387 }").
Definition pt3 : ptest := mkPt (mkHdr 1 6 None None 4)
  [[VLeaf (IvNode (NodeFqdn (str "example.com")))];
   [VLeaf (IvNum 1)];
   [VLeaf (IvNum 724249387)];
   [VLeaf (IvBits [1; 2; 0; 0; 0; 0])];
   []]
  [32; 6; 0; 44; 0; 0; 4; 0; 0; 60; 0; 13; 2; 7; 101; 120; 97; 109; 112; 108; 101; 3; 99; 111; 109; 0; 19; 0; 1; 1; 0; 96; 0; 4; 43; 43; 43; 43; 0; 43; 0; 6; 1; 2; 0; 0; 0; 0]
  (str "PFCPv1 ASSOC_SETUP_RESP hdr={seq=4} ies={ 'Node ID'=fqdn:""example.com"" 'Cause'=Request accepted (success) 'Recovery Time Stamp'=724249387 'UP Function Features'=BUCP+PDIU }").
Definition pt4 : ptest := mkPt (mkHdr 1 9 None None 5)
  [[VLeaf (IvNode (NodeV6 (Sa6 [1; 2; 3; 4; 0; 0; 0; 0; 0; 0; 0; 0; 0; 0; 0; 0] 0)))]]
  [32; 9; 0; 25; 0; 0; 5; 0; 0; 60; 0; 17; 1; 1; 2; 3; 4; 0; 0; 0; 0; 0; 0; 0; 0; 0; 0; 0; 0]
  (str "PFCPv1 ASSOC_RELEASE_REQ hdr={seq=5} ies={ 'Node ID'=v6:[102:304::] }").
Definition pt5 : ptest := mkPt (mkHdr 1 10 None None 6)
  [[VLeaf (IvNode (NodeV4 (Sa4 [4; 3; 2; 1] 0)))];
   [VLeaf (IvNum 64)]]
  [32; 10; 0; 18; 0; 0; 6; 0; 0; 60; 0; 5; 0; 4; 3; 2; 1; 0; 19; 0; 1; 64]
  (str "PFCPv1 ASSOC_RELEASE_RESP hdr={seq=6} ies={ 'Node ID'=v4:4.3.2.1 'Cause'=Request rejected (reason not specified) }").
Definition pt6 : ptest := mkPt (mkHdr 1 50 None (Some 0) 7)
  [[VLeaf (IvNode (NodeV4 (Sa4 [127; 0; 0; 1] 0)))];
   [VLeaf (IvFseid (mkFseid 1311768467294899695 (mkAddrs true (Sa4 [10; 9; 8; 7] 0) false SaUnspec)))];
   [VStruct [[VLeaf (IvNum 1)]; [VLeaf (IvNum 255)]; [VStruct [[VLeaf (IvNum 1)]; []; [VLeaf (IvStr (str "foo"))]; [VLeaf (IvUeip (mkUeip false false true (mkAddrs true (Sa4 [192; 168; 0; 23] 0) false SaUnspec) false 0 false 0))]; []; []]]; []; [VLeaf (IvNum 1)]; []]; VStruct [[VLeaf (IvNum 2)]; [VLeaf (IvNum 255)]; [VStruct [[VLeaf (IvNum 0)]; [VLeaf (IvFteid (FtChoose true false false 0))]; [VLeaf (IvStr (str "bar"))]; []; []; []]]; [VLeaf (IvOhr (mkOhr 0 false [0]))]; [VLeaf (IvNum 2)]; []]];
   [VStruct [[VLeaf (IvNum 1)]; [VLeaf (IvBits [2; 0])]; [VStruct [[VLeaf (IvNum 0)]; []; [VLeaf (IvOhc (mkOhc [1; 0] true 11259375 (mkAddrs true (Sa4 [10; 9; 8; 7] 0) false SaUnspec) false 0 false 0 false 0))]; []; []]]]; VStruct [[VLeaf (IvNum 2)]; [VLeaf (IvBits [2; 0])]; [VStruct [[VLeaf (IvNum 1)]; []; []; []; []]]]]]
  [33; 50; 0; 211; 0; 0; 0; 0; 0; 0; 0; 0; 0; 0; 7; 0; 0; 60; 0; 5; 0; 127; 0; 0; 1; 0; 57; 0; 13; 2; 18; 52; 86; 120; 144; 171; 205; 239; 10; 9; 8; 7; 0; 1; 0; 48; 0; 56; 0; 2; 0; 1; 0; 29; 0; 4; 0; 0; 0; 255; 0; 2; 0; 22; 0; 20; 0; 1; 1; 0; 22; 0; 4; 3; 102; 111; 111; 0; 93; 0; 5; 6; 192; 168; 0; 23; 0; 108; 0; 4; 0; 0; 0; 1; 0; 1; 0; 49; 0; 56; 0; 2; 0; 2; 0; 29; 0; 4; 0; 0; 0; 255; 0; 2; 0; 18; 0; 20; 0; 1; 0; 0; 21; 0; 1; 5; 0; 22; 0; 4; 3; 98; 97; 114; 0; 95; 0; 1; 0; 0; 108; 0; 4; 0; 0; 0; 2; 0; 3; 0; 37; 0; 108; 0; 4; 0; 0; 0; 1; 0; 44; 0; 2; 2; 0; 0; 4; 0; 19; 0; 42; 0; 1; 0; 0; 84; 0; 10; 1; 0; 0; 171; 205; 239; 10; 9; 8; 7; 0; 3; 0; 23; 0; 108; 0; 4; 0; 0; 0; 2; 0; 44; 0; 2; 2; 0; 0; 4; 0; 5; 0; 42; 0; 1; 1]
  (str "PFCPv1 SESSION_EST_REQ hdr={seq=7 SEID=0x0} ies={ 'Node ID'=v4:127.0.0.1 'F-SEID'=0x1234567890abcdef,v4:10.9.8.7 'Create PDR'={ { 'PDR ID'=1 'Precedence'=255 'PDI'={ 'Source Interface'=Core 'Network Instance'=""foo"" 'UE IP Address'=,dst,v4:192.168.0.23 } 'FAR ID'=1 }, { 'PDR ID'=2 'Precedence'=255 'PDI'={ 'Source Interface'=Access 'F-TEID'=CHOOSE-v4 'Network Instance'=""bar"" } 'Outer Header Removal'=GTP_U_UDP_IPV4 'FAR ID'=2 } } 'Create FAR'={ { 'FAR ID'=1 'Apply Action'=FORW 'Forwarding Parameters'={ 'Destination Interface'=Access 'Outer Header Creation'=GTP_U_UDP_IPV4,TEID:0xabcdef,v4:10.9.8.7 } }, { 'FAR ID'=2 'Apply Action'=FORW 'Forwarding Parameters'={ 'Destination Interface'=Core } } } }").
Definition pt7 : ptest := mkPt (mkHdr 1 51 None (Some 81985529216486895) 8)
  [[VLeaf (IvNode (NodeV4 (Sa4 [127; 0; 0; 2] 0)))];
   [VLeaf (IvNum 1)];
   [];
   [VLeaf (IvFseid (mkFseid 1311768467294899695 (mkAddrs true (Sa4 [10; 9; 8; 7] 0) false SaUnspec)))];
   [VStruct [[VLeaf (IvNum 1)]; []]; VStruct [[VLeaf (IvNum 2)]; [VLeaf (IvFteid (FtFixed 1234 (mkAddrs true (Sa4 [10; 9; 8; 7] 0) false SaUnspec)))]]]]
  [33; 51; 0; 76; 1; 35; 69; 103; 137; 171; 205; 239; 0; 0; 8; 0; 0; 60; 0; 5; 0; 127; 0; 0; 2; 0; 19; 0; 1; 1; 0; 57; 0; 13; 2; 18; 52; 86; 120; 144; 171; 205; 239; 10; 9; 8; 7; 0; 8; 0; 6; 0; 56; 0; 2; 0; 1; 0; 8; 0; 19; 0; 56; 0; 2; 0; 2; 0; 21; 0; 9; 1; 0; 0; 4; 210; 10; 9; 8; 7]
  (str "PFCPv1 SESSION_EST_RESP hdr={seq=8 SEID=0x123456789abcdef} ies={ 'Node ID'=v4:127.0.0.2 'Cause'=Request accepted (success) 'F-SEID'=0x1234567890abcdef,v4:10.9.8.7 'Created PDR'={ { 'PDR ID'=1 }, { 'PDR ID'=2 'F-TEID'=TEID-0x4d2,v4:10.9.8.7 } } }").
Definition pt8 : ptest := mkPt (mkHdr 1 52 None (Some 0) 9)
  [[];
   [VStruct [[VLeaf (IvNum 1)]]];
   [VStruct [[VLeaf (IvNum 1)]]];
   [VStruct [[VLeaf (IvNum 3)]; [VLeaf (IvNum 255)]; [VStruct [[VLeaf (IvNum 0)]; [VLeaf (IvFteid (FtChoose true false false 0))]; [VLeaf (IvStr (str "baz"))]; []; []; []]]; [VLeaf (IvOhr (mkOhr 0 false [0]))]; [VLeaf (IvNum 3)]; []]];
   [VStruct [[VLeaf (IvNum 3)]; [VLeaf (IvBits [2; 0])]; [VStruct [[VLeaf (IvNum 0)]; []; [VLeaf (IvOhc (mkOhc [1; 0] true 11259375 (mkAddrs true (Sa4 [10; 9; 8; 7] 0) false SaUnspec) false 0 false 0 false 0))]; []; []]]]];
   [VStruct [[VLeaf (IvNum 1)]; [VLeaf (IvOhr (mkOhr 0 false [0]))]; [VStruct [[VLeaf (IvNum 0)]; [VLeaf (IvFteid (FtChoose true false false 0))]; [VLeaf (IvStr (str "moo"))]; []; []; []]]; [VLeaf (IvNum 1)]; []]];
   [VStruct [[VLeaf (IvNum 1)]; []; [VStruct [[]; [VLeaf (IvStr (str "internet"))]; []; []; []]]]]]
  [33; 52; 0; 202; 0; 0; 0; 0; 0; 0; 0; 0; 0; 0; 9; 0; 0; 15; 0; 6; 0; 56; 0; 2; 0; 1; 0; 16; 0; 8; 0; 108; 0; 4; 0; 0; 0; 1; 0; 1; 0; 49; 0; 56; 0; 2; 0; 3; 0; 29; 0; 4; 0; 0; 0; 255; 0; 2; 0; 18; 0; 20; 0; 1; 0; 0; 21; 0; 1; 5; 0; 22; 0; 4; 3; 98; 97; 122; 0; 95; 0; 1; 0; 0; 108; 0; 4; 0; 0; 0; 3; 0; 3; 0; 37; 0; 108; 0; 4; 0; 0; 0; 3; 0; 44; 0; 2; 2; 0; 0; 4; 0; 19; 0; 42; 0; 1; 0; 0; 84; 0; 10; 1; 0; 0; 171; 205; 239; 10; 9; 8; 7; 0; 9; 0; 41; 0; 56; 0; 2; 0; 1; 0; 95; 0; 1; 0; 0; 2; 0; 18; 0; 20; 0; 1; 0; 0; 21; 0; 1; 5; 0; 22; 0; 4; 3; 109; 111; 111; 0; 108; 0; 4; 0; 0; 0; 1; 0; 10; 0; 25; 0; 108; 0; 4; 0; 0; 0; 1; 0; 11; 0; 13; 0; 22; 0; 9; 8; 105; 110; 116; 101; 114; 110; 101; 116]
  (str "PFCPv1 SESSION_MOD_REQ hdr={seq=9 SEID=0x0} ies={ 'Remove PDR'={ { 'PDR ID'=1 } } 'Remove FAR'={ { 'FAR ID'=1 } } 'Create PDR'={ { 'PDR ID'=3 'Precedence'=255 'PDI'={ 'Source Interface'=Access 'F-TEID'=CHOOSE-v4 'Network Instance'=""baz"" } 'Outer Header Removal'=GTP_U_UDP_IPV4 'FAR ID'=3 } } 'Create FAR'={ { 'FAR ID'=3 'Apply Action'=FORW 'Forwarding Parameters'={ 'Destination Interface'=Access 'Outer Header Creation'=GTP_U_UDP_IPV4,TEID:0xabcdef,v4:10.9.8.7 } } } 'Update PDR'={ { 'PDR ID'=1 'Outer Header Removal'=GTP_U_UDP_IPV4 'PDI'={ 'Source Interface'=Access 'F-TEID'=CHOOSE-v4 'Network Instance'=""moo"" } 'FAR ID'=1 } } 'Update FAR'={ { 'FAR ID'=1 'Update Forwarding Parameters'={ 'Network Instance'=""internet"" } } } }").
Definition pt9 : ptest := mkPt (mkHdr 1 53 None (Some 81985529216486895) 10)
  [[VLeaf (IvNum 1)];
   [];
   [VStruct [[VLeaf (IvNum 3)]; [VLeaf (IvFteid (FtFixed 1234 (mkAddrs true (Sa4 [10; 9; 8; 7] 0) false SaUnspec)))]]];
   [VStruct [[VLeaf (IvNum 1)]; [VLeaf (IvFteid (FtFixed 1234 (mkAddrs true (Sa4 [10; 9; 8; 7] 0) false SaUnspec)))]]]]
  [33; 53; 0; 63; 1; 35; 69; 103; 137; 171; 205; 239; 0; 0; 10; 0; 0; 19; 0; 1; 1; 0; 8; 0; 19; 0; 56; 0; 2; 0; 3; 0; 21; 0; 9; 1; 0; 0; 4; 210; 10; 9; 8; 7; 1; 0; 0; 19; 0; 56; 0; 2; 0; 1; 0; 21; 0; 9; 1; 0; 0; 4; 210; 10; 9; 8; 7]
  (str "PFCPv1 SESSION_MOD_RESP hdr={seq=10 SEID=0x123456789abcdef} ies={ 'Cause'=Request accepted (success) 'Created PDR'={ { 'PDR ID'=3 'F-TEID'=TEID-0x4d2,v4:10.9.8.7 } } 'Updated PDR'={ { 'PDR ID'=1 'F-TEID'=TEID-0x4d2,v4:10.9.8.7 } } }").
Definition pt10 : ptest := mkPt (mkHdr 1 53 None (Some 81985529216486895) 11)
  [[VLeaf (IvNum 66)];
   [VLeaf (IvNum 44)];
   [];
   []]
  [33; 53; 0; 23; 1; 35; 69; 103; 137; 171; 205; 239; 0; 0; 11; 0; 0; 19; 0; 1; 66; 0; 40; 0; 2; 0; 44]
  (str "PFCPv1 SESSION_MOD_RESP hdr={seq=11 SEID=0x123456789abcdef} ies={ 'Cause'=Mandatory IE missing 'Offending IE'=Apply Action }").
Definition pt11 : ptest := mkPt (mkHdr 1 54 None (Some 81985529216486895) 12)
  []
  [33; 54; 0; 12; 1; 35; 69; 103; 137; 171; 205; 239; 0; 0; 12; 0]
  (str "PFCPv1 SESSION_DEL_REQ hdr={seq=12 SEID=0x123456789abcdef} ies={ }").
Definition pt12 : ptest := mkPt (mkHdr 1 55 None (Some 81985529216486895) 13)
  [[VLeaf (IvNum 72)]]
  [33; 55; 0; 17; 1; 35; 69; 103; 137; 171; 205; 239; 0; 0; 13; 0; 0; 19; 0; 1; 72]
  (str "PFCPv1 SESSION_DEL_RESP hdr={seq=13 SEID=0x123456789abcdef} ies={ 'Cause'=No established PFCP Association }").
Definition pt13 : ptest := mkPt (mkHdr 1 55 None (Some 81985529216486895) 13)
  [[VLeaf (IvNum 1)]]
  [33; 55; 0; 17; 1; 35; 69; 103; 137; 171; 205; 239; 0; 0; 13; 0; 0; 19; 0; 1; 1]
  (str "PFCPv1 SESSION_DEL_RESP hdr={seq=13 SEID=0x123456789abcdef} ies={ 'Cause'=Request accepted (success) }").
Definition ptests : list ptest := [pt0; pt1; pt2; pt3; pt4; pt5; pt6; pt7; pt8; pt9; pt10; pt11; pt12; pt13].

(* pfcp_test.c:472-527, test_enc_dec(): encode into a msgb of 1024 bytes, decode the header, decode the IEs; print the message
   before and after *)
Definition pt_ok (x : ptest) : Prop :=
  let m := mkMsg SaUnspec false false (pt_h x) (pt_ies x) in
  (exists l3 l4, msg_encode (msgb_new 1024) (pt_h x) (pt_ies x) = MOk (mkMsgb (pt_bytes x) 1024 l3 l4))
  /\ (exists d, decode_header (pt_bytes x) (lenN (pt_bytes x)) = Ok d /\ dh_len d = lenN (pt_bytes x) /\ dh_h d = pt_h x
       /\ decode_tlv (hd_type (dh_h d)) (dropN (dh_ofs d) (pt_bytes x)) (dh_tlv d) = Ok (pt_ies x))
  /\ exists buf, msg_to_str pt_T m (Some (repeat 1 2000)) 2000 = Ok (Some (pt_text x ++ 0 :: buf), Z.of_N (lenN (pt_text x))).
Example pfcp_test : Forall pt_ok ptests.
Proof.
  unfold ptests.
  repeat (constructor; [split; [do 2 eexists; vm_compute; reflexivity|split; [eexists; split; [vm_compute; reflexivity|split; [vm_compute; reflexivity|split; [reflexivity|vm_compute; reflexivity]]]|eexists; vm_compute; reflexivity]]|]).
  constructor.
Qed.
