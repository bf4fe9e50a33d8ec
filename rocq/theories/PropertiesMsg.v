(* PropertiesMsg.v -- the property theorems C21 .. C29, C50 and C51 (PFCP messages, bundles, receive loop). Proofs are in
   MsgProofs.v, MsgEncProofs.v, RxProofs.v, TermProofs.v, SizeProofs.v, MsgFinalProofs.v and RxFullProofs.v; the vocabulary of the
   statements is in MsgModel.v / TablesModel.v (code) and MsgSpec.v (wire format, valid messages). *)
From Verif Require Import Base BaseProofs GtlvModel DecEncModel DecEncSpec IesModel IesSpec IesProofs TablesModel MsgModel
  MsgSpec MsgProofs MsgEncProofs RxProofs TermProofs SizeProofs MsgFinalProofs RxFullProofs.

(* ---------------------------------------------------------------- C21 *)
(* Whatever IEs follow: when osmo_pfcp_msg_encode() returns 0 for a header with in-range fields, it has appended [msg] to
   the msgb, and decoding the header of [msg] returns the same fields, the whole message length, and an IE region that
   starts behind the header and ends with the message. *)
Theorem C21_header_roundtrip m h ies m' : lenN (mb_buf m) <= mb_cap m -> valid_hdr h -> msg_encode m h ies = MOk m' ->
  exists prev msg, mb_buf m' = prev ++ msg /\ lenN prev = lenN (mb_buf m) /\
    decode_header msg (lenN msg) = Ok (mkDh h (lenN msg) (hdr_len h) (lenN msg - hdr_len h)) /\ hdr_len h <= lenN msg.
Proof. exact (encoded_header m h ies m'). Qed.
Print Assumptions C21_header_roundtrip.
(* every in-range header, with or without follow-on flag, is decoded from its wire form, whatever follows in memory *)
Theorem C21_header_wire h follow_on ies_len rest data_len : valid_hdr h -> hdr_len h - 4 + ies_len <= 65535 ->
  hdr_len h + ies_len <= data_len ->
  decode_header (wire_hdr h follow_on ies_len ++ rest) data_len = Ok (mkDh h (hdr_len h + ies_len) (hdr_len h) ies_len).
Proof. exact (decode_header_wire h follow_on ies_len rest data_len). Qed.
Print Assumptions C21_header_wire.
(* out-of-range fields are silently truncated by the encoder instead of being refused *)
Theorem C21_header_range_refuted : exists h m' d, ~ valid_hdr h /\ msg_encode (msgb_new 2048) h [[VLeaf (IvNum 1)]] = MOk m'
  /\ decode_header (mb_buf m') (lenN (mb_buf m')) = Ok d /\ dh_h d <> h.
Proof.
  exists (mkHdr 1 1 None None (2 ^ 24)). eexists. eexists. split; [intros (_ & _ & H & _); vm_compute in H; discriminate|].
  split; [vm_compute; reflexivity|]. split; [vm_compute; reflexivity|]. discriminate.
Qed.
Print Assumptions C21_header_range_refuted.

Definition C21_h : hdr := mkHdr 1 1 None None 1.
Definition C21_ies : list (slot iev) := [[VLeaf (IvNum 1234)]].
Definition C21_hs : hdr := mkHdr 1 54 (Some 11) (Some 20015998343868) 1193046.
(* the first message of tests/libosmo-pfcp/pfcp_test.ok, and a Session Deletion Request with SEID and priority *)
Example C21_example : valid_hdr C21_h /\ valid_hdr C21_hs
  /\ msg_encode (msgb_new 2048) C21_h C21_ies
     = MOk (mkMsgb [32; 1; 0; 12; 0; 0; 1; 0; 0; 96; 0; 4; 0; 0; 4; 210] 2048 (Some 0) (Some 0))
  /\ msg_encode (msgb_new 2048) C21_hs []
     = MOk (mkMsgb [35; 54; 0; 12; 0; 0; 18; 52; 86; 120; 154; 188; 18; 52; 86; 11] 2048 (Some 0) (Some 0)).
Proof. repeat split; reflexivity. Qed.

(* ---------------------------------------------------------------- C22 *)
(* Every successful encode, of any struct: the bytes appended to the msgb announce exactly their own length. *)
Theorem C22_length_field_exact m h ies m' : lenN (mb_buf m) <= mb_cap m -> msg_encode m h ies = MOk m' ->
  exists prev msg, mb_buf m' = prev ++ msg /\ lenN prev = lenN (mb_buf m) /\ announced msg = lenN msg /\ hdr_len h <= lenN msg
    /\ lenN (mb_buf m') <= mb_cap m.
Proof. exact (encoded_length m h ies m'). Qed.
Print Assumptions C22_length_field_exact.
Example C22_example : exists m', msg_encode (msgb_new 2048) C21_h C21_ies = MOk m' /\ announced (mb_buf m') = 16.
Proof. eexists. split; reflexivity. Qed.

(* ---------------------------------------------------------------- C23 *)
(* Any received bytes [q]: header decoding fails exactly for a bad header, never reads outside of [q] (whatever [rest]
   follows in memory), and otherwise returns the announced length, which does not exceed the data. The IE region lies
   inside the message if the announced length covers the header ... *)
Theorem C23_header_decode_partial q rest : bytes_ok q ->
  (bad_header q -> exists e, decode_header (q ++ rest) (lenN q) = Err e)
  /\ (~ bad_header q -> exists d, decode_header (q ++ rest) (lenN q) = Ok d /\ dh_len d = announced q /\ announced q <= lenN q
        /\ dh_ofs d = hdr_size_of q /\ hdr_size_of q <= lenN q
        /\ (hdr_size_of q <= announced q -> dh_ofs d + dh_tlv d = dh_len d)).
Proof. exact (header_decode_spec q rest). Qed.
Print Assumptions C23_header_decode_partial.
(* ... but if it does not, the length of the IE region wraps around to almost 2^32: pfcp_msg.c:287-292 does not compare
   the message length with the header length *)
Definition C23_short : list N := [33; 52; 0; 0; 0; 0; 0; 0; 0; 0; 0; 0; 0; 0; 1; 0].
Theorem C23_header_decode_refuted : exists q d, bytes_ok q /\ decode_header q (lenN q) = Ok d /\ lenN q < dh_ofs d + dh_tlv d.
Proof.
  exists C23_short, (mkDh (mkHdr 1 52 None (Some 0) 1) 4 16 4294967284). split; [repeat constructor|]. split; vm_compute; reflexivity.
Qed.
Print Assumptions C23_header_decode_refuted.
Example C23_example : ~ bad_header [32; 1; 0; 4; 0; 0; 1; 0; 99] /\ hdr_size_of [32; 1; 0; 4; 0; 0; 1; 0; 99] = 8
  /\ announced [32; 1; 0; 4; 0; 0; 1; 0; 99] = 8 /\ bad_header [34; 1; 0; 4; 0; 0; 1; 0].
Proof.
  repeat split; try reflexivity.
  - unfold bad_header. vm_compute. intuition discriminate.
  - unfold bad_header. right. right. right. split; reflexivity.
Qed.

(* ---------------------------------------------------------------- C24 *)
(* For every message type that has a table, every valid header and every valid contents: there is a wire form of the IEs;
   encoding appends header and IEs in wire form to the msgb if there is room, and decoding header and IEs of that returns
   the same. [rest]: the memory behind the message, somewhere holding a NUL byte (needed for C19's
   "Activate Predefined Rules" only). *)
Theorem C24_message_roundtrip h ies tab : valid_hdr h -> get_msg_coding (hd_type h) = Some tab -> valid_struct tab ies ->
  exists bs, wire_struct tab ies bs
    /\ (hdr_len h + lenN bs <= 65539 -> forall m, lenN (mb_buf m) + hdr_len h + lenN bs <= mb_cap m ->
        exists m' prev, msg_encode m h ies = MOk m' /\ mb_buf m' = prev ++ wire_hdr h false (lenN bs) ++ bs /\ lenN prev = lenN (mb_buf m))
    /\ (hdr_len h + lenN bs <= 65539 -> forall rest, In 0 rest ->
        exists d, decode_header ((wire_hdr h false (lenN bs) ++ bs) ++ rest) (hdr_len h + lenN bs) = Ok d
          /\ dh_h d = h /\ dh_len d = hdr_len h + lenN bs
          /\ decode_tlv (hd_type (dh_h d)) (dropN (dh_ofs d) ((wire_hdr h false (lenN bs) ++ bs) ++ rest)) (dh_tlv d) = Ok ies).
Proof. exact (msg_roundtrip h ies tab). Qed.
Print Assumptions C24_message_roundtrip.
(* a Session Modification Response with grouped IEs *)
Definition C24_h : hdr := mkHdr 1 53 None (Some 7) 9.
Definition C24_ies : list (slot iev) :=
  [[VLeaf (IvNum 1)]; []; [VStruct [[VLeaf (IvNum 2)]; [VLeaf (IvFteid (FtFixed 3 (mkAddrs true (Sa4 [127; 0; 0; 1] 0) false SaUnspec)))]];
    VStruct [[VLeaf (IvNum 4)]; []]]; []].
Example C24_example : valid_hdr C24_h /\ get_msg_coding (hd_type C24_h) = Some ies_session_mod_resp
  /\ valid_struct ies_session_mod_resp C24_ies
  /\ msg_encode (msgb_new 2048) C24_h C24_ies = MOk (mkMsgb [33; 53; 0; 50; 0; 0; 0; 0; 0; 0; 0; 7; 0; 0; 9; 0;
       0; 19; 0; 1; 1;
       0; 8; 0; 19; 0; 56; 0; 2; 0; 2; 0; 21; 0; 9; 1; 0; 0; 0; 3; 127; 0; 0; 1;
       0; 8; 0; 6; 0; 56; 0; 2; 0; 4] 2048 (Some 0) (Some 0)).
Proof.
  split; [repeat split|]. split; [reflexivity|]. split; [|vm_compute; reflexivity].
  repeat constructor; vm_compute; try discriminate; auto; try (intros; discriminate).
  exists [127; 0; 0; 1]. repeat split. repeat constructor.
Qed.

(* ---------------------------------------------------------------- C25 *)
(* Any list of valid messages (header, contents, IEs in wire form) that fits: encoding them one after the other into a
   fresh msgb yields the bundle -- FO flag on all messages but the last -- and receiving the bundle in one datagram gives
   back exactly these messages in order. *)
Theorem C25_bundle_roundtrip l : all_valid l -> lenN (wire_bundle (strip l)) < alloc_size ->
  (exists m, encode_all (msgb_new alloc_size) (msgs_of l) = MOk m /\ mb_buf m = wire_bundle (strip l))
  /\ rx_datagram (wire_bundle (strip l)) = map (fun x => RxMsg (fst x) (snd x)) (msgs_of l).
Proof.
  exact (fun H1 H2 => conj (encode_all_wire l alloc_size H1 (N.lt_le_incl _ _ H2)) (rx_datagram_bundle l H1 H2)).
Qed.
Print Assumptions C25_bundle_roundtrip.
Definition C25_hb (n : N) : hdr * list (slot iev) * list N :=
  (mkHdr 1 1 None None n, [[VLeaf (IvNum 7)]], [0; 96; 0; 4; 0; 0; 0; 7]).
Example C25_example : all_valid [C25_hb 1; C25_hb 2; C25_hb 3]
  /\ wire_bundle (strip [C25_hb 1; C25_hb 2])
     = [36; 1; 0; 12; 0; 0; 1; 0; 0; 96; 0; 4; 0; 0; 0; 7; 32; 1; 0; 12; 0; 0; 2; 0; 0; 96; 0; 4; 0; 0; 0; 7].
Proof.
  split; [|reflexivity].
  assert (H : forall n, n < 2 ^ 24 -> valid_msg (mkHdr 1 1 None None n) [[VLeaf (IvNum 7)]] [0; 96; 0; 4; 0; 0; 0; 7]).
  { intros n Hn. split; [repeat split; assumption|]. exists ies_heartbeat. split; [reflexivity|]. split; [|split].
    - repeat constructor.
    - exists [[0; 0; 0; 7]], []. split; [repeat constructor|]. split; reflexivity.
    - vm_compute. discriminate. }
  repeat constructor; apply H; reflexivity.
Qed.

(* ---------------------------------------------------------------- C26 *)
(* For every datagram whatsoever, also with wrong lengths, the receive loop ends. *)
Theorem C26_receive_terminates d : ~ In (RxUB OutOfFuel) (rx_datagram d).
Proof. exact (rx_datagram_terminates d). Qed.
Print Assumptions C26_receive_terminates.
(* A datagram is a sequence of complete messages followed by nothing, by a bad header, or by a header announcing less than
   itself. Each complete message has its own outcome -- the one it would have alone: received, or dropped if its IEs are
   malformed --, whatever the others are; a bad header ends the loop. *)
Theorem C26_receive_structure_partial d : bytes_ok d -> lenN d < alloc_size ->
  exists ps q, d = concat ps ++ q /\ Forall framed ps
    /\ ((q = [] /\ rx_datagram d = map outcome ps)
        \/ (q <> [] /\ bad_header q /\ exists e, rx_datagram d = map outcome ps ++ [RxBad e])
        \/ (short_length q /\ exists tail, rx_datagram d = map outcome ps ++ tail)).
Proof. exact (rx_datagram_structure d). Qed.
Print Assumptions C26_receive_structure_partial.
Theorem C26_complete_messages ps : Forall framed ps -> Forall bytes_ok ps -> lenN (concat ps) < alloc_size ->
  rx_datagram (concat ps) = map outcome ps.
Proof. exact (rx_datagram_messages ps). Qed.
Print Assumptions C26_complete_messages.
Theorem C26_outcome p : framed p -> (exists h ies, outcome p = RxMsg h ies) \/ (exists e, outcome p = RxDrop e).
Proof. exact (outcome_framed p). Qed.
Print Assumptions C26_outcome.
(* Every datagram without exception, in full: which outcomes it can have, message by message. *)
Theorem C26_receive_all d : bytes_ok d -> received (lenN d <? alloc_size) (takeN alloc_size d) (rx_datagram d).
Proof. exact (rx_datagram_received d). Qed.
Print Assumptions C26_receive_all.
(* So whatever the datagram is: a message is delivered only if it is a complete message of the datagram and its IEs, taken
   alone, decode to what is delivered. *)
Theorem C26_delivered d h ies : bytes_ok d -> In (RxMsg h ies) (rx_datagram d) ->
  exists a p b, takeN alloc_size d = a ++ p ++ b /\ framed p /\ outcome p = RxMsg h ies.
Proof. exact (rx_datagram_delivered d h ies). Qed.
Print Assumptions C26_delivered.
(* a header that announces less than itself, dropped; the next message starts inside of it *)
Example C26_receive_all_example : short_length ([32; 1; 0; 0] ++ [32; 1; 0; 12; 0; 96; 0; 0; 0; 96; 0; 4; 0; 0; 0; 7])
  /\ rx_datagram ([32; 1; 0; 0] ++ [32; 1; 0; 12; 0; 96; 0; 0; 0; 96; 0; 4; 0; 0; 0; 7])
     = [RxDrop EINVAL; RxMsg (mkHdr 1 1 None None 24576) [[VLeaf (IvNum 7)]]].
Proof. split; [repeat split; try (vm_compute; discriminate)|vm_compute; reflexivity]. Qed.
(* What is missing: a message announcing less than its header makes the decoder read beyond the receive buffer (see C23),
   and so does a complete message that fills the buffer to the last byte and ends in "Activate Predefined Rules" (C19). *)
Theorem C26_short_length_refuted : exists d, bytes_ok d /\ lenN d = 16 /\ rx_datagram d = [RxUB OobRead].
Proof.
  exists C23_short. split; [repeat constructor|]. split; [reflexivity|]. vm_compute. reflexivity.
Qed.
Print Assumptions C26_short_length_refuted.
Definition C26_full : list N :=
  [33; 52; 7; 252; 0; 0; 0; 0; 0; 0; 0; 0; 0; 0; 1; 0] ++ [0; 1; 7; 236] ++ [0; 106; 7; 232] ++ repeat 65 2024.
Theorem C26_full_datagram_refuted : exists d, bytes_ok d /\ framed d /\ lenN d = alloc_size /\ rx_datagram d = [RxUB OobRead].
Proof.
  exists C26_full. split; [|split; [|split]].
  - unfold C26_full. apply bytes_ok_app. split; [repeat constructor|]. apply bytes_ok_app. split; [repeat constructor|].
    apply bytes_ok_app. split; [repeat constructor|]. apply Forall_forall. intros x Hx. apply repeat_spec in Hx. subst x. reflexivity.
  - repeat split; try (vm_compute; discriminate).
  - reflexivity.
  - vm_compute. reflexivity.
Qed.
Print Assumptions C26_full_datagram_refuted.
(* three heartbeat requests, the second without its mandatory IE, then a truncated header *)
Definition C26_hb (n : N) : list N := [32; 1; 0; 12; 0; 0; n; 0; 0; 96; 0; 4; 0; 0; 0; 7].
Definition C26_bad : list N := [32; 1; 0; 4; 0; 0; 2; 0].
Example C26_example : framed (C26_hb 1) /\ framed C26_bad /\ bad_header [32; 1]
  /\ rx_datagram (C26_hb 1 ++ C26_bad ++ C26_hb 3 ++ [32; 1])
     = [RxMsg (mkHdr 1 1 None None 1) [[VLeaf (IvNum 7)]]; RxDrop EINVAL; RxMsg (mkHdr 1 1 None None 3) [[VLeaf (IvNum 7)]]; RxBad EINVAL].
Proof.
  split; [repeat split; try discriminate; vm_compute; discriminate|]. split; [repeat split; try discriminate; vm_compute; discriminate|].
  split; [left; reflexivity|]. vm_compute. reflexivity.
Qed.

(* ---------------------------------------------------------------- C27 *)
(* From any state: every result is in 1 .. 2^24 - 1, and two calls less than 2^24 - 1 calls apart give different results.
   The state after a call is the value returned. *)
Theorem C27_seq_nr_range s : 1 <= next_seq_nr s < 2 ^ 24.
Proof. exact (ctr_range (2 ^ 24) eq_refl next_seq_nr next_seq_nr_eq s). Qed.
Print Assumptions C27_seq_nr_range.
Theorem C27_seq_nr_distinct s i j : (i < j)%nat -> N.of_nat (j - i) < 2 ^ 24 - 1 ->
  Nat.iter (S i) next_seq_nr s <> Nat.iter (S j) next_seq_nr s.
Proof. exact (ctr_distinct (2 ^ 24) eq_refl next_seq_nr next_seq_nr_eq s i j). Qed.
Print Assumptions C27_seq_nr_distinct.
Example C27_example : next_seq_nr 0 = 1 /\ next_seq_nr 16777215 = 1 /\ next_seq_nr 4294967295 = 1 /\ next_seq_nr 41 = 42.
Proof. repeat split; reflexivity. Qed.

(* ---------------------------------------------------------------- C28 *)
Theorem C28_seid_range s : 1 <= next_seid s < 2 ^ 64.
Proof. exact (ctr_range (2 ^ 64) eq_refl next_seid next_seid_eq s). Qed.
Print Assumptions C28_seid_range.
Theorem C28_seid_distinct s i j : (i < j)%nat -> N.of_nat (j - i) < 2 ^ 64 - 1 -> Nat.iter (S i) next_seid s <> Nat.iter (S j) next_seid s.
Proof. exact (ctr_distinct (2 ^ 64) eq_refl next_seid next_seid_eq s i j). Qed.
Print Assumptions C28_seid_distinct.
Example C28_example : next_seid 0 = 1 /\ next_seid (2 ^ 64 - 1) = 1 /\ next_seid 41 = 42.
Proof. repeat split; reflexivity. Qed.

(* ---------------------------------------------------------------- C29 *)
(* osmo_pfcp_msg_alloc_tx() with a remote address or a message to reply to: the new message's fields *)
Theorem C29_alloc_tx remote reply t : (remote <> None \/ reply <> None) ->
  exists m, msg_alloc_tx remote reply t = Ok m /\ m_rx m = false /\ m_resp m = is_response t /\ hd_type (m_h m) = t
    /\ hd_version (m_h m) = 1 /\ hd_seid (m_h m) = None /\ hd_prio (m_h m) = None /\ m_ies m = []
    /\ hd_seq (m_h m) = match reply with Some r => hd_seq (m_h r) | None => 0 end
    /\ Some (m_remote m) = match remote with Some a => Some a | None => option_map m_remote reply end.
Proof. exact (alloc_tx_spec remote reply t). Qed.
Print Assumptions C29_alloc_tx.
Theorem C29_is_response t : is_response t = true <-> (t = 11 \/ exists r, In (r, t) req_resp).
Proof. exact (is_response_spec t). Qed.
Print Assumptions C29_is_response.
(* without either it is an assertion failure, pfcp_msg.c:428 *)
Example C29_example : msg_alloc_tx None None 1 = UB AssertFail
  /\ option_map (fun m => hd_seq (m_h m)) (match msg_alloc_tx_resp (Some (mkMsg (Sa4 [1; 2; 3; 4] 8805) true false (mkHdr 1 1 None None 77) [])) 2 with Ok m => Some m | _ => None end) = Some 77.
Proof. split; reflexivity. Qed.

(* ---------------------------------------------------------------- C50 *)
(* All message types but three (Session Establishment Request, Session Modification Request / Response): any valid message
   fits in the standard 2048 byte msgb. *)
Theorem C50_encode_fits_partial h ies tab : valid_hdr h -> get_msg_coding (hd_type h) = Some tab -> valid_struct tab ies ->
  hd_type h <> 50 /\ hd_type h <> 52 /\ hd_type h <> 53 ->
  exists bs m', wire_struct tab ies bs /\ msg_encode (msgb_new alloc_size) h ies = MOk m' /\ mb_buf m' = wire_hdr h false (lenN bs) ++ bs.
Proof. exact (encode_fits h ies tab). Qed.
Print Assumptions C50_encode_fits_partial.
(* For the other three there are valid messages that trip the msgb overflow abort, e.g. a Session Modification Response
   with 32 created and 32 updated PDRs, each with a full F-TEID *)
Definition C50_pdr : val iev :=
  VStruct [[VLeaf (IvNum 1)]; [VLeaf (IvFteid (FtFixed 1 (mkAddrs true (Sa4 [1; 2; 3; 4] 0) true (Sa6 (repeat 1 16) 0))))]].
Definition C50_ies : list (slot iev) := [[VLeaf (IvNum 1)]; []; repeat C50_pdr 32; repeat C50_pdr 32].
Theorem C50_encode_aborts_refuted : exists h ies, valid_hdr h /\ hd_type h = 53 /\ valid_struct ies_session_mod_resp ies
  /\ msg_encode (msgb_new alloc_size) h ies = MUB MsgbAbort.
Proof.
  exists C24_h, C50_ies. split; [repeat split|]. split; [reflexivity|]. split; [|vm_compute; reflexivity].
  assert (Hp : valid_val (PNest (pMULTI iei_created_pdr max_multi 0) ies_created_pdr) C50_pdr).
  { split; [reflexivity|]. split; [repeat constructor|]. split; [vm_compute; discriminate|]. split; [|exact I]. constructor; [|constructor].
    split; [reflexivity|]. split; eexists; (split; [reflexivity|]); split; try reflexivity; repeat constructor. }
  assert (Hf : forall p, valid_val p C50_pdr -> Forall (valid_val p) (repeat C50_pdr 32)).
  { intros p H. apply Forall_forall. intros x Hx. apply repeat_spec in Hx. subst x. exact H. }
  constructor; [split; [reflexivity|repeat constructor]|]. constructor; [split; [vm_compute; discriminate|constructor]|].
  constructor; [split; [repeat split; try (vm_compute; discriminate); intros H; discriminate H|apply Hf; exact Hp]|].
  constructor; [split; [repeat split; try (vm_compute; discriminate); intros H; discriminate H|apply Hf; exact Hp]|]. constructor.
Qed.
Print Assumptions C50_encode_aborts_refuted.
Example C50_example : valid_struct ies_heartbeat C21_ies /\ hd_type C21_h <> 50.
Proof. split; [repeat constructor|discriminate]. Qed.

(* ---------------------------------------------------------------- C51 *)
(* osmo_pfcp_msg_encode() -- whether it succeeds or returns an error -- does not alter any byte already in the msgb, except
   that in the one at l4h (the previous message's flags) the FO bit is set; what it writes follows behind. *)
Theorem C51_encode_keeps_bundle m h ies m' : lenN (mb_buf m) <= mb_cap m ->
  (msg_encode m h ies = MOk m' \/ exists e, msg_encode m h ies = MErr m' e) ->
  forall i b, nth_error (mb_buf m) i = Some b ->
    nth_error (mb_buf m') i = Some (if match mb_l4 m with Some o => o =? N.of_nat i | None => false end then N.setbit b 2 else b).
Proof. exact (encode_keeps_all m h ies m'). Qed.
Print Assumptions C51_encode_keeps_bundle.
(* ... however, when encoding a second message fails, the first message's FO flag stays set and the remains of the second
   stay behind it in the msgb *)
Theorem C51_encode_error_clean_refuted : exists m h ies m' e, msg_encode (msgb_new 2048) C21_h C21_ies = MOk m
  /\ msg_encode m h ies = MErr m' e /\ lenN (mb_buf m) < lenN (mb_buf m') /\ nth 0 (mb_buf m') 0 <> nth 0 (mb_buf m) 0.
Proof.
  eexists. exists (mkHdr 1 99 None None 2), []. eexists. eexists. split; [vm_compute; reflexivity|].
  split; [vm_compute; reflexivity|]. split; [vm_compute; reflexivity|vm_compute; discriminate].
Qed.
Print Assumptions C51_encode_error_clean_refuted.
Example C51_example : exists m m', msg_encode (msgb_new 2048) C21_h C21_ies = MOk m /\ msg_encode m C21_h C21_ies = MOk m'
  /\ mb_l4 m = Some 0 /\ lenN (mb_buf m) = 16 /\ lenN (mb_buf m') = 32.
Proof. eexists. eexists. split; [vm_compute; reflexivity|]. split; [vm_compute; reflexivity|]. repeat split. Qed.
