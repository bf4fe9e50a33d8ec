(* PropertiesHdr.v -- C110: the PFCP header structs, with their bit fields, in the memory of a msgb, on hosts of either byte order.
   Proofs: HdrMemProofs.v, HdrMemLemmas.v; code: HdrMemModel.v; vocabulary: HdrMemSpec.v, MsgSpec.v. *)
From Verif Require Import Base DecEncModel DecEncSpec IesModel IesSpec TablesModel MsgModel MsgSpec HdrMemModel HdrMemSpec HdrMemProofs HdrMemLemmas PropertiesMsg.

(* ---------------------------------------------------------------- C110 *)
(* osmo_pfcp_msg_encode() on memory: for a msgb with any bytes behind its tail, on either byte order, any header and any IEs, successful,
   failing or aborting, the effect is that of the octet model msg_encode() of C21 .. C28, but for the last octet of the header, whose spare bits keep
   the old value; no byte behind the new tail is changed *)
Theorem C110_encode be m b h ies : holds m b -> bytes_ok (cm_mem b) ->
  let size := hdr_size (is_some (hd_seid h)) in
  let old := nth (N.to_nat (cm_tail b + size - 1)) (cm_mem b) 0 in
  let fix_octet := with_octet (cm_tail b + size - 1) (last_octet h old) in
  match msg_encode m h ies with
  | MOk m' => exists b', c_msg_encode be b h ies = COk b' /\ holds (fix_octet m') b' /\ dropN (cm_tail b') (cm_mem b') = dropN (cm_tail b') (cm_mem b)
  | MErr m' e => exists b', c_msg_encode be b h ies = CErr b' e /\ holds (fix_octet m') b' /\ dropN (cm_tail b') (cm_mem b') = dropN (cm_tail b') (cm_mem b)
  | MUB u => c_msg_encode be b h ies = CUB u
  end.
Proof. exact (encode_in_memory be m b h ies). Qed.
Print Assumptions C110_encode.
(* in memory that is zero behind the tail, as msgb_alloc() returns it, the octets are those of the octet model, and the rest stays zero: so
   bundles appended one after the other have them too *)
Theorem C110_zeroed be m b h ies m' : holds m b -> bytes_ok (cm_mem b) -> tail_zero b -> msg_encode m h ies = MOk m' ->
  exists b', c_msg_encode be b h ies = COk b' /\ holds m' b' /\ tail_zero b'.
Proof. exact (encode_zeroed be m b h ies m'). Qed.
Print Assumptions C110_zeroed.
(* big endian and little endian hosts leave the same memory *)
Theorem C110_byte_order be b h ies : cm_tail b <= lenN (cm_mem b) -> bytes_ok (cm_mem b) ->
  c_msg_encode be b h ies = c_msg_encode false b h ies.
Proof. exact (same_octets be b h ies). Qed.
Print Assumptions C110_byte_order.
(* osmo_pfcp_msg_decode_header() on memory, on either byte order, for all octets and all lengths *)
Theorem C110_decode be m data_len : bytes_ok m -> data_len <= lenN m -> c_decode_header be m data_len = decode_header m data_len.
Proof. exact (decode_in_memory be m data_len). Qed.
Print Assumptions C110_decode.
(* what a host of one byte order appends, whatever was in the memory before, a host of either byte order reads as the same header, whatever follows; its IEs
   are those of the octet model *)
Theorem C110_exchange be be' m b h ies m' : holds m b -> bytes_ok (cm_mem b) -> valid_hdr h -> msg_encode m h ies = MOk m' ->
  exists b' q, c_msg_encode be b h ies = COk b' /\ takeN (cm_tail b' - cm_tail b) (dropN (cm_tail b) (cm_mem b')) = q
    /\ lenN q = lenN (mb_buf m') - lenN (mb_buf m) /\ hdr_len h <= lenN q
    /\ dropN (hdr_len h) q = dropN (lenN (mb_buf m) + hdr_len h) (mb_buf m')
    /\ forall rest, bytes_ok (q ++ rest) ->
         c_decode_header be' (q ++ rest) (lenN q) = Ok (mkDh h (lenN q) (hdr_len h) (lenN q - hdr_len h)).
Proof. exact (encode_exchange be be' m b h ies m'). Qed.
Print Assumptions C110_exchange.

(* whole messages: every message type with a table, every valid header and contents, any bytes in the memory of the msgb, earlier messages in it or not, on
   either byte order: there is a wire form of the IEs; if it fits, encoding succeeds, and a host of either byte order decodes header and IEs of the octets
   appended to what was encoded. [rest] as for C24_message_roundtrip *)
Theorem C110_message_exchange be be' h ies tab : valid_hdr h -> get_msg_coding (hd_type h) = Some tab -> valid_struct tab ies ->
  exists bs, wire_struct tab ies bs
    /\ (hdr_len h + lenN bs <= 65539 -> forall m b, holds m b -> bytes_ok (cm_mem b) -> cm_tail b + hdr_len h + lenN bs <= lenN (cm_mem b) ->
        exists b' q, c_msg_encode be b h ies = COk b' /\ takeN (cm_tail b' - cm_tail b) (dropN (cm_tail b) (cm_mem b')) = q
          /\ lenN q = hdr_len h + lenN bs
          /\ forall rest, In 0 rest -> bytes_ok (q ++ rest) ->
               exists d, c_decode_header be' (q ++ rest) (lenN q) = Ok d /\ dh_h d = h /\ dh_len d = lenN q
                 /\ decode_tlv (hd_type (dh_h d)) (dropN (dh_ofs d) (q ++ rest)) (dh_tlv d) = Ok ies).
Proof. exact (message_exchange be be' h ies tab). Qed.
Print Assumptions C110_message_exchange.

Definition C110_fresh : cmsgb := mkCm (repeat 0 24) 0 None None.
(* libosmocore's msgb_reset(): tail and pointers are reset, the bytes stay *)
Definition C110_reset (b : cmsgb) : cmsgb := mkCm (cm_mem b) 0 None None.
(* the octets sent are not a function of the message and of what the msgb contains: in a msgb that is reused after msgb_reset() the spare octet has an
   octet of the earlier message *)
Theorem C110_pure_refuted : exists b b1 b2, c_msg_encode false C110_fresh C21_hs [] = COk b
  /\ holds (mkMsgb [] 24 None None) C110_fresh /\ holds (mkMsgb [] 24 None None) (C110_reset b)
  /\ c_msg_encode false C110_fresh C21_h C21_ies = COk b1 /\ c_msg_encode false (C110_reset b) C21_h C21_ies = COk b2
  /\ takeN (cm_tail b1) (cm_mem b1) <> takeN (cm_tail b2) (cm_mem b2).
Proof.
  do 3 eexists. split; [vm_compute; reflexivity|]. split; [vm_compute; repeat split; discriminate|]. split; [vm_compute; repeat split; discriminate|].
  split; [vm_compute; reflexivity|]. split; [vm_compute; reflexivity|]. vm_compute. discriminate.
Qed.
Print Assumptions C110_pure_refuted.

(* the two messages of C21, written on a big endian and on a little endian host, into dirty memory; the last octet keeps the nibble 9 resp. the octet 153 *)
Example C110_example : let dirty := mkCm (repeat 153 24) 0 None None in
  holds (mkMsgb [] 24 None None) dirty /\ tail_zero C110_fresh
  /\ c_msg_encode true dirty C21_hs [] = COk (mkCm ([35; 54; 0; 12; 0; 0; 18; 52; 86; 120; 154; 188; 18; 52; 86; 155] ++ repeat 153 8) 16 (Some 0) (Some 0))
  /\ c_msg_encode false dirty C21_h C21_ies = COk (mkCm ([32; 1; 0; 12; 0; 0; 1; 153; 0; 96; 0; 4; 0; 0; 4; 210] ++ repeat 153 8) 16 (Some 0) (Some 0))
  /\ c_decode_header false [35; 54; 0; 12; 0; 0; 18; 52; 86; 120; 154; 188; 18; 52; 86; 155] 16 = Ok (mkDh C21_hs 16 16 0)
  /\ decode_tlv 1 (dropN 8 [32; 1; 0; 12; 0; 0; 1; 153; 0; 96; 0; 4; 0; 0; 4; 210]) 8 = Ok C21_ies
  /\ valid_hdr C24_h /\ get_msg_coding (hd_type C24_h) = Some ies_session_mod_resp
  /\ c_msg_encode true (mkCm (repeat 153 24) 24 (Some 0) (Some 0)) C21_h C21_ies = CUB MsgbAbort.
Proof.
  cbv zeta. repeat split; try (vm_compute; reflexivity); try (vm_compute; discriminate). repeat constructor.
Qed.
