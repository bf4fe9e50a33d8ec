(* MsgModel.v -- model of src/libosmo-pfcp/pfcp_msg.c: PFCP header, message encoding / decoding, allocation, sequence
   numbers; and of the receive loop of src/libosmo-pfcp/pfcp_endpoint.c. Logging is not modelled. *)
From Verif Require Import Base GtlvModel DecEncModel IesModel TablesModel.

(* osmo_pfcp_msgtype_is_response(), pfcp_msg.c:44-63, with the numbers of enum osmo_pfcp_message_type *)
Definition is_response (t : N) : bool :=
  existsb (N.eqb t) [2; 4; 6; 8; 10; 11; 13; 15; 51; 53; 55; 57].

(* struct osmo_pfcp_header_parsed, pfcp_msg.h:54-62. priority / seid = None: priority_present / seid_present false *)
Record hdr := mkHdr { hd_version : N; hd_type : N; hd_prio : option N; hd_seid : option N; hd_seq : N }.

(* struct osmo_pfcp_msg, pfcp_msg.h:97-138: remote address, rx flag, is_response, header, decoded IEs.
   The logging / session context, resp_cb and the cached encoded form are added where they are used. *)
Record pmsg := mkMsg { m_remote : sa; m_rx : bool; m_resp : bool; m_h : hdr; m_ies : list (slot iev) }.

(* osmo_pfcp_msg_set_memb_ofs(), pfcp_msg.c:201-214: position of the Cause / Node ID member in the decoded struct. If a
   table had two entries with that tag the code might use the second; no table has. *)
Fixpoint find_tag (tag : N) (ies : list pcoding) : option nat :=
  match ies with
  | [] => None
  | p :: ies' => if ti_tag (h_ti (phead p)) =? tag then Some 0%nat else option_map S (find_tag tag ies')
  end.
Definition memb_ofs (tag t : N) : option nat :=
  match get_msg_coding t with None => None | Some ies => find_tag tag ies end.
(* osmo_pfcp_msg_cause() / _node_id(), pfcp_msg.h:172-182: the member; None = NULL. The accessors of a struct member that
   was not decoded yield the zeroed member; the model gives None for that. *)
Definition msg_memb (tag : N) (m : pmsg) : option iev :=
  match memb_ofs tag (hd_type (m_h m)) with
  | None => None
  | Some i => match nth_error (m_ies m) i with Some [VLeaf v] => Some v | _ => None end
  end.

(* ---------------------------------------------------------------- header *)

(* sizeof(struct osmo_pfcp_header_common / _no_seid / _seid), pfcp_msg.c:65-102 *)
Definition hdr_common_size : N := 4.
Definition hdr_size (seid_present : bool) : N := if seid_present then 16 else 8.
Definition is_some {A} (o : option A) : bool := match o with Some _ => true | None => false end.

(* a struct msgb (libosmocore): bytes between head and tail, capacity (tailroom = capacity - length), and the offsets of
   l3h / l4h (None = NULL) *)
Record msgb := mkMsgb { mb_buf : list N; mb_cap : N; mb_l3 : option N; mb_l4 : option N }.
Definition msgb_new (cap : N) : msgb := mkMsgb [] cap None None.

(* first byte of the header: bit fields of struct osmo_pfcp_header_common, pfcp_msg.c:66-71 *)
Definition hdr_flags (seid prio follow_on : bool) (version : N) : N :=
  (if seid then 1 else 0) + (if prio then 2 else 0) + (if follow_on then 4 else 0) + 32 * (version mod 8).

(* the bytes enc_pfcp_header() stores, pfcp_msg.c:175-196, with the message length field [len] *)
Definition hdr_bytes (h : hdr) (len : N) : list N :=
  [hdr_flags (is_some (hd_seid h)) (is_some (hd_prio h)) false (hd_version h); hd_type h mod 256] ++ be_put 2 len
  ++ match hd_seid h with
     | None => be_put 3 (hd_seq h) ++ [0]
     | Some s => be_put 8 s ++ be_put 3 (hd_seq h) ++ [match hd_prio h with Some p => p mod 16 | None => 0 end]
     end.

(* outcome of encoding into a msgb: the msgb is modified also when an error is returned *)
Inductive mres := MOk (m : msgb) | MErr (m : msgb) (e : errno) | MUB (u : ub).

(* pfcp_header_set_message_length(), pfcp_msg.c:138-147, on the header at offset [ofs] *)
Definition set_message_length (buf : list N) (ofs total : N) : res (list N) :=
  if total <? hdr_common_size then Err EINVAL
  else if 65535 <? total - hdr_common_size then Err EMSGSIZE
  else Ok (overwrite buf (ofs + 2) (be_put 2 (total - hdr_common_size))).

(* enc_pfcp_header(), pfcp_msg.c:158-199. The rc of the preliminary length is always 0. *)
Definition enc_pfcp_header (cap : N) (buf : list N) (h : hdr) : eres :=
  let size := hdr_size (is_some (hd_seid h)) in
  if cap - lenN buf <? size then EUB MsgbAbort
  else
    let buf' := buf ++ hdr_bytes h (size - hdr_common_size) in
    match hd_seid h, hd_prio h with
    | None, Some _ => EErr buf' EINVAL
    | _, _ => EOk buf'
    end.

(* "c->follow_on = 1" on the byte at [ofs] *)
Definition set_follow_on (buf : list N) (ofs : N) : list N :=
  match nth_error buf (N.to_nat ofs) with Some b => overwrite buf ofs [N.lor b 4] | None => buf end.

(* osmo_pfcp_msg_encode_tlv(), pfcp_msg.c:344-351 and the generated osmo_pfcp_ies_encode(), gtlv_gen.c:389-397 *)
Definition encode_tlv (cap : N) (buf : list N) (t : N) (ies : list (slot iev)) : eres :=
  gtlvs_encode t16l16v cap (msg_table t) buf ies.

(* osmo_pfcp_msg_encode(), pfcp_msg.c:367-397 *)
Definition msg_encode (m : msgb) (h : hdr) (ies : list (slot iev)) : mres :=
  let buf0 := match mb_l4 m with
              | Some o => if o <? lenN (mb_buf m) then set_follow_on (mb_buf m) o else mb_buf m
              | None => mb_buf m
              end in
  let l4 := lenN buf0 in
  let l3 := match mb_l3 m with Some x => x | None => lenN buf0 end in
  let mk buf := mkMsgb buf (mb_cap m) (Some l3) (Some l4) in
  match enc_pfcp_header (mb_cap m) buf0 h with
  | EUB u => MUB u
  | EErr buf e => MErr (mk buf) e
  | EOk buf1 =>
    match encode_tlv (mb_cap m) buf1 (hd_type h) ies with
    | EUB u => MUB u
    | EErr buf e => MErr (mk buf) e
    | EOk buf2 =>
      match set_message_length buf2 l4 (lenN buf2 - l4) with
      | Ok buf3 => MOk (mk buf3)
      | Err e => MErr (mk buf2) e
      | UB u => MUB u
      end
    end
  end.

(* result of osmo_pfcp_msg_decode_header(): header, total message length (the return value), and tlv->src: offset of
   data from the start of the message, and len *)
Record dechdr := mkDh { dh_h : hdr; dh_len : N; dh_ofs : N; dh_tlv : N }.

(* osmo_pfcp_msg_decode_header(), pfcp_msg.c:242-324. [m]: memory from the start of the message onwards, [data_len]:
   length of the received data from there. follow_on is only logged. tlv->src.len is a size_t, computed as unsigned int,
   hence modulo 2^32. *)
Definition decode_header (m : list N) (data_len : N) : res dechdr :=
  if data_len =? 0 then Err EINVAL
  else if data_len <? hdr_common_size then Err EINVAL
  else
    common <- rdN hdr_common_size m ;;
    let flags := nth 0 common 0 in
    let typ := nth 1 common 0 in
    let seid_p := flag flags 1 in
    let prio_p := flag flags 2 in
    let header_len := hdr_size seid_p in
    if data_len <? header_len then Err EINVAL
    else
      let message_length := be_get (dropN 2 common) + hdr_common_size in
      if data_len <? message_length then Err EMSGSIZE
      else
        let tlv_len := (message_length + 2 ^ 32 - header_len) mod 2 ^ 32 in
        if negb seid_p then
          seq <- rd_be 3 (dropN 4 m) ;;
          if prio_p then Err EINVAL
          else Ok (mkDh (mkHdr (flags / 32) typ None None seq) message_length header_len tlv_len)
        else
          seid <- rd_be 8 (dropN 4 m) ;;
          seq <- rd_be 3 (dropN 12 m) ;;
          last <- rd_be 1 (dropN 15 m) ;;
          Ok (mkDh (mkHdr (flags / 32) typ (if prio_p then Some (last mod 16) else None) (Some seid) seq)
                message_length header_len tlv_len).

(* osmo_pfcp_msg_decode_tlv(), pfcp_msg.c:339-342 and the generated osmo_pfcp_ies_decode(), gtlv_gen.c:379-387; [m]:
   memory from the start of the IEs onwards *)
Definition decode_tlv (t : N) (m : list N) (tlv_len : N) : res (list (slot iev)) :=
  gtlvs_decode t16l16v false (msg_table t) m tlv_len.

(* ---------------------------------------------------------------- receive loop *)

(* OSMO_PFCP_MSGB_ALLOC_SIZE, pfcp_msg.h:43 *)
Definition alloc_size : N := 2048.

(* what becomes of one message of a datagram: given to osmo_pfcp_endpoint_handle_rx(); dropped because its IEs do not
   decode; header error, the rest of the datagram is dropped; undefined behaviour *)
Inductive rx_out := RxMsg (h : hdr) (ies : list (slot iev)) | RxDrop (e : errno) | RxBad (e : errno) | RxUB (u : ub).

Definition rx_tlv (d : dechdr) (m : list N) : rx_out :=
  match decode_tlv (hd_type (dh_h d)) (dropN (dh_ofs d) m) (dh_tlv d) with
  | Ok ies => RxMsg (dh_h d) ies
  | Err e => RxDrop e
  | UB u => RxUB u
  end.

(* the while loop of osmo_pfcp_fd_cb(), pfcp_endpoint.c:444-461. [m]: memory from l4h onwards, [left]: msgb_l4len().
   [fuel] bounds the number of messages. *)
Fixpoint rx_loop (fuel : nat) (m : list N) (left : N) : list rx_out :=
  if left =? 0 then []
  else
    match fuel with
    | O => [RxUB OutOfFuel]
    | S f =>
      match decode_header m left with
      | Err e => [RxBad e]
      | UB u => [RxUB u]
      | Ok d =>
        match rx_tlv d m with
        | RxUB u => [RxUB u]
        | o => o :: rx_loop f (dropN (dh_len d) m) (left - dh_len d)
        end
      end
    end.

(* the loop over the received data [d]; [rest] is the memory behind it *)
Definition rx_data (d rest : list N) : list rx_out := rx_loop (length d) (d ++ rest) (lenN d).

(* osmo_pfcp_fd_cb(), pfcp_endpoint.c:423-465: [d] = the bytes recvfrom() stored, at most the msgb's 2048; the rest of the
   msgb is zero. A received datagram longer than that is truncated by recvfrom(). [] also if nothing was received. *)
Definition rx_datagram (d : list N) : list rx_out :=
  let d := takeN alloc_size d in
  rx_data d (zeros (N.to_nat (alloc_size - lenN d))).

(* ---------------------------------------------------------------- allocation *)

(* _osmo_pfcp_msg_alloc(), pfcp_msg.c:401-412: everything else zero. message_type is not set for rx. *)
Definition msg_alloc (remote : sa) (rx : bool) : pmsg := mkMsg remote rx false (mkHdr 1 0 None None 0) [].

(* osmo_pfcp_msg_alloc_tx(), pfcp_msg.c:421-438. None = NULL *)
Definition msg_alloc_tx (remote : option sa) (in_reply_to : option pmsg) (t : N) : res pmsg :=
  let remote := match remote, in_reply_to with None, Some r => Some (m_remote r) | x, _ => x end in
  match remote with
  | None => UB AssertFail
  | Some a =>
    let m := msg_alloc a false in
    let h := m_h m in
    let seq := match in_reply_to with Some r => hd_seq (m_h r) | None => hd_seq h end in
    Ok (mkMsg a false (is_response t) (mkHdr (hd_version h) t (hd_prio h) (hd_seid h) seq) (m_ies m))
  end.
(* pfcp_msg.c:441-445 and 449-453 *)
Definition msg_alloc_tx_req (remote : option sa) (t : N) : res pmsg := msg_alloc_tx remote None t.
Definition msg_alloc_tx_resp (in_reply_to : option pmsg) (t : N) : res pmsg := msg_alloc_tx None in_reply_to t.

(* ---------------------------------------------------------------- sequence numbers and SEIDs *)

(* osmo_pfcp_next_seq_nr(), pfcp_msg.c:478-486: the new state, which is also the result *)
Definition next_seq_nr (state : N) : N :=
  let s := N.land ((state + 1) mod 2 ^ 32) 16777215 in
  if s =? 0 then (s + 1) mod 2 ^ 32 else s.

(* osmo_pfcp_next_seid(), pfcp_msg.c:488-495 *)
Definition next_seid (state : N) : N :=
  let s := (state + 1) mod 2 ^ 64 in
  if s =? 0 then (s + 1) mod 2 ^ 64 else s.
