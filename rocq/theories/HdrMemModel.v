(* HdrMemModel.v -- the PFCP header structs of src/libosmo-pfcp/pfcp_msg.c in the memory of a msgb: bit fields in both byte orders, stores and
   loads of members one after the other, for any contents of the memory that msgb_put() hands out (MsgModel.v has the octets for zeroed memory).
   Simplifications: log output is left out; the IEs are appended by encode_tlv of MsgModel.v, and then are in memory; struct
   osmo_pfcp_header_parsed is the record hdr (a present SEID / priority is Some). *)
From Coq Require Import String Ascii.
From Verif Require Import Base GtlvModel DecEncModel CStr IesModel TablesModel MsgModel StrModel MemModel.
Local Open Scope string_scope.
Local Open Scope N_scope.
Local Open Scope list_scope.

(* bit fields of one byte, in the order of their declaration: name and width *)
Notation fields := (list (string * N)).
(* struct osmo_pfcp_header_common, pfcp_msg.c:66-77, for both byte orders *)
Definition common_bits (be : bool) : fields :=
  if be then [("version", 3); ("spare", 2); ("follow_on", 1); ("message_priority_present", 1); ("seid_present", 1)]
  else [("seid_present", 1); ("message_priority_present", 1); ("follow_on", 1); ("spare", 2); ("version", 3)].
(* the last octet of struct osmo_pfcp_header_seid, pfcp_msg.c:88-102 *)
Definition prio_bits (be : bool) : fields := if be then [("spare", 4); ("message_priority", 4)] else [("message_priority", 4); ("spare", 4)].
(* the ABIs allocate bit fields from the least significant bit on little endian hosts, from the most significant bit on big endian ones:
   (shift, width) of a bit field; [used]: bits of the fields before it *)
Fixpoint bf_pos (be : bool) (used : N) (l : fields) (n : string) : N * N :=
  match l with
  | [] => (0, 0)
  | (n', w) :: l' => if String.eqb n n' then (if be then 8 - used - w else used, w) else bf_pos be (used + w) l' n
  end.
Definition bf_get (be : bool) (l : fields) (n : string) (byte : N) : N := let '(s, w) := bf_pos be 0 l n in (byte / 2 ^ s) mod 2 ^ w.
Definition bf_set (be : bool) (l : fields) (n : string) (v byte : N) : N :=
  let '(s, w) := bf_pos be 0 l n in N.lor (N.ldiff byte (N.shiftl (N.ones w) s)) (N.shiftl (v mod 2 ^ w) s).

(* offsets of the packed structs, pfcp_msg.c:65-102: message_type 1, message_length 2, then sequence_nr 4 (and spare 7), or
   session_endpoint_identifier 4, sequence_nr 12 and the bit fields 15 *)

(* pfcp_header_set_message_length(), pfcp_msg.c:138-147, on the header at address a *)
Definition c_set_length (a total : N) : mm unit :=
  if total <? 4 then lift (Err EINVAL)
  else if 65535 <? total - 4 then lift (Err EMSGSIZE)
  else wr (a + 2) (be_put 2 (total - 4)).
Definition b2n (b : bool) : N := if b then 1 else 0.
(* enc_pfcp_header(), pfcp_msg.c:174-198, after msgb_put() of the header at address a *)
Definition c_store_header (be : bool) (a : N) (h : hdr) : mm unit :=
  let seid := is_some (hd_seid h) in
  let prio := is_some (hd_prio h) in
  let c := common_bits be in
  (* "*c = (struct osmo_pfcp_header_common){...}": members that are not named are 0 *)
  _ <~ wr a [bf_set be c "seid_present" (b2n seid) (bf_set be c "message_priority_present" (b2n prio) (bf_set be c "version" (hd_version h) 0)); hd_type h mod 256; 0; 0] ;;
  _ <~ c_set_length a (hdr_size seid) ;;
  match hd_seid h with
  | None => _ <~ wr (a + 4) (be_put 3 (hd_seq h)) ;; if prio then lift (Err EINVAL) else ret tt
  | Some s =>
    _ <~ wr (a + 4) (be_put 8 s) ;;
    _ <~ wr (a + 12) (be_put 3 (hd_seq h)) ;;
    match hd_prio h with
    | Some p => b <~ MemModel.rd (a + 15) 1 ;; wr (a + 15) [bf_set be (prio_bits be) "message_priority" p (be_get b)]
    | None => ret tt
    end
  end.

(* a struct msgb: all bytes of its data area, the offset of tail, l3h and l4h *)
Record cmsgb := mkCm { cm_mem : list N; cm_tail : N; cm_l3 : option N; cm_l4 : option N }.
Inductive cmres := COk (b : cmsgb) | CErr (b : cmsgb) (e : errno) | CUB (u : ub).
(* "c = msgb_l4(msg); c->follow_on = 1", pfcp_msg.c:372-376 *)
Definition c_follow_on (be : bool) (b : cmsgb) : mm unit :=
  match cm_l4 b with
  | Some o => if o <? cm_tail b then x <~ MemModel.rd o 1 ;; wr o [bf_set be (common_bits be) "follow_on" 1 (be_get x)] else ret tt
  | None => ret tt
  end.
(* osmo_pfcp_msg_encode(), pfcp_msg.c:367-397 *)
Definition c_msg_encode (be : bool) (b : cmsgb) (h : hdr) (ies : list (slot iev)) : cmres :=
  match c_follow_on be b (cm_mem b) with
  | (_, UB u) => CUB u
  | (mem0, _) =>
    let a := cm_tail b in
    let size := hdr_size (is_some (hd_seid h)) in
    let l3 := match cm_l3 b with Some x => x | None => a end in
    let mk mem tail := mkCm mem tail (Some l3) (Some a) in
    if lenN mem0 - a <? size then CUB MsgbAbort          (* msgb_put(), pfcp_msg.c:167-173 *)
    else
      match c_store_header be a h mem0 with
      | (mem1, Ok _) =>
        match encode_tlv (lenN mem1) (takeN (a + size) mem1) (hd_type h) ies with
        | EOk buf =>
          let mem2 := buf ++ dropN (lenN buf) mem1 in
          match c_set_length a (lenN buf - a) mem2 with
          | (mem3, Ok _) => COk (mk mem3 (lenN buf))
          | (mem3, Err e) => CErr (mk mem3 (lenN buf)) e
          | (_, UB u) => CUB u
          end
        | EErr buf e => CErr (mk (buf ++ dropN (lenN buf) mem1) (lenN buf)) e
        | EUB u => CUB u
        end
      | (mem1, Err e) => CErr (mk mem1 (a + size)) e
      | (_, UB u) => CUB u
      end
  end.

(* osmo_pfcp_msg_decode_header(), pfcp_msg.c:242-324, loads from the packed structs; arguments and result as for MsgModel.decode_header *)
Definition c_decode_header (be : bool) (m : list N) (data_len : N) : res dechdr :=
  let cbit n := x <- peek 0 1 m ;; Ok (bf_get be (common_bits be) n (be_get x)) in
  if data_len =? 0 then Err EINVAL
  else if data_len <? 4 then Err EINVAL
  else
    seid_present <- cbit "seid_present" ;;
    let header_len := if seid_present =? 0 then 8 else 16 in
    if data_len <? header_len then Err EINVAL
    else
      version <- cbit "version" ;;
      priority_present <- cbit "message_priority_present" ;;
      seid_present <- cbit "seid_present" ;;
      typ <- peek 1 1 m ;;
      length <- peek 2 2 m ;;
      let message_length := be_get length + 4 in
      if data_len <? message_length then Err EMSGSIZE
      else
        let tlv_len := (message_length + 2 ^ 32 - header_len) mod 2 ^ 32 in
        if seid_present =? 0 then
          seq <- peek 4 3 m ;;
          if negb (priority_present =? 0) then Err EINVAL
          else Ok (mkDh (mkHdr version (be_get typ) None None (be_get seq)) message_length header_len tlv_len)
        else
          seid <- peek 4 8 m ;;
          seq <- peek 12 3 m ;;
          prio <- (if negb (priority_present =? 0) then x <- peek 15 1 m ;; Ok (Some (bf_get be (prio_bits be) "message_priority" (be_get x))) else Ok None) ;;
          Ok (mkDh (mkHdr version (be_get typ) prio (Some (be_get seid)) (be_get seq)) message_length header_len tlv_len).
