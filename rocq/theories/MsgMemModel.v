(* MsgMemModel.v -- osmo_pfcp_msg_encode() and the decode functions of pfcp_msg.c with everything in memory: the header as in HdrMemModel.v, the IEs in the
   union osmo_pfcp_ies, read and written by the generated functions with the IE functions of IeMemModel.v and IeEncModel.v.
   Simplifications: the fields of struct osmo_pfcp_header_parsed are the record hdr, as in HdrMemModel.v; logging is left out. *)
From Coq Require Import String Ascii.
From Verif Require Import Base GtlvModel DecEncModel CStr IesModel TablesModel MsgModel StrModel MemModel GenModel GenPfcp PfcpMem IeMemModel IeEncModel IeMsgModel HdrMemModel.
Local Open Scope N_scope.

Section Abi.
Variable te : tenv.
Variable r : generated.
Variable be : bool.
Variable sa_img : sa -> list N.
Variable sa_rd : list N -> sa.
Variable T : texts.

(* osmo_pfcp_msg_encode_tlv(), pfcp_msg.c:344-351: [dm] is m->ies, appended to [buf] in a msgb of [cap] bytes *)
Definition mm_encode_tlv (dm : list N) (cap : N) (buf : list N) (t : N) : eres :=
  gen_ies_encode pfcp_cfg r (cc_lk te be sa_img sa_rd T) be dm t t16l16v cap buf.
(* osmo_pfcp_msg_decode_tlv(), pfcp_msg.c:339-342; [m]: memory at tlv->src.data *)
Definition mm_decode_tlv (t : N) (m : list N) (tlv_len : N) (dm : list N) : list N * res unit :=
  gen_ies_decode pfcp_cfg r (cc_lk te be sa_img sa_rd T) be t16l16v false t m tlv_len dm.

(* osmo_pfcp_msg_encode(), pfcp_msg.c:367-397; [dm]: m->ies *)
Definition mm_msg_encode (b : cmsgb) (h : hdr) (dm : list N) : cmres :=
  match c_follow_on be b (cm_mem b) with
  | (_, UB u) => CUB u
  | (mem0, _) =>
    let a := cm_tail b in
    let size := hdr_size (is_some (hd_seid h)) in
    let l3 := match cm_l3 b with Some x => x | None => a end in
    let mk mem tail := mkCm mem tail (Some l3) (Some a) in
    if lenN mem0 - a <? size then CUB MsgbAbort
    else
      match c_store_header be a h mem0 with
      | (mem1, Ok _) =>
        match mm_encode_tlv dm (lenN mem1) (takeN (a + size) mem1) (hd_type h) with
        | EOk buf =>
          let mem2 := (buf ++ dropN (lenN buf) mem1)%list in
          match c_set_length a (lenN buf - a) mem2 with
          | (mem3, Ok _) => COk (mk mem3 (lenN buf))
          | (mem3, Err e) => CErr (mk mem3 (lenN buf)) e
          | (_, UB u) => CUB u
          end
        | EErr buf e => CErr (mk (buf ++ dropN (lenN buf) mem1)%list (lenN buf)) e
        | EUB u => CUB u
        end
      | (mem1, Err e) => CErr (mk mem1 (a + size)) e
      | (_, UB u) => CUB u
      end
  end.

(* what pfcp_endpoint.c:444-461 does with one message: osmo_pfcp_msg_decode_header(), then osmo_pfcp_msg_decode_tlv() into m->ies.
   [m]: memory at the start of the message, [data_len]: octets received from there on. The union after it, and the header. *)
Definition mm_msg_decode (m : list N) (data_len : N) (dm : list N) : list N * res dechdr :=
  match c_decode_header be m data_len with
  | Ok d => let '(dm', x) := mm_decode_tlv (hd_type (dh_h d)) (dropN (dh_ofs d) m) (dh_tlv d) dm in
            (dm', match x with Ok _ => Ok d | Err e => Err e | UB u => UB u end)
  | Err e => (dm, Err e)
  | UB u => (dm, UB u)
  end.
End Abi.

(* ---------------------------------------------------------------- receiving *)
(* what becomes of one message: given to osmo_pfcp_endpoint_handle_rx() with this union; or as rx_out of MsgModel.v *)
Inductive mm_out := MmMsg (h : hdr) (dm : list N) | MmDrop (e : errno) | MmBad (e : errno) | MmUB (u : ub).
Section Rx.
Variable te : tenv.
Variable r : generated.
Variable be : bool.
Variable sa_img : sa -> list N.
Variable sa_rd : list N -> sa.
Variable T : texts.
(* the while loop of osmo_pfcp_fd_cb(), pfcp_endpoint.c:444-461; osmo_pfcp_msg_alloc_rx() zeroes the message, pfcp_msg.c:401-419 *)
Fixpoint mm_rx_loop (fuel : nat) (m : list N) (left : N) : list mm_out :=
  if left =? 0 then []
  else
    match fuel with
    | O => [MmUB OutOfFuel]
    | S f =>
      match c_decode_header be m left with
      | Err e => [MmBad e]
      | UB u => [MmUB u]
      | Ok d =>
        let '(dm, x) := mm_decode_tlv te r be sa_img sa_rd T (hd_type (dh_h d)) (dropN (dh_ofs d) m) (dh_tlv d) (zeros (N.to_nat (gen_union_size pfcp_cfg r))) in
        let next := mm_rx_loop f (dropN (dh_len d) m) (left - dh_len d) in
        match x with
        | Ok _ => MmMsg (dh_h d) dm :: next
        | Err e => MmDrop e :: next
        | UB u => [MmUB u]
        end
      end
    end.
(* osmo_pfcp_fd_cb(), pfcp_endpoint.c:423-465, as MsgModel.rx_datagram *)
Definition mm_rx_datagram (d : list N) : list mm_out :=
  let d := takeN alloc_size d in
  mm_rx_loop (length d) (d ++ zeros (N.to_nat (alloc_size - lenN d)))%list (lenN d).
End Rx.
