(* MsgSpec.v -- what a PFCP message is (3GPP TS 29.244 7.2): header, IEs, bundles; independent of the code *)
From Verif Require Import Base GtlvModel DecEncModel DecEncSpec IesModel IesSpec TablesModel MsgModel.

(* ---------------------------------------------------------------- IEs *)

(* valid contents of a message / grouped IE: admissible number of values of each IE, valid values, at every depth *)
Fixpoint valid_val (p : pcoding) (v : val iev) : Prop :=
  match p, v with
  | PLeaf _ k, VLeaf x => valid_ie k x
  | PNest _ ies, VStruct slots =>
    (fix go (ies : list pcoding) (slots : list (slot iev)) : Prop :=
       match ies, slots with
       | [], [] => True
       | d :: ies', s :: slots' => count_ok (phead d) (lenN s) /\ Forall (valid_val d) s /\ go ies' slots'
       | _, _ => False
       end) ies slots
  | _, _ => False
  end.
Definition valid_struct (ies : list pcoding) (slots : list (slot iev)) : Prop :=
  Forall2 (fun p s => count_ok (phead p) (lenN s) /\ Forall (valid_val p) s) ies slots.

(* the wire form of an IE: 16 bit type, 16 bit length, value; of a grouped IE's value: its IEs in table order *)
Definition wire_tlv (t : N) (val : list N) : list N := be_put 2 t ++ be_put 2 (lenN val) ++ val.
Fixpoint wire_val (p : pcoding) (v : val iev) (bs : list N) : Prop :=
  match p, v with
  | PLeaf _ k, VLeaf x => wire_ie k x bs
  | PNest _ ies, VStruct slots =>
    (fix go (ies : list pcoding) (slots : list (slot iev)) (bs : list N) : Prop :=
       match ies, slots with
       | [], [] => bs = []
       | d :: ies', s :: slots' =>
         exists vbs b2, Forall2 (wire_val d) s vbs
           /\ bs = concat (map (wire_tlv (ti_tag (h_ti (phead d)))) vbs) ++ b2 /\ go ies' slots' b2
       | _, _ => False
       end) ies slots bs
  | _, _ => False
  end.
Fixpoint wire_struct (ies : list pcoding) (slots : list (slot iev)) (bs : list N) : Prop :=
  match ies, slots with
  | [], [] => bs = []
  | d :: ies', s :: slots' =>
    exists vbs b2, Forall2 (wire_val d) s vbs
      /\ bs = concat (map (wire_tlv (ti_tag (h_ti (phead d)))) vbs) ++ b2 /\ wire_struct ies' slots' b2
  | _, _ => False
  end.

(* ---------------------------------------------------------------- header *)

(* field ranges; a priority needs a SEID *)
Definition valid_hdr (h : hdr) : Prop :=
  hd_version h < 8 /\ hd_type h < 256 /\ hd_seq h < 2 ^ 24
  /\ match hd_seid h with
     | None => hd_prio h = None
     | Some s => s < 2 ^ 64 /\ match hd_prio h with None => True | Some p => p < 16 end
     end.

(* size of the header *)
Definition hdr_len (h : hdr) : N := match hd_seid h with None => 8 | Some _ => 16 end.

(* the header's bytes: flags (version in bits 8..6, FO bit 3, MP bit 2, S bit 1), type, length of what follows the first
   4 octets, SEID if any, sequence number, last octet. The message priority is stored in the low 4 bits of the last octet,
   as this implementation does (TS 29.244 figure 7.2.2.3-1 has it in the high 4 bits). *)
Definition wire_hdr (h : hdr) (follow_on : bool) (ies_len : N) : list N :=
  [ 32 * hd_version h + (if follow_on then 4 else 0) + match hd_prio h with None => 0 | Some _ => 2 end
    + match hd_seid h with None => 0 | Some _ => 1 end;
    hd_type h ]
  ++ be_put 2 (hdr_len h - 4 + ies_len)
  ++ match hd_seid h with None => [] | Some s => be_put 8 s end
  ++ be_put 3 (hd_seq h) ++ [match hd_prio h with None => 0 | Some p => p end].

(* ---------------------------------------------------------------- messages and bundles *)

(* [h], [ies] is a valid message whose IEs have the wire form [bs] *)
Definition valid_msg (h : hdr) (ies : list (slot iev)) (bs : list N) : Prop :=
  valid_hdr h /\ exists tab, get_msg_coding (hd_type h) = Some tab /\ valid_struct tab ies /\ wire_struct tab ies bs
  /\ hdr_len h - 4 + lenN bs <= 65535.

(* a bundle: messages (header, IE bytes) back to back; all but the last carry the FO flag *)
Fixpoint wire_bundle (l : list (hdr * list N)) : list N :=
  match l with
  | [] => []
  | (h, bs) :: l' => wire_hdr h (match l' with [] => false | _ => true end) (lenN bs) ++ bs ++ wire_bundle l'
  end.

(* messages given as (header, contents, wire form of the IEs) *)
Definition strip (l : list (hdr * list (slot iev) * list N)) : list (hdr * list N) := map (fun x => (fst (fst x), snd x)) l.
Definition msgs_of (l : list (hdr * list (slot iev) * list N)) : list (hdr * list (slot iev)) := map fst l.
Definition all_valid (l : list (hdr * list (slot iev) * list N)) : Prop := Forall (fun x => valid_msg (fst (fst x)) (snd (fst x)) (snd x)) l.

(* largest wire form of a valid value of each IE *)
Definition max_ie (k : kind) : N :=
  match k with
  | KCause | K8 | K3gppIface | KSrcIface | KDstIface | KCpFF => 1
  | KOffendingIe | K16 | KApplyAction | KOhr => 2
  | K32 => 4
  | KNodeId => 255
  | KUpFF => 6
  | KFSeid => 29
  | KFTeid => 25
  | KNetInst => 254
  | KOhc => 34
  | KActPredef => 255
  | KUeIp => 23
  end.
Fixpoint max_val (p : pcoding) : N :=
  match p with
  | PLeaf _ k => max_ie k
  | PNest _ ies => fold_right (fun d acc => cap_of (phead d) * (4 + max_val d) + acc) 0 ies
  end.
Definition max_struct (ies : list pcoding) : N := fold_right (fun d acc => cap_of (phead d) * (4 + max_val d) + acc) 0 ies.

(* encoding a list of messages one after the other into the same msgb, as long as it succeeds *)
Fixpoint encode_all (m : msgb) (l : list (hdr * list (slot iev))) : mres :=
  match l with
  | [] => MOk m
  | (h, ies) :: l' => match msg_encode m h ies with MOk m' => encode_all m' l' | x => x end
  end.

(* ---------------------------------------------------------------- received data *)

(* [p] is one complete message: header and the length it announces *)
Definition message (p : list N) : Prop :=
  exists d, decode_header p (lenN p) = Ok d /\ dh_len d = lenN p /\ dh_ofs d <= dh_len d.
(* what becomes of it: received or, when the IEs are malformed, dropped; as if received alone *)
Definition outcome (p : list N) : rx_out :=
  match decode_header p (lenN p) with
  | Ok d => match decode_tlv (hd_type (dh_h d)) (dropN (dh_ofs d) p ++ [0]) (dh_len d - dh_ofs d) with
            | Ok ies => RxMsg (dh_h d) ies
            | Err e => RxDrop e
            | UB u => RxUB u
            end
  | Err e => RxBad e
  | UB u => RxUB u
  end.
(* a header whose length field does not even cover the header *)
Definition undersized (q : list N) : Prop := exists d, decode_header q (lenN q) = Ok d /\ dh_len d < dh_ofs d.

(* the same in terms of the received bytes *)
Definition s_bit (q : list N) : bool := N.testbit (nth 0 q 0) 0.
Definition mp_bit (q : list N) : bool := N.testbit (nth 0 q 0) 1.
Definition hdr_size_of (q : list N) : N := if s_bit q then 16 else 8.
Definition announced (q : list N) : N := 256 * nth 2 q 0 + nth 3 q 0 + 4.
(* a complete message and nothing else *)
Definition framed (p : list N) : Prop := hdr_size_of p <= lenN p /\ announced p = lenN p /\ (mp_bit p = true -> s_bit p = true).
(* too short for a header or for the announced length, or a priority without SEID *)
Definition bad_header (q : list N) : Prop :=
  lenN q < 4 \/ lenN q < hdr_size_of q \/ lenN q < announced q \/ (mp_bit q = true /\ s_bit q = false).
(* the announced length does not even cover the header *)
Definition short_length (q : list N) : Prop :=
  hdr_size_of q <= lenN q /\ announced q < hdr_size_of q /\ (mp_bit q = true -> s_bit q = true).

(* What may become of the received data [d], message by message: nothing is left; a bad header, which ends it; a complete
   message, with its own outcome; a message whose length field does not cover its header: dropped, the data continues behind
   the announced length, or octets beyond the receive buffer are read. [nul]: a NUL octet follows the data in the receive buffer;
   without one, decoding a complete message may read beyond the buffer (Activate Predefined Rules). *)
Inductive received (nul : bool) : list N -> list rx_out -> Prop :=
| rc_nil : received nul [] []
| rc_bad q e : q <> [] -> bad_header q -> received nul q [RxBad e]
| rc_msg p q os : framed p -> received nul q os -> received nul (p ++ q) (outcome p :: os)
| rc_short_dropped q e os : short_length q -> received nul (dropN (announced q) q) os -> received nul q (RxDrop e :: os)
| rc_short_overread q : short_length q -> received nul q [RxUB OobRead]
| rc_unterminated p q : nul = false -> framed p -> ~ In 0 q -> received nul (p ++ q) [RxUB OobRead].

(* message types: the responses of TS 29.244 table 7.3-1, with the request they answer; Version Not Supported Response
   (11) answers any request *)
Definition req_resp : list (N * N) :=
  [(1, 2); (3, 4); (5, 6); (7, 8); (9, 10); (12, 13); (14, 15); (50, 51); (52, 53); (54, 55); (56, 57)].
