(* ReadSpec.v -- what received octets mean: the header and the IE values field by field (3GPP TS 29.244 7.2.2, 8.2), and whole messages.
   Independent of the decoders of the model. *)
From Verif Require Import Base GtlvModel DecEncModel IesModel IesSpec MsgModel MsgSpec AcceptSpec ErrnoSpec.

(* [n] octets from octet [ofs] on; the number they form, most significant octet first; bit [k] of octet [ofs] *)
Definition octets (v : list N) (ofs n : nat) : list N := firstn n (skipn ofs v).
Definition number (v : list N) (ofs n : nat) : N := fold_left (fun a b => a * 256 + b) (octets v ofs n) 0.

(* ---------------------------------------------------------------- IE values *)

(* addresses at [ofs]: IPv4 first, then IPv6 *)
Definition addrs_at (v : list N) (ofs : nat) (v4 v6 : bool) : ip_addrs :=
  mkAddrs v4 (if v4 then Sa4 (octets v ofs 4) 0 else SaUnspec)
          v6 (if v6 then Sa6 (octets v (ofs + if v4 then 4 else 0) 16) 0 else SaUnspec).
Definition opt_number (p : bool) (v : list N) (ofs n : nat) : N := if p then number v ofs n else 0.
Definition size (p : bool) (n : nat) : nat := if p then n else 0%nat.

Definition ie_value (k : kind) (v : list N) : iev :=
  let b := oset v 0 in (* flags are in the first octet *)
  match k with
  | KCause | K8 => IvNum (number v 0 1)
  | KOffendingIe | K16 => IvNum (number v 0 2)
  | K32 => IvNum (number v 0 4)
  | K3gppIface => IvNum (number v 0 1 mod 64)
  | KSrcIface | KDstIface => IvNum (number v 0 1 mod 16)
  | KUpFF => IvBits (firstn 6 (v ++ [0; 0; 0; 0; 0; 0]))
  | KCpFF => IvBits (firstn 1 v)
  | KApplyAction => IvBits (firstn 2 (v ++ [0; 0]))
  | KFSeid => IvFseid (mkFseid (number v 1 8) (addrs_at v 9 (b 1) (b 0)))
  | KFTeid =>
      IvFteid (if b 2 then FtChoose (b 0) (b 1) (b 3) (opt_number (b 3) v 1 1) else FtFixed (number v 1 4) (addrs_at v 5 (b 0) (b 1)))
  | KOhc =>
      let teid := b 0 || b 1 in let v4 := b 0 || b 2 || b 4 in let v6 := b 1 || b 3 || b 5 in let port := b 2 || b 3 in
      let o1 := 2%nat in let o2 := (o1 + size teid 4)%nat in let o3 := (o2 + size v4 4 + size v6 16)%nat in
      let o4 := (o3 + size port 2)%nat in let o5 := (o4 + size (b 6%N) 3)%nat in
      IvOhc (mkOhc (octets v 0 2) teid (opt_number teid v o1 4) (addrs_at v o2 v4 v6) port (opt_number port v o3 2)
               (b 6) (opt_number (b 6) v o4 3) (b 7) (opt_number (b 7) v o5 3))
  | KOhr => IvOhr (mkOhr (number v 0 1) (1 <? lenN v) (firstn 1 (skipn 1 v ++ [0])))
  | KUeIp =>
      let o1 := (1 + size (b 1%N) 4 + size (b 0%N) 16)%nat in let o2 := (o1 + size (b 3%N) 1)%nat in
      IvUeip (mkUeip (b 5) (b 4) (b 2) (addrs_at v 1 (b 1) (b 0)) (b 3) (opt_number (b 3) v o1 1) (b 6) (opt_number (b 6) v o2 1))
  | KNodeId | KNetInst | KActPredef => IvNum 0 (* see [ie_reads] *)
  end.

(* [s] is the text that [full] contains, as a C string: up to its first NUL *)
Definition c_string (full s : list N) : Prop := ~ In 0 s /\ (full = s \/ exists t, full = s ++ 0 :: t).
(* a name: labels with their lengths; the text has a "." between labels. An empty label ends the name: the text then ends in ".",
   unless it is empty. *)
Definition name_text (v full : list N) : Prop :=
  exists labels tail, v = wire_labels labels ++ tail /\ Forall (fun l => l <> []) labels /\
    (tail = [] /\ full = join labels \/ (exists t, tail = 0 :: t) /\ full = join (labels ++ [[]])).
Definition name_read (v s : list N) : Prop := exists full, name_text v full /\ c_string full s.

Definition ie_reads (k : kind) (v : list N) (x : iev) : Prop :=
  match k with
  | KNodeId =>
      match v with
      | 0 :: a => x = IvNode (NodeV4 (Sa4 a 0))
      | 1 :: a => x = IvNode (NodeV6 (Sa6 a 0))
      | 2 :: n => exists s, name_read n s /\ x = IvNode (NodeFqdn s)
      | _ => False
      end
  | KNetInst => exists s, name_read v s /\ x = IvStr s
  | KActPredef => exists s, c_string (firstn 255 v) s /\ x = IvStr s
  | _ => x = ie_value k v
  end.

(* ---------------------------------------------------------------- messages *)
(* the struct that the IEs [items] of a message (or of a grouped IE) make up: for each IE the table knows, the values, in the order
   of the message *)
Definition struct_reads (content_reads : ie -> list N -> val iev -> Prop) (l : list ie) (v : list N) (slots : list (slot iev)) : Prop :=
  exists items, ie_seq v items /\
    (fix go (l : list ie) (slots : list (slot iev)) : Prop :=
       match l, slots with
       | [], [] => True
       | q :: l', s :: slots' =>
         occ_ok (occ_of q) (lenN s) /\ Forall2 (content_reads q) (values_of (iei_of q) items) s /\ go l' slots'
       | _, _ => False
       end) l slots.
Fixpoint content_reads (p : ie) (v : list N) (x : val iev) : Prop :=
  match p with
  | Ie _ _ k => ie_accept k v /\ exists y, ie_reads k v y /\ x = VLeaf y
  | Grp _ _ l => exists slots, x = VStruct slots /\ struct_reads content_reads l v slots
  end.
Definition body_reads : list ie -> list N -> list (slot iev) -> Prop := struct_reads content_reads.

(* ---------------------------------------------------------------- headers *)
(* The header of a message: version in the three most significant bits of the first octet, then the type; the sequence number follows the
   length or, if the S flag is set, the SEID. The priority, if the MP flag is set, is in the octet behind the sequence number, in the low
   four bits. (3GPP TS 29.244 figure 7.2.2.3-1 has it in the high four bits.) *)
Definition header_of (q : list N) : hdr :=
  let b k := if N.testbit (nth 0 q 0) k then 1 else 0 in
  mkHdr (4 * b 7 + 2 * b 6 + b 5) (nth 1 q 0)
        (if mp_bit q then Some (nth 15 q 0 mod 16) else None)
        (if s_bit q then Some (number q 4 8) else None)
        (if s_bit q then number q 12 3 else number q 4 3).
(* error codes *)
Definition header_errno (q : list N) : errno := if (hdr_size_of q <=? lenN q) && (lenN q <? announced q) then EMSGSIZE else EINVAL.

(* ---------------------------------------------------------------- datagrams *)
(* What becomes of one complete message [p]: delivered with this header and these contents; or dropped, with the code of the first
   thing that is wrong with its body; or dropped because its type is not supported. In terms of its octets only. *)
Definition body_of (p : list N) : list N := skipn (N.to_nat (hdr_size_of p)) p.
Inductive message_means (p : list N) : rx_out -> Prop :=
| mm_msg l ies : In (nth 1 p 0, l) s_messages -> body_reads l (body_of p) ies -> message_means p (RxMsg (header_of p) ies)
| mm_drop l e : In (nth 1 p 0, l) s_messages -> body_error l (body_of p) e -> message_means p (RxDrop e)
| mm_type : (forall l, ~ In (nth 1 p 0, l) s_messages) -> message_means p (RxDrop ENOTSUP).
