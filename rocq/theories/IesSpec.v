(* IesSpec.v -- wire format of the IE values (3GPP TS 29.244) and which in-memory values are valid *)
From Verif Require Import Base GtlvModel DecEncModel IesModel.

Definition addr4 (a : list N) : Prop := length a = 4%nat /\ bytes_ok a.
Definition addr6 (a : list N) : Prop := length a = 16%nat /\ bytes_ok a.

(* an address is stored iff its presence flag is set; no port *)
Definition valid_addrs (x : ip_addrs) : Prop :=
  (if ia_v4p x then exists a, ia_v4 x = Sa4 a 0 /\ addr4 a else ia_v4 x = SaUnspec)
  /\ (if ia_v6p x then exists a, ia_v6 x = Sa6 a 0 /\ addr6 a else ia_v6 x = SaUnspec).
Definition sa_addr (x : sa) : list N := match x with SaUnspec => [] | Sa4 a _ => a | Sa6 a _ => a end.
Definition wire_addrs (x : ip_addrs) : list N := sa_addr (ia_v4 x) ++ sa_addr (ia_v6 x).

(* names: "." separated labels, on the wire each label is preceded by its length *)
Fixpoint join (labels : list (list N)) : list N :=
  match labels with [] => [] | [l] => l | l :: ls => l ++ 46 :: join ls end.
Definition wire_labels (labels : list (list N)) : list N := concat (map (fun l => lenN l :: l) labels).
Definition label_ok (l : list N) : Prop := Forall (fun b => 0 < b < 256 /\ b <> 46) l.
(* all labels but the last are non-empty *)
Definition labels_ok (labels : list (list N)) : Prop :=
  labels <> [] /\ Forall label_ok labels /\ Forall (fun l => l <> []) (removelast labels).
(* a name that fits in char[254] *)
Definition valid_name (s : list N) : Prop := exists labels, labels_ok labels /\ s = join labels /\ lenN s <= 253.

(* a number is zero unless its presence flag is set *)
Definition opt_num (p : bool) (n bound : N) : Prop := if p then n < bound else n = 0.

(* description of an Outer Header Creation, 3GPP TS 29.244 8.2.56 *)
Definition bit (b k : N) : bool := N.testbit b k.
Definition valid_ohc (x : ohc) : Prop :=
  exists d0 d1, oh_desc x = [d0; d1] /\ d0 < 256 /\ d1 < 256
  /\ oh_teidp x = bit d0 0 || bit d0 1
  /\ ia_v4p (oh_addr x) = bit d0 0 || bit d0 2 || bit d0 4
  /\ ia_v6p (oh_addr x) = bit d0 1 || bit d0 3 || bit d0 5
  /\ oh_portp x = bit d0 2 || bit d0 3
  /\ oh_ctagp x = bit d0 6 /\ oh_stagp x = bit d0 7
  /\ valid_addrs (oh_addr x)
  /\ opt_num (oh_teidp x) (oh_teid x) (2 ^ 32) /\ opt_num (oh_portp x) (oh_port x) (2 ^ 16)
  /\ opt_num (oh_ctagp x) (oh_ctag x) (2 ^ 24) /\ opt_num (oh_stagp x) (oh_stag x) (2 ^ 24).
Definition opt_wire (p : bool) (w : nat) (n : N) : list N := if p then be_put w n else [].

(* valid in-memory values *)
Definition valid_ie (k : kind) (v : iev) : Prop :=
  match k, v with
  | KCause, IvNum n => n < 256
  | KOffendingIe, IvNum n => n < 65536
  | K8, IvNum n => n < 256
  | K16, IvNum n => n < 65536
  | K32, IvNum n => n < 2 ^ 32
  | K3gppIface, IvNum n => n < 64
  | KSrcIface, IvNum n => n < 16
  | KDstIface, IvNum n => n < 16
  | KNodeId, IvNode (NodeV4 ip) => exists a, ip = Sa4 a 0 /\ addr4 a
  | KNodeId, IvNode (NodeV6 ip) => exists a, ip = Sa6 a 0 /\ addr6 a
  | KNodeId, IvNode (NodeFqdn s) => valid_name s
  | KUpFF, IvBits l => length l = 6%nat /\ bytes_ok l
  | KCpFF, IvBits l => length l = 1%nat /\ bytes_ok l
  | KApplyAction, IvBits l => length l = 2%nat /\ bytes_ok l
  | KFSeid, IvFseid x => fs_seid x < 2 ^ 64 /\ valid_addrs (fs_addr x)
  | KFTeid, IvFteid (FtFixed teid a) => teid < 2 ^ 32 /\ valid_addrs a
  | KFTeid, IvFteid (FtChoose _ _ p i) => opt_num p i 256
  | KNetInst, IvStr s => valid_name s
  | KOhc, IvOhc x => valid_ohc x
  | KActPredef, IvStr s => Forall (fun b => 0 < b < 256) s /\ lenN s <= 255
  | KOhr, IvOhr x => or_desc x < 256 /\ exists b, or_ext x = [b] /\ opt_num (or_extp x) b 256
  | KUeIp, IvUeip x => valid_addrs (ue_addr x) /\ opt_num (ue_delegp x) (ue_deleg x) 256 /\ opt_num (ue_plenp x) (ue_plen x) 256
  | _, _ => False
  end.

(* [bs] is the wire format of the value *)
Definition wire_ie (k : kind) (v : iev) (bs : list N) : Prop :=
  match k, v with
  | (KCause | K8 | K3gppIface | KSrcIface | KDstIface), IvNum n => bs = [n]
  | (KOffendingIe | K16), IvNum n => bs = be_put 2 n
  | K32, IvNum n => bs = be_put 4 n
  | KNodeId, IvNode (NodeV4 ip) => bs = 0 :: sa_addr ip
  | KNodeId, IvNode (NodeV6 ip) => bs = 1 :: sa_addr ip
  | KNodeId, IvNode (NodeFqdn s) => exists labels, labels_ok labels /\ s = join labels /\ bs = 2 :: wire_labels labels
  | (KUpFF | KCpFF | KApplyAction), IvBits l => bs = l
  | KFSeid, IvFseid x =>
      bs = (b2n (ia_v6p (fs_addr x)) 1 + b2n (ia_v4p (fs_addr x)) 2) :: be_put 8 (fs_seid x) ++ wire_addrs (fs_addr x)
  | KFTeid, IvFteid (FtFixed teid a) => bs = (b2n (ia_v4p a) 1 + b2n (ia_v6p a) 2) :: be_put 4 teid ++ wire_addrs a
  | KFTeid, IvFteid (FtChoose v4 v6 p i) => bs = (b2n v4 1 + b2n v6 2 + 4 + b2n p 8) :: opt_wire p 1 i
  | KNetInst, IvStr s => exists labels, labels_ok labels /\ s = join labels /\ bs = wire_labels labels
  | KOhc, IvOhc x =>
      bs = oh_desc x ++ opt_wire (oh_teidp x) 4 (oh_teid x) ++ wire_addrs (oh_addr x) ++ opt_wire (oh_portp x) 2 (oh_port x)
           ++ opt_wire (oh_ctagp x) 3 (oh_ctag x) ++ opt_wire (oh_stagp x) 3 (oh_stag x)
  | KActPredef, IvStr s => bs = s
  | KOhr, IvOhr x => bs = or_desc x :: (if or_extp x then or_ext x else [])
  | KUeIp, IvUeip x =>
      bs = (b2n (ia_v6p (ue_addr x)) 1 + b2n (ia_v4p (ue_addr x)) 2 + b2n (ue_dest x) 4 + b2n (ue_delegp x) 8
            + b2n (ue_chv4 x) 16 + b2n (ue_chv6 x) 32 + b2n (ue_plenp x) 64)
           :: wire_addrs (ue_addr x) ++ opt_wire (ue_delegp x) 1 (ue_deleg x) ++ opt_wire (ue_plenp x) 1 (ue_plen x)
  | _, _ => False
  end.

(* lexicographic order of octet strings *)
Fixpoint octets_lt (a b : list N) : Prop :=
  match a, b with
  | x :: a', y :: b' => x < y \/ (x = y /\ octets_lt a' b')
  | _, _ => False
  end.
Definition sa_octets (x : sa) : list N := match x with SaUnspec => [] | Sa4 a _ => a | Sa6 a _ => a end.

(* the description bits of an Outer Header Creation: GTP-U/UDP/IPv4, GTP-U/UDP/IPv6, UDP/IPv4, UDP/IPv6, IPv4, IPv6, C-TAG,
   S-TAG, and what they require to be present *)
Definition ohc_consistent (x : ohc) : Prop :=
  let bit i := N.testbit (nth 0 (oh_desc x) 0) i in
  oh_teidp x = bit 0 || bit 1 /\ ia_v4p (oh_addr x) = bit 0 || bit 2 || bit 4 /\ ia_v6p (oh_addr x) = bit 1 || bit 3 || bit 5
  /\ oh_portp x = bit 2 || bit 3 /\ oh_ctagp x = bit 6 /\ oh_stagp x = bit 7.

(* sizes of the feature / action bit fields *)
Definition feature_octets (k : kind) : N := match k with KUpFF => 6 | KCpFF => 1 | KApplyAction => 2 | _ => 0 end.

(* the addresses of two F-SEIDs to be compared: IPv4 if both have one, else IPv6 if both have one *)
Definition shared (a b : f_seid) : option (list N * list N) :=
  if ia_v4p (fs_addr a) && ia_v4p (fs_addr b) then Some (sa_octets (ia_v4 (fs_addr a)), sa_octets (ia_v4 (fs_addr b)))
  else if ia_v6p (fs_addr a) && ia_v6p (fs_addr b) then Some (sa_octets (ia_v6 (fs_addr a)), sa_octets (ia_v6 (fs_addr b)))
  else None.
