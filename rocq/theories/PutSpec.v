(* PutSpec.v -- what encoding writes for ANY value an application can store in a message, valid or not, and which it refuses *)
From Verif Require Import Base GtlvModel DecEncModel IesModel IesSpec AcceptSpec MsgModel ErrnoSpec.

(* ---------------------------------------------------------------- values of the C types *)
(* an address has as many octets as its family says; array members have their declared size. Numbers may be of any size: what does not fit
   is cut off. *)
Definition typed_sa (x : sa) : Prop := match x with SaUnspec => True | Sa4 a _ => lenN a = 4 | Sa6 a _ => lenN a = 16 end.
Definition typed_addrs (a : ip_addrs) : Prop := typed_sa (ia_v4 a) /\ typed_sa (ia_v6 a).
Definition typed_ie (k : kind) (x : iev) : Prop :=
  match k, x with
  | (KCause | KOffendingIe | K8 | K16 | K32 | K3gppIface | KSrcIface | KDstIface), IvNum _ => True
  | KNodeId, IvNode (NodeV4 a | NodeV6 a) => typed_sa a
  | KNodeId, IvNode (NodeFqdn _ | NodeOther _) => True
  | KUpFF, IvBits l => lenN l = 6
  | KCpFF, IvBits l => lenN l = 1
  | KApplyAction, IvBits l => lenN l = 2
  | KFSeid, IvFseid x => typed_addrs (fs_addr x)
  | KFTeid, IvFteid (FtFixed _ a) => typed_addrs a
  | KFTeid, IvFteid (FtChoose _ _ _ _) => True
  | (KNetInst | KActPredef), IvStr _ => True
  | KOhc, IvOhc x => lenN (oh_desc x) = 2 /\ typed_addrs (oh_addr x)
  | KOhr, IvOhr x => lenN (or_ext x) = 1
  | KUeIp, IvUeip x => typed_addrs (ue_addr x)
  | _, _ => False
  end.

(* ---------------------------------------------------------------- values that are refused *)
(* an address that is marked present is of the family it is marked as *)
Definition families_ok (a : ip_addrs) : bool :=
  (negb (ia_v4p a) || match ia_v4 a with Sa4 _ _ => true | _ => false end) &&
  (negb (ia_v6p a) || match ia_v6 a with Sa6 _ _ => true | _ => false end).
(* the presence flags are those that the description calls for *)
Definition described (x : ohc) : bool :=
  let b := N.testbit (nth 0 (oh_desc x) 0) in
  eqb (oh_teidp x) (b 0 || b 1) && eqb (ia_v4p (oh_addr x)) (b 0 || b 2 || b 4) && eqb (ia_v6p (oh_addr x)) (b 1 || b 3 || b 5)
  && eqb (oh_portp x) (b 2 || b 3) && eqb (oh_ctagp x) (b 6) && eqb (oh_stagp x) (b 7).
Definition writable (x : iev) : bool :=
  match x with
  | IvNode (NodeOther _) => false
  | IvFseid x => families_ok (fs_addr x)
  | IvFteid (FtFixed _ a) => families_ok a
  | IvUeip x => families_ok (ue_addr x)
  | IvOhc x => described x
  | _ => true
  end.

(* ---------------------------------------------------------------- octets *)
(* the low [w] octets of a number, the most significant first *)
Fixpoint low_octets (w : nat) (n : N) : list N :=
  match w with O => [] | S w' => n / 256 ^ N.of_nat w' mod 256 :: low_octets w' n end.
Definition opt_octets (p : bool) (w : nat) (n : N) : list N := if p then low_octets w n else [].
(* an address in a field of [n] octets: filled up with zeros; all zeros if it is too long *)
Definition in_field (n : nat) (x : sa) : list N :=
  let a := sa_octets x in if lenN a <=? N.of_nat n then a ++ repeat 0 (n - length a) else repeat 0 n.
Definition addr_octets (a : ip_addrs) : list N :=
  (if ia_v4p a then in_field 4 (ia_v4 a) else []) ++ (if ia_v6p a then in_field 16 (ia_v6 a) else []).
(* the labels of a name, and each with its length (modulo 256) before it *)
Fixpoint labels_of (s : list N) : list (list N) :=
  match s with
  | [] => [[]]
  | ch :: s' => if ch =? 46 then [] :: labels_of s'
                else match labels_of s' with l :: ls => (ch :: l) :: ls | [] => [[ch]] end
  end.
Definition name_octets (s : list N) : list N := concat (map (fun l => lenN l mod 256 :: l) (labels_of s)).
Definition bits_octet (l : list (bool * N)) : N := fold_right (fun (x : bool * N) acc => (if fst x then 2 ^ snd x else 0) + acc) 0 l.

Definition ie_written (k : kind) (x : iev) : list N :=
  match k, x with
  | (KCause | K8), IvNum n => low_octets 1 n
  | (KOffendingIe | K16), IvNum n => low_octets 2 n
  | K32, IvNum n => low_octets 4 n
  | K3gppIface, IvNum n => [n mod 64]
  | (KSrcIface | KDstIface), IvNum n => [n mod 16]
  | _, IvNode (NodeV4 a) => 0 :: in_field 4 a
  | _, IvNode (NodeV6 a) => 1 :: in_field 16 a
  | _, IvNode (NodeFqdn s) => 2 :: name_octets s
  | _, IvNode (NodeOther t) => [t mod 256]
  | _, IvBits l => l
  | _, IvFseid x => bits_octet [(ia_v6p (fs_addr x), 0); (ia_v4p (fs_addr x), 1)] :: low_octets 8 (fs_seid x) ++ addr_octets (fs_addr x)
  | _, IvFteid (FtFixed teid a) => bits_octet [(ia_v4p a, 0); (ia_v6p a, 1)] :: low_octets 4 teid ++ addr_octets a
  | _, IvFteid (FtChoose v4 v6 p i) => bits_octet [(v4, 0); (v6, 1); (true, 2); (p, 3)] :: opt_octets p 1 i
  | KNetInst, IvStr s => name_octets s
  | _, IvStr s => s
  | _, IvOhc x =>
    oh_desc x ++ opt_octets (oh_teidp x) 4 (oh_teid x) ++ addr_octets (oh_addr x) ++ opt_octets (oh_portp x) 2 (oh_port x)
    ++ opt_octets (oh_ctagp x) 3 (oh_ctag x) ++ opt_octets (oh_stagp x) 3 (oh_stag x)
  | _, IvOhr x => or_desc x mod 256 :: (if or_extp x then or_ext x else [])
  | _, IvUeip x =>
    bits_octet [(ia_v6p (ue_addr x), 0); (ia_v4p (ue_addr x), 1); (ue_dest x, 2); (ue_delegp x, 3); (ue_chv4 x, 4); (ue_chv6 x, 5); (ue_plenp x, 6)]
    :: addr_octets (ue_addr x) ++ opt_octets (ue_delegp x) 1 (ue_deleg x) ++ opt_octets (ue_plenp x) 1 (ue_plen x)
  | _, _ => []
  end.

(* ---------------------------------------------------------------- structs *)
(* one IE: type, length, value; a length that does not fit in its field is left zero *)
Definition ie_image (iei : N) (v : list N) : list N :=
  [iei / 256; iei mod 256] ++ (if lenN v <? 65536 then [lenN v / 256; lenN v mod 256] else [0; 0]) ++ v.
(* the first error in a list *)
Definition first_of (l : list (option errno)) : option errno :=
  fold_right (fun a b => match a with Some e => Some e | None => b end) None l.

Section Struct.
Context (typed : ie -> val iev -> Prop) (image : ie -> val iev -> list N) (error : ie -> val iev -> option errno).
(* a struct as the generator declares it: one value of a mandatory IE, at most one of an optional one, any number of a repeated one *)
Fixpoint typed_slots (l : list ie) (slots : list (slot iev)) : Prop :=
  match l, slots with
  | [], [] => True
  | q :: l', s :: slots' =>
    match occ_of q with Once => lenN s = 1 | Optional => lenN s <= 1 | Many _ => True end /\ Forall (typed q) s /\ typed_slots l' slots'
  | _, _ => False
  end.
(* all its IEs, in the order of the table *)
Fixpoint slots_image (l : list ie) (slots : list (slot iev)) : list N :=
  match l, slots with
  | q :: l', s :: slots' => concat (map (fun v => ie_image (iei_of q) (image q v)) s) ++ slots_image l' slots'
  | _, _ => []
  end.
(* the first value that is refused, or the first one too many *)
Fixpoint slots_error (l : list ie) (slots : list (slot iev)) : option errno :=
  match l, slots with
  | q :: l', s :: slots' =>
    let m := N.to_nat (at_most (occ_of q)) in
    first_of (map (error q) (firstn m s) ++ map (fun _ => Some ENOTSUP) (skipn m s) ++ [slots_error l' slots'])
  | _, _ => None
  end.
End Struct.
Fixpoint typed_val (p : ie) (v : val iev) : Prop :=
  match p, v with
  | Ie _ _ k, VLeaf x => typed_ie k x
  | Grp _ _ l, VStruct slots => typed_slots typed_val l slots
  | _, _ => False
  end.
Fixpoint val_image (p : ie) (v : val iev) : list N :=
  match p, v with
  | Ie _ _ k, VLeaf x => ie_written k x
  | Grp _ _ l, VStruct slots => slots_image val_image l slots
  | _, _ => []
  end.
Fixpoint val_error (p : ie) (v : val iev) : option errno :=
  match p, v with
  | Ie _ _ k, VLeaf x => if writable x then None else Some EINVAL
  | Grp _ _ l, VStruct slots => slots_error val_error l slots
  | _, _ => None
  end.
Definition typed_struct : list ie -> list (slot iev) -> Prop := typed_slots typed_val.
Definition struct_image : list ie -> list (slot iev) -> list N := slots_image val_image.
Definition struct_error : list ie -> list (slot iev) -> option errno := slots_error val_error.

(* ---------------------------------------------------------------- messages *)
Definition header_size (h : hdr) : N := match hd_seid h with None => 8 | Some _ => 16 end.
(* header of a message whose IEs take [n] octets *)
Definition header_image (h : hdr) (n : N) : list N :=
  [ 32 * (hd_version h mod 8) + bits_octet [(match hd_seid h with Some _ => true | None => false end, 0); (match hd_prio h with Some _ => true | None => false end, 1)];
    hd_type h mod 256 ] ++ low_octets 2 (header_size h - 4 + n)
  ++ match hd_seid h with
     | None => low_octets 3 (hd_seq h) ++ [0]
     | Some s => low_octets 8 s ++ low_octets 3 (hd_seq h) ++ [match hd_prio h with Some p => p mod 16 | None => 0 end]
     end.
(* the error of encoding a message of this header and these contents, [l] = the IEs of its type *)
Definition message_refusal (h : hdr) (l : list ie) (slots : list (slot iev)) : option errno :=
  first_of [ match hd_prio h, hd_seid h with Some _, None => Some EINVAL | _, _ => None end;
             struct_error l slots;
             if 65535 <? header_size h - 4 + lenN (struct_image l slots) then Some EMSGSIZE else None ].
(* what a msgb holds once another message is appended to it: the first octet of the last message in it gets the "follow on" flag *)
Fixpoint set_flag_at (i : nat) (l : list N) : list N :=
  match l, i with
  | [], _ => []
  | b :: l', O => N.setbit b 2 :: l'
  | b :: l', S j => b :: set_flag_at j l'
  end.
Definition before (m : msgb) : list N := match mb_l4 m with Some o => set_flag_at (N.to_nat o) (mb_buf m) | None => mb_buf m end.

(* ---------------------------------------------------------------- valid contents *)
Section Valid.
Context (valid : ie -> val iev -> Prop).
Fixpoint valid_slots (l : list ie) (slots : list (slot iev)) : Prop :=
  match l, slots with
  | [], [] => True
  | q :: l', s :: slots' => occ_ok (occ_of q) (lenN s) /\ Forall (valid q) s /\ valid_slots l' slots'
  | _, _ => False
  end.
End Valid.
Fixpoint valid_content (p : ie) (v : val iev) : Prop :=
  match p, v with
  | Ie _ _ k, VLeaf x => valid_ie k x
  | Grp _ _ l, VStruct slots => valid_slots valid_content l slots
  | _, _ => False
  end.
Definition valid_body : list ie -> list (slot iev) -> Prop := valid_slots valid_content.
