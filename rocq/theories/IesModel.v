(* IesModel.v -- model of src/libosmo-pfcp/pfcp_ies_custom.c, include/osmocom/pfcp/pfcp_ies_custom.h and the address
   helpers of src/libosmo-pfcp/pfcp_msg.c. The *_to_str functions are in StrModel.v. *)
From Verif Require Import Base GtlvModel DecEncModel CStr.

(* ---------------------------------------------------------------- addresses *)

(* struct osmo_sockaddr (libosmocore): family, address bytes, port. sin6_flowinfo and sin6_scope_id are not modelled. *)
Inductive sa := SaUnspec | Sa4 (addr : list N) (port : N) | Sa6 (addr : list N) (port : N).

(* struct osmo_pfcp_ip_addrs, pfcp_ies_custom.h:34-39 *)
Record ip_addrs := mkAddrs { ia_v4p : bool; ia_v4 : sa; ia_v6p : bool; ia_v6 : sa }.
Definition no_addrs : ip_addrs := mkAddrs false SaUnspec false SaUnspec.

(* osmo_sockaddr_from_octets() of libosmocore: port 0 *)
Definition sa_from_octets (l : list N) : sa :=
  if lenN l =? 4 then Sa4 l 0 else if lenN l =? 16 then Sa6 l 0 else SaUnspec.
(* osmo_sockaddr_to_octets(msgb_put(l), l, os) of libosmocore: writes nothing if the address does not fit in or has
   no known family; the msgb_put() area not written keeps the zeros of msgb_alloc(). *)
Definition sa_to_octets (l : N) (x : sa) : list N :=
  let b := match x with SaUnspec => [] | Sa4 a _ => a | Sa6 a _ => a end in
  if l <? lenN b then zeros (N.to_nat l) else b ++ zeros (N.to_nat (l - lenN b)).

Definition is_inet (x : sa) : bool := match x with Sa4 _ _ => true | _ => false end.
Definition is_inet6 (x : sa) : bool := match x with Sa6 _ _ => true | _ => false end.

(* ---------------------------------------------------------------- APN style names (libosmocore gsm/apn.c) *)

(* osmo_apn_to_str(): the characters written before the final NUL. One iteration handles one label; [fuel] bounds the
   number of labels (each takes at least 2 octets). None = NULL returned. *)
Fixpoint apn_to_str (fuel : nat) (m : list N) (rest : N) : res (option (list N)) :=
  match fuel with
  | O => UB OutOfFuel
  | S f =>
    if rest =? 0 then Ok (Some [])
    else
      match m with
      | [] => UB OobRead
      | lab :: m' =>
        if lab =? 0 then Ok (Some [])
        else if rest <? lab + 1 then Ok None
        else
          l <- rdN lab m' ;;
          let rest' := rest - (lab + 1) in
          r <- apn_to_str f (dropN lab m') rest' ;;
          match r with
          | None => Ok None
          | Some s => Ok (Some (l ++ (if rest' =? 0 then [] else [46]) ++ s))
          end
      end
  end.

(* the C string in a char array: what precedes the first NUL *)
Fixpoint cstr (l : list N) : list N :=
  match l with [] => [] | b :: l' => if b =? 0 then [] else b :: cstr l' end.

(* osmo_apn_from_str(), the loop over the characters: [lab] = label so far. The length octet of a label is stored in
   a byte. *)
Fixpoint apn_labels (lab s : list N) : list N :=
  match s with
  | [] => (lenN lab mod 256) :: lab
  | ch :: s' => if ch =? 46 then ((lenN lab mod 256) :: lab) ++ apn_labels [] s' else apn_labels (lab ++ [ch]) s'
  end.
(* osmo_apn_from_str(dst, max, str): None = error *)
Definition apn_from_str (max : N) (s : list N) : option (list N) :=
  if max <? lenN s + 1 then None else Some (apn_labels [] s).

(* ---------------------------------------------------------------- bit fields *)

(* osmo_pfcp_bits_get(), pfcp_ies_custom.c:392-398 *)
Definition bits_get (bits : list N) (bitpos : N) : res bool :=
  match nth_error bits (N.to_nat (bitpos / 8)) with
  | Some b => Ok (negb (N.land b (2 ^ (bitpos mod 8)) =? 0))
  | None => UB OobRead
  end.

(* osmo_pfcp_bits_set(), pfcp_ies_custom.c:400-409. "&= ~bitmask" on a byte = N.ldiff *)
Fixpoint upd (l : list N) (i : nat) (f : N -> N) : list N :=
  match l, i with
  | [], _ => []
  | b :: l', O => f b :: l'
  | b :: l', S j => b :: upd l' j f
  end.
Definition bits_set (bits : list N) (bitpos : N) (val : bool) : res (list N) :=
  let i := N.to_nat (bitpos / 8) in
  let mask := 2 ^ (bitpos mod 8) in
  match nth_error bits i with
  | Some _ => Ok (upd bits i (fun b => if val then N.lor b mask else N.ldiff b mask))
  | None => UB OobWrite
  end.

(* ---------------------------------------------------------------- decoded IE values *)

(* struct osmo_pfcp_ie_node_id, pfcp_ies_custom.h:50-57: type and the union member that belongs to it *)
Inductive node_id := NodeV4 (ip : sa) | NodeV6 (ip : sa) | NodeFqdn (s : list N) | NodeOther (t : N).

(* struct osmo_pfcp_ie_f_seid, pfcp_ies_custom.h:91-94 *)
Record f_seid := mkFseid { fs_seid : N; fs_addr : ip_addrs }.

(* struct osmo_pfcp_ie_f_teid, pfcp_ies_custom.h:101-115 *)
Inductive f_teid :=
| FtFixed (teid : N) (addr : ip_addrs)
| FtChoose (v4 v6 : bool) (id_present : bool) (id : N).

(* struct osmo_pfcp_ie_outer_header_creation, pfcp_ies_custom.h:159-177 *)
Record ohc := mkOhc {
  oh_desc : list N; oh_teidp : bool; oh_teid : N; oh_addr : ip_addrs; oh_portp : bool; oh_port : N;
  oh_ctagp : bool; oh_ctag : N; oh_stagp : bool; oh_stag : N
}.
(* struct osmo_pfcp_ie_outer_header_removal, pfcp_ies_custom.h:184-188 *)
Record ohr := mkOhr { or_desc : N; or_extp : bool; or_ext : list N }.
(* struct osmo_pfcp_ie_ue_ip_address, pfcp_ies_custom.h:118-127 *)
Record ue_ip := mkUeip {
  ue_chv6 : bool; ue_chv4 : bool; ue_dest : bool; ue_addr : ip_addrs;
  ue_delegp : bool; ue_deleg : N; ue_plenp : bool; ue_plen : N
}.

(* Decoded value of a PFCP IE. Enums and unsigned integers are numbers; a char array is its C string (IvStr). *)
Inductive iev :=
| IvNum (n : N) | IvNode (x : node_id) | IvBits (l : list N) | IvFseid (x : f_seid) | IvFteid (x : f_teid)
| IvStr (s : list N) | IvOhc (x : ohc) | IvOhr (x : ohr) | IvUeip (x : ue_ip).

(* [n] bytes at offset [ofs] from tlv->val *)
Definition at_ofs (m : list N) (ofs n : N) : res (list N) := rdN n (dropN ofs m).
Definition flag (flags bit : N) : bool := negb (N.land flags bit =? 0).

(* ENSURE_REMAINING_LENGTH_IS_AT_LEAST(), pfcp_ies_custom.c:77-84, then read *)
Definition take (m : list N) (len ofs n : N) : res (list N) :=
  if len - ofs <? n then Err EINVAL else at_ofs m ofs n.

(* osmo_pfcp_dec_cause() / enc, pfcp_ies_custom.c:125-138 *)
Definition dec_cause (m : list N) (len : N) : res iev :=
  if negb (len =? 1) then Err EINVAL else x <- rd_be 1 m ;; Ok (IvNum x).
Definition wrong_type : enc_out := ([], Some EFAULT).
Definition enc_cause (room : N) (v : iev) : enc_out := match v with IvNum n => (be_put 1 n, None) | _ => wrong_type end.

(* osmo_pfcp_dec_offending_ie() / enc, 146-159 *)
Definition dec_offending_ie (m : list N) (len : N) : res iev :=
  if negb (len =? 2) then Err EINVAL else x <- rd_be 2 m ;; Ok (IvNum x).
Definition enc_offending_ie (room : N) (v : iev) : enc_out := match v with IvNum n => (be_put 2 n, None) | _ => wrong_type end.

(* osmo_pfcp_dec_8(), _16be(), _32be() / enc, 167-222 *)
Definition dec_8 (m : list N) (len : N) : res iev := if len <? 1 then Err EINVAL else x <- rd_be 1 m ;; Ok (IvNum x).
Definition enc_8 (room : N) (v : iev) : enc_out := match v with IvNum n => (be_put 1 n, None) | _ => wrong_type end.
Definition dec_16be (m : list N) (len : N) : res iev := if len <? 2 then Err EINVAL else x <- rd_be 2 m ;; Ok (IvNum x).
Definition enc_16be (room : N) (v : iev) : enc_out := match v with IvNum n => (be_put 2 n, None) | _ => wrong_type end.
Definition dec_32be (m : list N) (len : N) : res iev := if len <? 4 then Err EINVAL else x <- rd_be 4 m ;; Ok (IvNum x).
Definition enc_32be (room : N) (v : iev) : enc_out := match v with IvNum n => (be_put 4 n, None) | _ => wrong_type end.

(* osmo_pfcp_dec_3gpp_iface_type() / enc, 230-243: & 0x3f *)
Definition dec_3gpp_iface_type (m : list N) (len : N) : res iev :=
  if len <? 1 then Err EINVAL else x <- rd_be 1 m ;; Ok (IvNum (x mod 64)).
Definition enc_3gpp_iface_type (room : N) (v : iev) : enc_out :=
  match v with IvNum n => (be_put 1 ((n mod 256) mod 64), None) | _ => wrong_type end.

(* osmo_pfcp_dec_source_iface(), dec_dest_iface() / enc, 251-285: & 0xf *)
Definition dec_iface (m : list N) (len : N) : res iev :=
  if len <? 1 then Err EINVAL else x <- rd_be 1 m ;; Ok (IvNum (x mod 16)).
Definition enc_iface (room : N) (v : iev) : enc_out :=
  match v with IvNum n => (be_put 1 ((n mod 256) mod 16), None) | _ => wrong_type end.

(* osmo_apn_to_str() into a char array of size [arr]; None = failure *)
Definition dec_name (m : list N) (len arr : N) : res (option (list N)) :=
  r <- apn_to_str (S (N.to_nat len)) m len ;;
  match r with
  | None => Ok None
  | Some s => if arr <? lenN s + 1 then UB OobWrite else Ok (Some (cstr s))
  end.

(* osmo_pfcp_dec_node_id(), 293-328; enum osmo_pfcp_node_id_type, pfcp_proto.h:361-365 *)
Definition dec_node_id (m : list N) (len : N) : res iev :=
  if len <? 1 then Err EINVAL else
  t <- rd_be 1 m ;;
  let ip_len := len - 1 in
  if t =? 0 then
    if negb (ip_len =? 4) then Err EINVAL else a <- at_ofs m 1 ip_len ;; Ok (IvNode (NodeV4 (sa_from_octets a)))
  else if t =? 1 then
    if negb (ip_len =? 16) then Err EINVAL else a <- at_ofs m 1 ip_len ;; Ok (IvNode (NodeV6 (sa_from_octets a)))
  else if t =? 2 then
    if (ip_len <? 1) || (254 <? ip_len) then Err ERANGE else
    r <- dec_name (dropN 1 m) ip_len 254 ;;
    match r with None => Err EINVAL | Some s => Ok (IvNode (NodeFqdn s)) end
  else Err EINVAL.

(* osmo_pfcp_enc_node_id(), 330-355 *)
Definition enc_node_id (room : N) (v : iev) : enc_out :=
  match v with
  | IvNode (NodeV4 ip) => ([0] ++ sa_to_octets 4 ip, None)
  | IvNode (NodeV6 ip) => ([1] ++ sa_to_octets 16 ip, None)
  | IvNode (NodeFqdn s) =>
    match apn_from_str (room - 1) s with Some b => ([2] ++ b, None) | None => ([2], Some EINVAL) end
  | IvNode (NodeOther t) => ([t mod 256], Some EINVAL)
  | _ => wrong_type
  end.

(* memset + memcpy(OSMO_MIN(size, len)): [size] bytes, zero padded *)
Definition dec_bits_padded (size : N) (m : list N) (len : N) : res iev :=
  b <- rdN (N.min size len) m ;; Ok (IvBits (b ++ zeros (N.to_nat (size - N.min size len)))).

(* osmo_pfcp_dec_up_function_features() / enc, 431-446: 6 octets *)
Definition dec_up_ff (m : list N) (len : N) : res iev := dec_bits_padded 6 m len.
Definition enc_bits (room : N) (v : iev) : enc_out := match v with IvBits l => (l, None) | _ => wrong_type end.

(* osmo_pfcp_dec_cp_function_features() / enc, 454-468: 1 octet *)
Definition dec_cp_ff (m : list N) (len : N) : res iev :=
  if len <? 1 then Err EINVAL else b <- rdN 1 m ;; Ok (IvBits b).

(* osmo_pfcp_dec_apply_action() / enc, 690-705: 2 octets *)
Definition dec_apply_action (m : list N) (len : N) : res iev :=
  if len <? 1 then Err EINVAL else dec_bits_padded 2 m len.

(* the optional addresses of an IE, as decoded by f_seid, f_teid, ue_ip_address, outer_header_creation: IPv4 at
   [ofs] if [v4], then IPv6 if [v6]; returns also the offset behind them *)
Definition dec_addrs (m : list N) (len ofs : N) (v4 v6 : bool) : res (ip_addrs * N) :=
  x <- (if v4 then a <- take m len ofs 4 ;; Ok (sa_from_octets a, ofs + 4) else Ok (SaUnspec, ofs)) ;;
  let '(a4, ofs) := x in
  y <- (if v6 then a <- take m len ofs 16 ;; Ok (sa_from_octets a, ofs + 16) else Ok (SaUnspec, ofs)) ;;
  let '(a6, ofs) := y in
  Ok (mkAddrs v4 a4 v6 a6, ofs).

(* the encoding counterpart, with the check of the address family (f_seid, f_teid, ue_ip_address) *)
Definition enc_addrs (pre : list N) (a : ip_addrs) : enc_out :=
  if ia_v4p a && negb (is_inet (ia_v4 a)) then (pre, Some EINVAL) else
  let b := pre ++ (if ia_v4p a then sa_to_octets 4 (ia_v4 a) else []) in
  if ia_v6p a && negb (is_inet6 (ia_v6 a)) then (b, Some EINVAL) else
  (b ++ (if ia_v6p a then sa_to_octets 16 (ia_v6 a) else []), None).

Definition b2n (b : bool) (n : N) : N := if b then n else 0.

(* osmo_pfcp_dec_f_seid() / enc, 476-530. "pos + l > tlv->len" is the same test as in [take]. *)
Definition dec_f_seid (m : list N) (len : N) : res iev :=
  if len <? 9 then Err EINVAL else
  flags <- rd_be 1 m ;;
  s <- at_ofs m 1 8 ;;
  x <- dec_addrs m len 9 (flag flags 2) (flag flags 1) ;;
  Ok (IvFseid (mkFseid (be_get s) (fst x))).
Definition enc_f_seid (room : N) (v : iev) : enc_out :=
  match v with
  | IvFseid x =>
    enc_addrs ([b2n (ia_v6p (fs_addr x)) 1 + b2n (ia_v4p (fs_addr x)) 2] ++ be_put 8 (fs_seid x)) (fs_addr x)
  | _ => wrong_type
  end.

(* osmo_pfcp_dec_f_teid() / enc, 570-659 *)
Definition dec_f_teid (m : list N) (len : N) : res iev :=
  f <- take m len 0 1 ;;
  let flags := be_get f in
  if negb (flag flags 4) then
    t <- take m len 1 4 ;;
    x <- dec_addrs m len 5 (flag flags 1) (flag flags 2) ;;
    Ok (IvFteid (FtFixed (be_get t) (fst x)))
  else
    if flag flags 8 then
      i <- take m len 1 1 ;; Ok (IvFteid (FtChoose (flag flags 1) (flag flags 2) true (be_get i)))
    else Ok (IvFteid (FtChoose (flag flags 1) (flag flags 2) false 0)).
Definition enc_f_teid (room : N) (v : iev) : enc_out :=
  match v with
  | IvFteid (FtFixed teid a) => enc_addrs ([b2n (ia_v4p a) 1 + b2n (ia_v6p a) 2] ++ be_put 4 teid) a
  | IvFteid (FtChoose v4 v6 idp i) =>
    ([4 + (b2n v4 1 + b2n v6 2 + b2n idp 8)] ++ (if idp then be_put 1 i else []), None)
  | _ => wrong_type
  end.

(* osmo_pfcp_dec_network_inst() / enc, 713-732: char str[254] *)
Definition dec_network_inst (m : list N) (len : N) : res iev :=
  if (len <? 1) || (254 <? len) then Err ERANGE else
  r <- dec_name m len 254 ;;
  match r with None => Err EINVAL | Some s => Ok (IvStr s) end.
Definition enc_network_inst (room : N) (v : iev) : enc_out :=
  match v with
  | IvStr s => match apn_from_str room s with Some b => (b, None) | None => ([], Some EINVAL) end
  | _ => wrong_type
  end.

(* enum osmo_pfcp_outer_header_creation_bits, pfcp_proto.h:504-515; the tests of 765-813 and 845-875 *)
Definition oh_bits (d : list N) : res (bool * bool * bool * bool * bool * bool) :=
  gtp4 <- bits_get d 0 ;; gtp6 <- bits_get d 1 ;; udp4 <- bits_get d 2 ;; udp6 <- bits_get d 3 ;;
  ip4 <- bits_get d 4 ;; ip6 <- bits_get d 5 ;; ctag <- bits_get d 6 ;; stag <- bits_get d 7 ;;
  Ok (gtp4 || gtp6, gtp4 || udp4 || ip4, gtp6 || udp6 || ip6, udp4 || udp6, ctag, stag).

(* an optional number of [n] bytes at [ofs] *)
Definition dec_opt (m : list N) (len ofs n : N) (p : bool) : res (N * N) :=
  if p then b <- take m len ofs n ;; Ok (be_get b, ofs + n) else Ok (0, ofs).

(* osmo_pfcp_dec_outer_header_creation(), 741-811 *)
Definition dec_ohc (m : list N) (len : N) : res iev :=
  if len <? 2 then Err EINVAL else
  d <- rdN 2 m ;;
  x <- oh_bits d ;;
  let '(teidp, v4, v6, portp, ctagp, stagp) := x in
  t <- dec_opt m len 2 4 teidp ;;
  a <- dec_addrs m len (snd t) v4 v6 ;;
  p <- dec_opt m len (snd a) 2 portp ;;
  c <- dec_opt m len (snd p) 3 ctagp ;;
  s <- dec_opt m len (snd c) 3 stagp ;;
  Ok (IvOhc (mkOhc d teidp (fst t) (fst a) portp (fst p) ctagp (fst c) stagp (fst s))).

(* osmo_pfcp_enc_outer_header_creation(), 813-878: checks the presence flags against the description bits one after
   the other, does not check the address families *)
Definition enc_ohc (room : N) (v : iev) : enc_out :=
  match v with
  | IvOhc x =>
    match oh_bits (oh_desc x) with
    | Ok (teidp, v4, v6, portp, ctagp, stagp) =>
      let b0 := oh_desc x in
      if negb (eqb teidp (oh_teidp x)) then (b0, Some EINVAL) else
      let b1 := b0 ++ (if oh_teidp x then be_put 4 (oh_teid x) else []) in
      if negb (eqb v4 (ia_v4p (oh_addr x))) then (b1, Some EINVAL) else
      let b2 := b1 ++ (if v4 then sa_to_octets 4 (ia_v4 (oh_addr x)) else []) in
      if negb (eqb v6 (ia_v6p (oh_addr x))) then (b2, Some EINVAL) else
      let b3 := b2 ++ (if v6 then sa_to_octets 16 (ia_v6 (oh_addr x)) else []) in
      if negb (eqb portp (oh_portp x)) then (b3, Some EINVAL) else
      let b4 := b3 ++ (if portp then be_put 2 (oh_port x) else []) in
      if negb (eqb ctagp (oh_ctagp x)) then (b4, Some EINVAL) else
      let b5 := b4 ++ (if ctagp then be_put 3 (oh_ctag x) else []) in
      if negb (eqb stagp (oh_stagp x)) then (b5, Some EINVAL) else
      (b5 ++ (if stagp then be_put 3 (oh_stag x) else []), None)
    | _ => wrong_type (* desc_bits is an array of two bytes: excluded by the type *)
    end
  | _ => wrong_type
  end.

(* osmo_pfcp_dec_activate_predefined_rules() / enc, 910-924: char str[256]; osmo_strlcpy() takes strlen() of the IE
   value, which is not NUL terminated *)
Definition dec_act_predef (m : list N) (len : N) : res iev :=
  s <- osmo_strlcpy m (N.min 256 (len + 1)) ;; Ok (IvStr s).
Definition enc_act_predef (room : N) (v : iev) : enc_out := match v with IvStr s => (s, None) | _ => wrong_type end.

(* osmo_pfcp_dec_outer_header_removal() / enc, 933-957 *)
Definition dec_ohr (m : list N) (len : N) : res iev :=
  if len <? 1 then Err EINVAL else
  d <- rd_be 1 m ;;
  if 1 <? len then e <- at_ofs m 1 1 ;; Ok (IvOhr (mkOhr d true e))
  else Ok (IvOhr (mkOhr d false [0])).
Definition enc_ohr (room : N) (v : iev) : enc_out :=
  match v with IvOhr x => (be_put 1 (or_desc x) ++ (if or_extp x then or_ext x else []), None) | _ => wrong_type end.

(* osmo_pfcp_dec_ue_ip_address() / enc, 969-1054 *)
Definition dec_ue_ip (m : list N) (len : N) : res iev :=
  f <- take m len 0 1 ;;
  let flags := be_get f in
  a <- dec_addrs m len 1 (flag flags 2) (flag flags 1) ;;
  d <- dec_opt m len (snd a) 1 (flag flags 8) ;;
  p <- dec_opt m len (snd d) 1 (flag flags 64) ;;
  Ok (IvUeip (mkUeip (flag flags 32) (flag flags 16) (flag flags 4) (fst a) (flag flags 8) (fst d) (flag flags 64) (fst p))).
Definition enc_ue_ip (room : N) (v : iev) : enc_out :=
  match v with
  | IvUeip x =>
    let a := ue_addr x in
    let flags := b2n (ue_plenp x) 64 + b2n (ue_chv6 x) 32 + b2n (ue_chv4 x) 16 + b2n (ue_delegp x) 8 + b2n (ue_dest x) 4
                 + b2n (ia_v4p a) 2 + b2n (ia_v6p a) 1 in
    match enc_addrs [flags] a with
    | (b, Some e) => (b, Some e)
    | (b, None) =>
      (b ++ (if ue_delegp x then be_put 1 (ue_deleg x) else []) ++ (if ue_plenp x then be_put 1 (ue_plen x) else []), None)
    end
  | _ => wrong_type
  end.

(* the IE types with a codec of their own; which IEI uses which is in the tables *)
Inductive kind :=
| KCause | KOffendingIe | K8 | K16 | K32 | K3gppIface | KSrcIface | KDstIface | KNodeId | KUpFF | KCpFF | KFSeid | KFTeid
| KApplyAction | KNetInst | KOhc | KActPredef | KOhr | KUeIp.

Definition dec_of (k : kind) : list N -> N -> res iev :=
  match k with
  | KCause => dec_cause | KOffendingIe => dec_offending_ie | K8 => dec_8 | K16 => dec_16be | K32 => dec_32be
  | K3gppIface => dec_3gpp_iface_type | KSrcIface => dec_iface | KDstIface => dec_iface | KNodeId => dec_node_id
  | KUpFF => dec_up_ff | KCpFF => dec_cp_ff | KFSeid => dec_f_seid | KFTeid => dec_f_teid
  | KApplyAction => dec_apply_action | KNetInst => dec_network_inst | KOhc => dec_ohc | KActPredef => dec_act_predef
  | KOhr => dec_ohr | KUeIp => dec_ue_ip
  end.
Definition enc_of (k : kind) : N -> iev -> enc_out :=
  match k with
  | KCause => enc_cause | KOffendingIe => enc_offending_ie | K8 => enc_8 | K16 => enc_16be | K32 => enc_32be
  | K3gppIface => enc_3gpp_iface_type | KSrcIface => enc_iface | KDstIface => enc_iface | KNodeId => enc_node_id
  | KUpFF => enc_bits | KCpFF => enc_bits | KFSeid => enc_f_seid | KFTeid => enc_f_teid
  | KApplyAction => enc_bits | KNetInst => enc_network_inst | KOhc => enc_ohc | KActPredef => enc_act_predef
  | KOhr => enc_ohr | KUeIp => enc_ue_ip
  end.
Definition leaf_of (k : kind) : leaf iev := mkLeaf (Some (dec_of k)) (Some (enc_of k)).

(* ---------------------------------------------------------------- helpers on addresses and F-SEIDs *)

(* osmo_sockaddr_set_port(..., 0) *)
Definition sa_port0 (x : sa) : sa := match x with SaUnspec => SaUnspec | Sa4 a _ => Sa4 a 0 | Sa6 a _ => Sa6 a 0 end.

(* osmo_pfcp_ip_addrs_set(), pfcp_msg.c:499-515 *)
Definition ip_addrs_set (dst : ip_addrs) (addr : sa) : ip_addrs * res unit :=
  match addr with
  | Sa4 _ _ => (mkAddrs true (sa_port0 addr) (ia_v6p dst) (ia_v6 dst), Ok tt)
  | Sa6 _ _ => (mkAddrs (ia_v4p dst) (ia_v4 dst) true (sa_port0 addr), Ok tt)
  | SaUnspec => (dst, Err ENOTSUP)
  end.

(* osmo_pfcp_ip_addrs_get(), pfcp_msg.c:517-532, with both result pointers given *)
Definition ip_addrs_get (src : ip_addrs) : sa * sa :=
  (if ia_v4p src then ia_v4 src else SaUnspec, if ia_v6p src then ia_v6 src else SaUnspec).

(* osmo_pfcp_ip_addrs_get_str(), pfcp_msg.c:534-547, with both result pointers given: None = output left untouched.
   The osmo_sockaddr_str is represented by the address it was made from. *)
Definition ip_addrs_get_str (src : ip_addrs) : option sa * option sa :=
  if ia_v4p src then (Some (ia_v4 src), None)
  else if ia_v6p src then (Some SaUnspec, Some (ia_v6 src))
  else (Some SaUnspec, Some SaUnspec).

(* osmo_pfcp_ie_f_seid_set(), pfcp_ies_custom.c:92-98; the return code of ip_addrs_set() is ignored *)
Definition f_seid_set (seid : N) (addr : sa) : f_seid := mkFseid seid (fst (ip_addrs_set no_addrs addr)).

(* memcmp() of equally long byte strings: sign *)
Fixpoint memcmp (a b : list N) : Z :=
  match a, b with
  | x :: a', y :: b' => if x <? y then (-1)%Z else if y <? x then 1%Z else memcmp a' b'
  | _, _ => 0%Z
  end.
(* osmo_sockaddr_cmp() of libosmocore: by family (AF_UNSPEC 0, AF_INET 2, AF_INET6 10), then memcmp() of the struct,
   whose port precedes the address *)
Definition sa_family (x : sa) : N := match x with SaUnspec => 0 | Sa4 _ _ => 2 | Sa6 _ _ => 10 end.
Definition sa_bytes (x : sa) : list N := match x with SaUnspec => [] | Sa4 a p => be_put 2 p ++ a | Sa6 a p => be_put 2 p ++ a end.
Definition sa_cmp (a b : sa) : Z :=
  if negb (sa_family a =? sa_family b) then osmo_cmp (sa_family a) (sa_family b) else memcmp (sa_bytes a) (sa_bytes b).

(* osmo_pfcp_ie_f_seid_cmp(), pfcp_ies_custom.c:100-123, on two different non-NULL pointers *)
Definition f_seid_cmp (a b : f_seid) : Z :=
  let x := fs_addr a in
  let y := fs_addr b in
  let rc :=
    if ia_v4p x && ia_v4p y then sa_cmp (ia_v4 x) (ia_v4 y)
    else if ia_v6p x && ia_v6p y then sa_cmp (ia_v6 x) (ia_v6 y)
    else if ia_v4p x then (-1)%Z else 1%Z in
  if negb (rc =? 0)%Z then rc else
  if fs_seid a <? fs_seid b then (-1)%Z else if fs_seid b <? fs_seid a then 1%Z else 0%Z.

(* the same with its pointer arguments: None = NULL, else address and contents; pfcp_ies_custom.c:103-108 *)
Definition f_seid_cmp_ptr (a b : option (N * f_seid)) : Z :=
  match a, b with
  | None, None => 0%Z
  | None, Some _ => (-1)%Z
  | Some _, None => 1%Z
  | Some (pa, x), Some (pb, y) => if pa =? pb then 0%Z else f_seid_cmp x y
  end.

(* osmo_pfcp_ie_node_id_from_osmo_sockaddr(), pfcp_msg.c:104-118 *)
Definition node_id_from_sa (os : sa) : res node_id :=
  match os with Sa4 _ _ => Ok (NodeV4 os) | Sa6 _ _ => Ok (NodeV6 os) | SaUnspec => Err ENOTSUP end.
(* osmo_pfcp_ie_node_id_to_osmo_sockaddr(), pfcp_msg.c:120-136: checks the family of the previous content of the
   output argument [os] *)
Definition node_id_to_sa (n : node_id) (os : sa) : res sa :=
  match n with
  | NodeV4 ip => if is_inet os then Ok ip else Err EINVAL
  | NodeV6 ip => if is_inet6 os then Ok ip else Err EINVAL
  | _ => Err ENOTSUP
  end.
