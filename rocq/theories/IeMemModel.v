(* IeMemModel.v -- the decoders of src/libosmo-pfcp/pfcp_ies_custom.c on memory: stores to and loads from the members of the C structs,
   one after the other as in the source, for any ABI. A decoder gets the memory of its struct (address 0 = decode_to) and an IE
   [m], [len] (tlv->val, tlv->len), and gives the memory it leaves and its return code; access outside of the struct is UB.
   Members have the offsets that the compiler model (GenModel.v) gives to the declarations of pfcp_ies_custom.h (PfcpMem.custom_h).
   Simplifications: alignment of accesses is not modelled; RETURN_ERROR()'s log output (of the message that contains the struct) is left
   out; the encoders on memory are in IeEncModel.v (C106, C107); printing functions only read their struct: they are the functions
   of StrModel.v on the value [c_val] that is read from the named members (a char array without NUL ends at its end). *)
From Coq Require Import String Ascii.
From Verif Require Import Base GtlvModel DecEncModel CStr IesModel TablesModel StrModel MemModel MemSpec MemTest GenModel GenPfcp PfcpMem.
Local Open Scope string_scope.
Local Open Scope N_scope.
Local Open Scope list_scope.

Notation IPA := "struct osmo_pfcp_ip_addrs".
Notation SOCKADDR := "struct osmo_sockaddr".
Notation NODE_ID := "struct osmo_pfcp_ie_node_id".
Notation UP_FF := "struct osmo_pfcp_ie_up_function_features".
Notation CP_FF := "struct osmo_pfcp_ie_cp_function_features".
Notation F_SEID := "struct osmo_pfcp_ie_f_seid".
Notation F_TEID := "struct osmo_pfcp_ie_f_teid".
Notation UE_IP := "struct osmo_pfcp_ie_ue_ip_address".
Notation APPLY := "struct osmo_pfcp_ie_apply_action".
Notation NET_INST := "struct osmo_pfcp_ie_network_inst".
Notation RULES := "struct osmo_pfcp_ie_activate_predefined_rules".
Notation OHC := "struct osmo_pfcp_ie_outer_header_creation".
Notation OHR := "struct osmo_pfcp_ie_outer_header_removal".

(* the type that decode_to / encode_from points to, pfcp_ies_custom.c (lines: GenPfcp.pfcp_funcs) *)
Definition ktype (k : kind) : string :=
  match k with
  | KCause => "enum osmo_pfcp_cause" | KOffendingIe => "enum osmo_pfcp_iei" | K8 => "uint8_t" | K16 => "uint16_t" | K32 => "uint32_t"
  | K3gppIface => "enum osmo_pfcp_3gpp_iface_type" | KSrcIface => "enum osmo_pfcp_source_iface" | KDstIface => "enum osmo_pfcp_dest_iface"
  | KNodeId => NODE_ID | KUpFF => UP_FF | KCpFF => CP_FF | KFSeid => F_SEID | KFTeid => F_TEID | KApplyAction => APPLY | KNetInst => NET_INST
  | KOhc => OHC | KActPredef => RULES | KOhr => OHR | KUeIp => UE_IP
  end.

Section Abi.
Variable te : tenv.              (* the types of the headers *)
Variable be : bool.              (* byte order of the host *)
Variable sa_img : sa -> list N.  (* struct osmo_sockaddr as osmo_sockaddr_from_octets() of libosmocore stores it: all of its bytes *)
Variable sa_rd : list N -> sa.   (* the address that the bytes of a struct osmo_sockaddr stand for *)

(* sizeof(t); offsetof(t, n) *)
Definition sz (t : string) : N := match te t with Some ty => ty_size ty | None => 0 end.
Definition fo (t n : string) : N := match te t with Some ty => match get n (ty_fields ty) with Some f => fi_ofs f | None => 0 end | None => 0 end.

(* a bool, an unsigned integer or enum of type t, a struct osmo_sockaddr; "= {}" / memset(0) *)
Definition st_bool (a : N) (b : bool) : mm unit := wr a (b2y b).
Definition ld_bool (a : N) : mm bool := l <~ MemModel.rd a 1 ;; ret (y2b l).
Definition st_num (t : string) (a x : N) : mm unit := wr a (n2y be (N.to_nat (sz t)) x).
Definition ld_num (t : string) (a : N) : mm N := l <~ MemModel.rd a (sz t) ;; ret (y2n be l).
Definition st_sa (a : N) (octets : list N) : mm unit := wr a (sa_img (sa_from_octets octets)).
Definition st_zero (a n : N) : mm unit := wr a (Base.zeros (N.to_nat n)).

(* bytes of the IE *)
Definition src (m : list N) (o n : N) : mm (list N) := lift (at_ofs m o n).
Definition ensure (b : bool) (e : errno) : mm unit := if b then ret tt else lift (Err e).
(* size_t: tlv->len - (pos - tlv->val) *)
Definition size_sub (a b : N) : N := if a <? b then 2 ^ 64 - (b - a) else a - b.
(* ENSURE_REMAINING_LENGTH_IS_AT_LEAST(), pfcp_ies_custom.c:77-84 *)
Definition remaining (len pos n : N) : mm unit := ensure (n <=? size_sub len pos) EINVAL.

(* osmo_pfcp_dec_cause() etc.: one number, pfcp_ies_custom.c:125-131, 146-152, 167-173, 188-194, 209-215, 230-236, 251-257, 272-278 *)
Definition c_num (k : kind) (m : list N) (len : N) : mm unit :=
  match k with
  | KCause => _ <~ ensure (len =? 1) EINVAL ;; v <~ src m 0 1 ;; st_num (ktype KCause) 0 (be_get v)
  | KOffendingIe => _ <~ ensure (len =? 2) EINVAL ;; v <~ src m 0 2 ;; st_num (ktype KOffendingIe) 0 (be_get v)
  | K8 => _ <~ ensure (1 <=? len) EINVAL ;; v <~ src m 0 1 ;; st_num "uint8_t" 0 (be_get v)
  | K16 => _ <~ ensure (2 <=? len) EINVAL ;; v <~ src m 0 2 ;; st_num "uint16_t" 0 (be_get v)
  | K32 => _ <~ ensure (4 <=? len) EINVAL ;; v <~ src m 0 4 ;; st_num "uint32_t" 0 (be_get v)
  | K3gppIface => _ <~ ensure (1 <=? len) EINVAL ;; v <~ src m 0 1 ;; st_num (ktype K3gppIface) 0 (N.land (be_get v) 63)
  | KSrcIface => _ <~ ensure (1 <=? len) EINVAL ;; v <~ src m 0 1 ;; st_num (ktype KSrcIface) 0 (N.land (be_get v) 15)
  | KDstIface => _ <~ ensure (1 <=? len) EINVAL ;; v <~ src m 0 1 ;; st_num (ktype KDstIface) 0 (N.land (be_get v) 15)
  | _ => lift (Err EFAULT) (* not used *)
  end.

(* osmo_apn_to_str() of libosmocore, storing to a char array: false = NULL returned. [fuel] bounds the number of labels. *)
Fixpoint c_apn (fuel : nat) (a : N) (m : list N) (rest : N) : mm bool :=
  match fuel with
  | O => lift (UB OutOfFuel)
  | S f =>
    if rest =? 0 then _ <~ wr a [0] ;; ret true
    else
      match m with
      | [] => lift (UB OobRead)
      | lab :: m' =>
        if lab =? 0 then _ <~ wr a [0] ;; ret true
        else if rest <? lab + 1 then ret false
        else
          l <~ lift (rdN lab m') ;; _ <~ wr a l ;;
          if rest - (lab + 1) =? 0 then c_apn f (a + lab) (dropN lab m') (rest - (lab + 1))
          else _ <~ wr (a + lab) [46] ;; c_apn f (a + lab + 1) (dropN lab m') (rest - (lab + 1))
      end
  end.

(* osmo_pfcp_dec_node_id(), 293-328 *)
Definition c_node_id (m : list N) (len : N) : mm unit :=
  let o_type := fo NODE_ID "type" in
  let o_ip := fo NODE_ID "u" + fo "node_id.u" "ip" in
  let o_fqdn := fo NODE_ID "u" + fo "node_id.u" "fqdn" in
  _ <~ ensure (1 <=? len) EINVAL ;;
  v <~ src m 0 1 ;;
  _ <~ st_num "enum osmo_pfcp_node_id_type" o_type (be_get v) ;;
  let ip_len := size_sub len 1 in
  t <~ ld_num "enum osmo_pfcp_node_id_type" o_type ;;
  if t =? 0 then _ <~ ensure (ip_len =? 4) EINVAL ;; ip <~ src m 1 ip_len ;; st_sa o_ip ip
  else if t =? 1 then _ <~ ensure (ip_len =? 16) EINVAL ;; ip <~ src m 1 ip_len ;; st_sa o_ip ip
  else if t =? 2 then
    _ <~ ensure ((1 <=? ip_len) && (ip_len <=? 254)) ERANGE ;;
    ok <~ c_apn (S (N.to_nat ip_len)) o_fqdn (dropN 1 m) ip_len ;;
    ensure ok EINVAL
  else lift (Err EINVAL).

(* osmo_pfcp_dec_up_function_features(), 431-439; _cp_function_features(), 454-460; _apply_action(), 690-697 *)
Definition c_up_ff (m : list N) (len : N) : mm unit :=
  let o := fo UP_FF "bits" in
  _ <~ st_zero o 6 ;; b <~ src m 0 (N.min 6 len) ;; wr o b.
Definition c_cp_ff (m : list N) (len : N) : mm unit :=
  _ <~ ensure (1 <=? len) EINVAL ;; b <~ src m 0 1 ;; wr (fo CP_FF "bits") b.
Definition c_apply_action (m : list N) (len : N) : mm unit :=
  _ <~ ensure (1 <=? len) EINVAL ;; _ <~ st_zero 0 (sz APPLY) ;; b <~ src m 0 (N.min len 2) ;; wr (fo APPLY "bits") b.

(* one optional part of an IE, "if (c) { ...; pos += n; }": 492-507, 588-603, 762-808, 987-1011 *)
Definition opt_part {A} (c : bool) (pos n : N) (x : mm A) : mm N := if c then _ <~ x ;; ret (pos + n) else ret pos.
(* osmo_pfcp_dec_f_seid(), 476-507 *)
Definition c_f_seid (m : list N) (len : N) : mm unit :=
  let o_v4p := fo F_SEID "ip_addr" + fo IPA "v4_present" in
  let o_v6p := fo F_SEID "ip_addr" + fo IPA "v6_present" in
  _ <~ ensure (9 <=? len) EINVAL ;;
  f <~ src m 0 1 ;; let flags := be_get f in
  _ <~ st_bool o_v6p (flag flags 1) ;;
  _ <~ st_bool o_v4p (flag flags 2) ;;
  s <~ src m 1 8 ;; _ <~ st_num "uint64_t" (fo F_SEID "seid") (be_get s) ;;
  v4 <~ ld_bool o_v4p ;;
  pos <~ opt_part v4 9 4 (_ <~ ensure (9 + 4 <=? len) EINVAL ;; a <~ src m 9 4 ;; st_sa (fo F_SEID "ip_addr" + fo IPA "v4") a) ;;
  v6 <~ ld_bool o_v6p ;;
  pos <~ opt_part v6 pos 16 (_ <~ ensure (pos + 16 <=? len) EINVAL ;; a <~ src m pos 16 ;; st_sa (fo F_SEID "ip_addr" + fo IPA "v6") a) ;;
  ret tt.

(* osmo_pfcp_dec_f_teid(), 570-617 *)
Definition c_f_teid (m : list N) (len : N) : mm unit :=
  let o_fixed := fo F_TEID "u" + fo "f_teid.u" "fixed" in
  let o_addr := o_fixed + fo "f_teid.fixed" "ip_addr" in
  let o_choose := fo F_TEID "u" + fo "f_teid.u" "choose" in
  _ <~ st_zero 0 (sz F_TEID) ;;
  _ <~ remaining len 0 1 ;; f <~ src m 0 1 ;; let flags := be_get f in
  _ <~ st_bool (fo F_TEID "choose_flag") (flag flags 4) ;;
  ch <~ ld_bool (fo F_TEID "choose_flag") ;;
  if negb ch then
    _ <~ st_bool (o_addr + fo IPA "v4_present") (flag flags 1) ;;
    _ <~ st_bool (o_addr + fo IPA "v6_present") (flag flags 2) ;;
    _ <~ remaining len 1 4 ;; t <~ src m 1 4 ;; _ <~ st_num "uint32_t" (o_fixed + fo "f_teid.fixed" "teid") (be_get t) ;;
    v4 <~ ld_bool (o_addr + fo IPA "v4_present") ;;
    pos <~ opt_part v4 5 4 (_ <~ remaining len 5 4 ;; a <~ src m 5 4 ;; st_sa (o_addr + fo IPA "v4") a) ;;
    v6 <~ ld_bool (o_addr + fo IPA "v6_present") ;;
    pos <~ opt_part v6 pos 16 (_ <~ remaining len pos 16 ;; a <~ src m pos 16 ;; st_sa (o_addr + fo IPA "v6") a) ;;
    ret tt
  else
    _ <~ st_bool (o_choose + fo "f_teid.choose" "ipv4_addr") (flag flags 1) ;;
    _ <~ st_bool (o_choose + fo "f_teid.choose" "ipv6_addr") (flag flags 2) ;;
    _ <~ st_bool (o_choose + fo "f_teid.choose" "choose_id_present") (flag flags 8) ;;
    p <~ ld_bool (o_choose + fo "f_teid.choose" "choose_id_present") ;;
    if p then _ <~ remaining len 1 1 ;; i <~ src m 1 1 ;; st_num "uint8_t" (o_choose + fo "f_teid.choose" "choose_id") (be_get i) else ret tt.

(* osmo_pfcp_dec_network_inst(), 713-720 *)
Definition c_network_inst (m : list N) (len : N) : mm unit :=
  _ <~ ensure ((1 <=? len) && (len <=? 254)) ERANGE ;;
  ok <~ c_apn (S (N.to_nat len)) (fo NET_INST "str") m len ;;
  ensure ok EINVAL.

(* osmo_pfcp_dec_outer_header_creation(), 741-811 *)
Definition c_ohc (m : list N) (len : N) : mm unit :=
  let bit d n := lift (bits_get d n) in
  let o_addr := fo OHC "ip_addr" in
  _ <~ st_zero 0 (sz OHC) ;;
  _ <~ ensure (2 <=? len) EINVAL ;;
  b <~ src m 0 2 ;; _ <~ wr (fo OHC "desc_bits") b ;;
  d <~ MemModel.rd (fo OHC "desc_bits") 2 ;;
  gtp4 <~ bit d 0 ;; udp4 <~ bit d 2 ;; ip4 <~ bit d 4 ;; gtp6 <~ bit d 1 ;; udp6 <~ bit d 3 ;; ip6 <~ bit d 5 ;; ctag <~ bit d 6 ;; stag <~ bit d 7 ;;
  pos <~ opt_part (gtp4 || gtp6) 2 4
    (_ <~ remaining len 2 4 ;; _ <~ st_bool (fo OHC "teid_present") true ;; x <~ src m 2 4 ;; st_num "uint32_t" (fo OHC "teid") (be_get x)) ;;
  pos <~ opt_part (gtp4 || udp4 || ip4) pos 4
    (_ <~ remaining len pos 4 ;; _ <~ st_bool (o_addr + fo IPA "v4_present") true ;; x <~ src m pos 4 ;; st_sa (o_addr + fo IPA "v4") x) ;;
  pos <~ opt_part (gtp6 || udp6 || ip6) pos 16
    (_ <~ remaining len pos 16 ;; _ <~ st_bool (o_addr + fo IPA "v6_present") true ;; x <~ src m pos 16 ;; st_sa (o_addr + fo IPA "v6") x) ;;
  pos <~ opt_part (udp4 || udp6) pos 2
    (_ <~ remaining len pos 2 ;; _ <~ st_bool (fo OHC "port_number_present") true ;; x <~ src m pos 2 ;; st_num "uint16_t" (fo OHC "port_number") (be_get x)) ;;
  pos <~ opt_part ctag pos 3
    (_ <~ st_bool (fo OHC "c_tag_present") true ;; _ <~ remaining len pos 3 ;; _ <~ st_bool (fo OHC "c_tag_present") true ;;
     x <~ src m pos 3 ;; st_num "uint32_t" (fo OHC "c_tag") (be_get x)) ;;
  pos <~ opt_part stag pos 3
    (_ <~ st_bool (fo OHC "s_tag_present") true ;; _ <~ remaining len pos 3 ;; _ <~ st_bool (fo OHC "s_tag_present") true ;;
     x <~ src m pos 3 ;; st_num "uint32_t" (fo OHC "s_tag") (be_get x)) ;;
  ret tt.

(* osmo_pfcp_dec_activate_predefined_rules(), 910-915; osmo_strlcpy() of libosmocore copies and then stores a NUL *)
Definition c_act_predef (m : list N) (len : N) : mm unit :=
  let o := fo RULES "str" in
  s <~ lift (osmo_strlcpy m (N.min 256 (len + 1))) ;; _ <~ wr o s ;; wr (o + lenN s) [0].

(* osmo_pfcp_dec_outer_header_removal(), 933-945 *)
Definition c_ohr (m : list N) (len : N) : mm unit :=
  _ <~ ensure (1 <=? len) EINVAL ;;
  d <~ src m 0 1 ;; _ <~ st_num "enum osmo_pfcp_outer_header_removal_desc" (fo OHR "desc") (be_get d) ;;
  if 1 <? len then _ <~ st_bool (fo OHR "gtp_u_extension_header_del_present") true ;; b <~ src m 1 1 ;; wr (fo OHR "gtp_u_extension_header_del_bits") b
  else ret tt.

(* osmo_pfcp_dec_ue_ip_address(), 969-1014 *)
Definition c_ue_ip (m : list N) (len : N) : mm unit :=
  let o_addr := fo UE_IP "ip_addr" in
  let o_plenp := fo UE_IP "ipv6_prefix_length_present" in
  let o_delegp := fo UE_IP "ipv6_prefix_delegation_bits_present" in
  _ <~ remaining len 0 1 ;; f <~ src m 0 1 ;; let flags := be_get f in
  _ <~ st_bool o_plenp (flag flags 64) ;;
  _ <~ st_bool (fo UE_IP "chv6") (flag flags 32) ;;
  _ <~ st_bool (fo UE_IP "chv4") (flag flags 16) ;;
  _ <~ st_bool o_delegp (flag flags 8) ;;
  _ <~ st_bool (fo UE_IP "ip_is_destination") (flag flags 4) ;;
  _ <~ st_bool (o_addr + fo IPA "v4_present") (flag flags 2) ;;
  _ <~ st_bool (o_addr + fo IPA "v6_present") (flag flags 1) ;;
  v4 <~ ld_bool (o_addr + fo IPA "v4_present") ;;
  pos <~ opt_part v4 1 4 (_ <~ remaining len 1 4 ;; a <~ src m 1 4 ;; st_sa (o_addr + fo IPA "v4") a) ;;
  v6 <~ ld_bool (o_addr + fo IPA "v6_present") ;;
  pos <~ opt_part v6 pos 16 (_ <~ remaining len pos 16 ;; a <~ src m pos 16 ;; st_sa (o_addr + fo IPA "v6") a) ;;
  dp <~ ld_bool o_delegp ;;
  pos <~ opt_part dp pos 1 (_ <~ remaining len pos 1 ;; x <~ src m pos 1 ;; st_num "uint8_t" (fo UE_IP "ipv6_prefix_delegation_bits") (be_get x)) ;;
  lp <~ ld_bool o_plenp ;;
  pos <~ opt_part lp pos 1 (_ <~ remaining len pos 1 ;; x <~ src m pos 1 ;; st_num "uint8_t" (fo UE_IP "ipv6_prefix_length") (be_get x)) ;;
  ret tt.

Definition c_dec (k : kind) (m : list N) (len : N) : mm unit :=
  match k with
  | KNodeId => c_node_id m len | KUpFF => c_up_ff m len | KCpFF => c_cp_ff m len | KFSeid => c_f_seid m len | KFTeid => c_f_teid m len
  | KApplyAction => c_apply_action m len | KNetInst => c_network_inst m len | KOhc => c_ohc m len | KActPredef => c_act_predef m len
  | KOhr => c_ohr m len | KUeIp => c_ue_ip m len
  | _ => c_num k m len
  end.

(* ---------------------------------------------------------------- what the members hold *)
Definition v_bool (a : N) (l : list N) : bool := y2b (get_at a 1 l).
Definition v_num (t : string) (a : N) (l : list N) : N := y2n be (get_at a (sz t) l).
Definition v_sa (a : N) (l : list N) : sa := sa_rd (get_at a (sz SOCKADDR) l).
Definition v_addrs (a : N) (l : list N) : ip_addrs :=
  mkAddrs (v_bool (a + fo IPA "v4_present") l) (v_sa (a + fo IPA "v4") l) (v_bool (a + fo IPA "v6_present") l) (v_sa (a + fo IPA "v6") l).
(* the value of a struct of pfcp_ies_custom.h, by the names of its members; pfcp_ies_custom.h:33-179 *)
Definition c_val (k : kind) (l : list N) : iev :=
  match k with
  | KNodeId => IvNode
      (let t := v_num "enum osmo_pfcp_node_id_type" (fo NODE_ID "type") l in
       let u := fo NODE_ID "u" in
       if t =? 0 then NodeV4 (v_sa (u + fo "node_id.u" "ip") l) else if t =? 1 then NodeV6 (v_sa (u + fo "node_id.u" "ip") l)
       else if t =? 2 then NodeFqdn (c_str (get_at (u + fo "node_id.u" "fqdn") 254 l)) else NodeOther t)
  | KUpFF => IvBits (get_at (fo UP_FF "bits") 6 l)
  | KCpFF => IvBits (get_at (fo CP_FF "bits") 1 l)
  | KApplyAction => IvBits (get_at (fo APPLY "bits") 2 l)
  | KFSeid => IvFseid (mkFseid (v_num "uint64_t" (fo F_SEID "seid") l) (v_addrs (fo F_SEID "ip_addr") l))
  | KFTeid => IvFteid
      (let u := fo F_TEID "u" in
       let c := u + fo "f_teid.u" "choose" in
       let f := u + fo "f_teid.u" "fixed" in
       if v_bool (fo F_TEID "choose_flag") l
       then FtChoose (v_bool (c + fo "f_teid.choose" "ipv4_addr") l) (v_bool (c + fo "f_teid.choose" "ipv6_addr") l)
              (v_bool (c + fo "f_teid.choose" "choose_id_present") l) (v_num "uint8_t" (c + fo "f_teid.choose" "choose_id") l)
       else FtFixed (v_num "uint32_t" (f + fo "f_teid.fixed" "teid") l) (v_addrs (f + fo "f_teid.fixed" "ip_addr") l))
  | KNetInst => IvStr (c_str (get_at (fo NET_INST "str") 254 l))
  | KActPredef => IvStr (c_str (get_at (fo RULES "str") 256 l))
  | KOhc => IvOhc (mkOhc (get_at (fo OHC "desc_bits") 2 l) (v_bool (fo OHC "teid_present") l) (v_num "uint32_t" (fo OHC "teid") l) (v_addrs (fo OHC "ip_addr") l)
      (v_bool (fo OHC "port_number_present") l) (v_num "uint16_t" (fo OHC "port_number") l)
      (v_bool (fo OHC "c_tag_present") l) (v_num "uint32_t" (fo OHC "c_tag") l) (v_bool (fo OHC "s_tag_present") l) (v_num "uint32_t" (fo OHC "s_tag") l))
  | KOhr => IvOhr (mkOhr (v_num "enum osmo_pfcp_outer_header_removal_desc" (fo OHR "desc") l) (v_bool (fo OHR "gtp_u_extension_header_del_present") l)
      (get_at (fo OHR "gtp_u_extension_header_del_bits") 1 l))
  | KUeIp => IvUeip (mkUeip (v_bool (fo UE_IP "chv6") l) (v_bool (fo UE_IP "chv4") l) (v_bool (fo UE_IP "ip_is_destination") l) (v_addrs (fo UE_IP "ip_addr") l)
      (v_bool (fo UE_IP "ipv6_prefix_delegation_bits_present") l) (v_num "uint8_t" (fo UE_IP "ipv6_prefix_delegation_bits") l)
      (v_bool (fo UE_IP "ipv6_prefix_length_present") l) (v_num "uint8_t" (fo UE_IP "ipv6_prefix_length") l))
  | _ => IvNum (v_num (ktype k) 0 l)
  end.

Variable T : texts.
Definition c_leaf (k : kind) : mleaf :=
  mkMLeaf (sz (ktype k)) (Some (fun old m len => c_dec k m len old))
    (Some (fun room b => enc_of k room (c_val k b))) (Some (fun b => ie_to_str T k (c_val k b))).
Definition c_lk (f : fns) : mleaf := c_leaf (kind_of f).
Definition c_ld (f : fns) : list N -> iev := c_val (kind_of f).
End Abi.
