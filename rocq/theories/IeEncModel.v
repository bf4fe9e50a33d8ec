(* IeEncModel.v -- the encoders and the printing functions of src/libosmo-pfcp/pfcp_ies_custom.c on memory: loads of the members of the
   C structs, one after the other as in the source, for any ABI (the decoders are in IeMemModel.v).
   An encoder runs with the bytes it has put into the msgb so far as its state; msgb_put() behind the [room] of the msgb aborts the
   program, a load outside of the struct or, for a string, outside of its array is UB. A bool is true if its byte is not zero.
   Simplifications: alignment of accesses is not modelled; osmo_sockaddr_to_octets() and osmo_sockaddr_to_str_buf2() of libosmocore get the
   address that the bytes of the struct osmo_sockaddr stand for; of RETURN_ERROR()'s log output only the load of its "%s" is kept. *)
From Coq Require Import String Ascii.
From Verif Require Import Base GtlvModel DecEncModel CStr IesModel TablesModel StrModel MemModel MemSpec MemTest GenModel GenPfcp PfcpMem IeMemModel.
Local Open Scope string_scope.
Local Open Scope N_scope.
Local Open Scope list_scope.

Section Abi.
Variable te : tenv.              (* the types of the headers *)
Variable be : bool.              (* byte order of the host *)
Variable sa_rd : list N -> sa.   (* the address that the bytes of a struct osmo_sockaddr stand for *)
Variable mem : list N.           (* the struct that encode_from points to *)

(* loads *)
Definition lb (a : N) : res bool := l <- peek a 1 mem ;; Ok (y2b l).
Definition ln (t : string) (a : N) : res N := l <- peek a (sz te t) mem ;; Ok (y2n be l).
Definition ls (a : N) : res sa := l <- peek a (sz te SOCKADDR) mem ;; Ok (sa_rd l).
(* "%s" and strlen(): the characters up to the NUL in the array at [a] that has [n] more bytes *)
Fixpoint l_str (n : nat) (a : N) : res (list N) :=
  match n with
  | O => UB OobRead
  | S n' => l <- peek a 1 mem ;; let ch := be_get l in if ch =? 0 then Ok [] else s <- l_str n' (a + 1) ;; Ok (ch :: s)
  end.
(* strnlen(): at most [n] characters *)
Fixpoint l_strn (n : nat) (a : N) : res (list N) :=
  match n with
  | O => Ok []
  | S n' => l <- peek a 1 mem ;; let ch := be_get l in if ch =? 0 then Ok [] else s <- l_strn n' (a + 1) ;; Ok (ch :: s)
  end.
(* osmo_apn_from_str() of libosmocore gsm/apn.c, the loop over str[] in an array with [n] more bytes at [a]: [len] octets are in use, the
   labels [out] are complete, [lab] is the current one; None = -1 returned *)
Fixpoint l_apn (n : nat) (a max len : N) (out lab : list N) : res (option (list N)) :=
  match n with
  | O => UB OobRead
  | S n' =>
    l <- peek a 1 mem ;; let ch := be_get l in
    if ch =? 0 then Ok (Some (out ++ (lenN lab mod 256) :: lab))
    else if max <=? len then Ok None
    else if ch =? 46 then l_apn n' (a + 1) max (len + 1) (out ++ (lenN lab mod 256) :: lab) []
    else l_apn n' (a + 1) max (len + 1) out (lab ++ [ch])
  end.
Definition c_apn_from (n a max : N) : res (option (list N)) := if max =? 0 then Ok None else l_apn (N.to_nat n) a max 1 [] [].

Section Enc.
Variable room : N. (* msgb_tailroom() when the encoder is called *)
(* msgb_put() and storing; the state is what was put *)
Definition put (bs : list N) : mm unit := fun out => if room <? lenN out + lenN bs then (out, UB MsgbAbort) else (out ++ bs, Ok tt).
Definition tailroom_now : mm N := fun out => (out, Ok (room - lenN out)).
Definition put_u8 (x : N) : mm unit := put (be_put 1 x).
Definition put_u16 (x : N) : mm unit := put (be_put 2 x).
Definition put_u32 (x : N) : mm unit := put (be_put 4 x).
Definition fail : mm unit := lift (Err EINVAL).
Definition when (c : bool) (x : mm unit) : mm unit := if c then x else ret tt.
Notation "x <! a ;; b" := (bindm (lift a) (fun x => b)) (at level 61, a at next level, right associativity).

(* osmo_pfcp_enc_cause() etc.: one number, pfcp_ies_custom.c:133-138, 154-159, 175-180, 196-201, 217-222, 238-243, 259-264, 280-285 *)
Definition c_enc_num (k : kind) : mm unit :=
  match k with
  | KCause => x <! ln (ktype KCause) 0 ;; put_u8 x
  | KOffendingIe => x <! ln (ktype KOffendingIe) 0 ;; put_u16 x
  | K8 => x <! ln "uint8_t" 0 ;; put_u8 x
  | K16 => x <! ln "uint16_t" 0 ;; put_u16 x
  | K32 => x <! ln "uint32_t" 0 ;; put_u32 x
  | K3gppIface => x <! ln (ktype K3gppIface) 0 ;; put_u8 (N.land (x mod 256) 63)
  | KSrcIface => x <! ln (ktype KSrcIface) 0 ;; put_u8 (N.land (x mod 256) 15)
  | KDstIface => x <! ln (ktype KDstIface) 0 ;; put_u8 (N.land (x mod 256) 15)
  | _ => lift (Err EFAULT) (* not used *)
  end.

(* osmo_apn_from_str() to the tail of the msgb, then msgb_put(): 345-348, 727-730 *)
Definition put_name (n a : N) : mm unit :=
  max <~ tailroom_now ;;
  r <! c_apn_from n a max ;;
  match r with
  | None => _ <! l_str (N.to_nat n) a ;; fail
  | Some b => put b
  end.
(* osmo_pfcp_enc_node_id(), 330-355 *)
Definition c_enc_node_id : mm unit :=
  let u := fo te NODE_ID "u" in
  t <! ln "enum osmo_pfcp_node_id_type" (fo te NODE_ID "type") ;;
  _ <~ put_u8 t ;;
  if t =? 0 then ip <! ls (u + fo te "node_id.u" "ip") ;; put (sa_to_octets 4 ip)
  else if t =? 1 then ip <! ls (u + fo te "node_id.u" "ip") ;; put (sa_to_octets 16 ip)
  else if t =? 2 then put_name 254 (u + fo te "node_id.u" "fqdn")
  else fail.

(* osmo_pfcp_enc_up_function_features(), 441-446; _cp_function_features(), 462-468; _apply_action(), 699-705 *)
Definition c_enc_bits (a n : N) : mm unit := b <! peek a n mem ;; put b.

(* the addresses of F-SEID, F-TEID and UE IP Address: 517-528, 636-650, 1034-1047. [a]: the struct osmo_pfcp_ip_addrs *)
Definition put_addrs (a : N) : mm unit :=
  v4 <! lb (a + fo te IPA "v4_present") ;;
  _ <~ when v4 (x <! ls (a + fo te IPA "v4") ;; if negb (is_inet x) then fail else put (sa_to_octets 4 x)) ;;
  v6 <! lb (a + fo te IPA "v6_present") ;;
  when v6 (x <! ls (a + fo te IPA "v6") ;; if negb (is_inet6 x) then fail else put (sa_to_octets 16 x)).
Definition tern (c : bool) (x : N) : N := if c then x else 0.
(* osmo_pfcp_enc_f_seid(), 509-530 *)
Definition c_enc_f_seid : mm unit :=
  let a := fo te F_SEID "ip_addr" in
  v6 <! lb (a + fo te IPA "v6_present") ;; v4 <! lb (a + fo te IPA "v4_present") ;;
  _ <~ put_u8 (tern v6 1 + tern v4 2) ;;
  x <! ln "uint64_t" (fo te F_SEID "seid") ;; _ <~ put (be_put 8 x) ;;
  put_addrs a.

(* osmo_pfcp_enc_f_teid(), 621-659 *)
Definition c_enc_f_teid : mm unit :=
  let f := fo te F_TEID "u" + fo te "f_teid.u" "fixed" in
  let c := fo te F_TEID "u" + fo te "f_teid.u" "choose" in
  let a := f + fo te "f_teid.fixed" "ip_addr" in
  ch <! lb (fo te F_TEID "choose_flag") ;;
  let flags := tern ch 4 in
  if negb ch then
    v4 <! lb (a + fo te IPA "v4_present") ;; v6 <! lb (a + fo te IPA "v6_present") ;;
    _ <~ put_u8 (N.lor flags (tern v4 1 + tern v6 2)) ;;
    x <! ln "uint32_t" (f + fo te "f_teid.fixed" "teid") ;; _ <~ put_u32 x ;;
    put_addrs a
  else
    v4 <! lb (c + fo te "f_teid.choose" "ipv4_addr") ;; v6 <! lb (c + fo te "f_teid.choose" "ipv6_addr") ;; i <! lb (c + fo te "f_teid.choose" "choose_id_present") ;;
    _ <~ put_u8 (N.lor flags (tern v4 1 + tern v6 2 + tern i 8)) ;;
    when i (x <! ln "uint8_t" (c + fo te "f_teid.choose" "choose_id") ;; put_u8 x).

(* osmo_pfcp_enc_network_inst(), 722-732; _activate_predefined_rules(), 917-924 *)
Definition c_enc_network_inst : mm unit := put_name 254 (fo te NET_INST "str").
Definition c_enc_act_predef : mm unit := s <! l_str 256 (fo te RULES "str") ;; when (negb (lenN s =? 0)) (put s).

(* osmo_pfcp_enc_outer_header_creation(), 813-878 *)
Definition c_enc_ohc : mm unit :=
  let od := fo te OHC "desc_bits" in
  let a := fo te OHC "ip_addr" in
  let bit n := d <- peek od 2 mem ;; bits_get d n in
  _ <~ c_enc_bits od 2 ;;
  gtp4 <! bit 0 ;; udp4 <! bit 2 ;; ip4 <! bit 4 ;; gtp6 <! bit 1 ;; udp6 <! bit 3 ;; ip6 <! bit 5 ;; ctag <! bit 6 ;; stag <! bit 7 ;;
  p <! lb (fo te OHC "teid_present") ;;
  if negb (eqb (gtp4 || gtp6) p) then fail else
  _ <~ when p (x <! ln "uint32_t" (fo te OHC "teid") ;; put_u32 x) ;;
  p <! lb (a + fo te IPA "v4_present") ;;
  if negb (eqb (gtp4 || udp4 || ip4) p) then fail else
  _ <~ when p (x <! ls (a + fo te IPA "v4") ;; put (sa_to_octets 4 x)) ;;
  p <! lb (a + fo te IPA "v6_present") ;;
  if negb (eqb (gtp6 || udp6 || ip6) p) then fail else
  _ <~ when p (x <! ls (a + fo te IPA "v6") ;; put (sa_to_octets 16 x)) ;;
  p <! lb (fo te OHC "port_number_present") ;;
  if negb (eqb (udp4 || udp6) p) then fail else
  _ <~ when p (x <! ln "uint16_t" (fo te OHC "port_number") ;; put_u16 x) ;;
  p <! lb (fo te OHC "c_tag_present") ;;
  if negb (eqb ctag p) then fail else
  _ <~ when p (x <! ln "uint32_t" (fo te OHC "c_tag") ;; put (be_put 3 x)) ;;
  p <! lb (fo te OHC "s_tag_present") ;;
  if negb (eqb stag p) then fail else
  when p (x <! ln "uint32_t" (fo te OHC "s_tag") ;; put (be_put 3 x)).

(* osmo_pfcp_enc_outer_header_removal(), 947-957 *)
Definition c_enc_ohr : mm unit :=
  x <! ln "enum osmo_pfcp_outer_header_removal_desc" (fo te OHR "desc") ;; _ <~ put_u8 x ;;
  p <! lb (fo te OHR "gtp_u_extension_header_del_present") ;;
  when p (c_enc_bits (fo te OHR "gtp_u_extension_header_del_bits") 1).

(* osmo_pfcp_enc_ue_ip_address(), 1015-1054 *)
Definition c_enc_ue_ip : mm unit :=
  let a := fo te UE_IP "ip_addr" in
  lp <! lb (fo te UE_IP "ipv6_prefix_length_present") ;; c6 <! lb (fo te UE_IP "chv6") ;; c4 <! lb (fo te UE_IP "chv4") ;;
  dp <! lb (fo te UE_IP "ipv6_prefix_delegation_bits_present") ;; dst <! lb (fo te UE_IP "ip_is_destination") ;;
  v4 <! lb (a + fo te IPA "v4_present") ;; v6 <! lb (a + fo te IPA "v6_present") ;;
  _ <~ put_u8 (N.lor (N.lor (N.lor (N.lor (N.lor (N.lor (tern lp 64) (tern c6 32)) (tern c4 16)) (tern dp 8)) (tern dst 4)) (tern v4 2)) (tern v6 1)) ;;
  _ <~ put_addrs a ;;
  dp <! lb (fo te UE_IP "ipv6_prefix_delegation_bits_present") ;;
  _ <~ when dp (x <! ln "uint8_t" (fo te UE_IP "ipv6_prefix_delegation_bits") ;; put_u8 x) ;;
  lp <! lb (fo te UE_IP "ipv6_prefix_length_present") ;;
  when lp (x <! ln "uint8_t" (fo te UE_IP "ipv6_prefix_length") ;; put_u8 x).

Definition c_enc_prog (k : kind) : mm unit :=
  match k with
  | KNodeId => c_enc_node_id | KUpFF => c_enc_bits (fo te UP_FF "bits") 6 | KCpFF => c_enc_bits (fo te CP_FF "bits") 1 | KFSeid => c_enc_f_seid | KFTeid => c_enc_f_teid
  | KApplyAction => c_enc_bits (fo te APPLY "bits") 2 | KNetInst => c_enc_network_inst | KOhc => c_enc_ohc | KActPredef => c_enc_act_predef
  | KOhr => c_enc_ohr | KUeIp => c_enc_ue_ip
  | _ => c_enc_num k
  end.
(* what was put into the msgb, and the return code *)
Definition c_enc (k : kind) : list N * res unit := c_enc_prog k [].
End Enc.

(* ---------------------------------------------------------------- printing *)
Section Str.
Variable T : texts.
(* osmo_pfcp_ip_addrs_to_str_buf(), 532-554, of the struct at [a] *)
Definition c_addrs_str (a : N) : strfn := fun b n =>
  let sb := sb_init b n in
  v4 <- lb (a + fo te IPA "v4_present") ;; v6 <- (if v4 then Ok false else lb (a + fo te IPA "v6_present")) ;;
  if negb (v4 || v6) then sb <- sb_printf sb (str "empty:-addr") ;; sb_return sb else
  v4 <- lb (a + fo te IPA "v4_present") ;;
  sb <- (if v4 then sb <- sb_printf sb (str "v4:") ;; x <- ls (a + fo te IPA "v4") ;; sb_append sb (snprintf (tx_sa T x)) else Ok sb) ;;
  v4 <- lb (a + fo te IPA "v4_present") ;; both <- (if v4 then lb (a + fo te IPA "v6_present") else Ok false) ;;
  sb <- (if (both : bool) then sb_printf sb (str ",") else Ok sb) ;;
  v6 <- lb (a + fo te IPA "v6_present") ;;
  sb <- (if v6 then sb <- sb_printf sb (str "v6:") ;; x <- ls (a + fo te IPA "v6") ;; sb_append sb (snprintf (tx_sa T x)) else Ok sb) ;;
  sb_return sb.
(* osmo_pfcp_bits_to_str_buf(), 411-424, of the bits at [a] in an array of [len] bytes *)
Fixpoint c_bits_loop (a len : N) (strs : list (N * list N)) (sb : strbuf) (first : bool) : res (strbuf * bool) :=
  match strs with
  | [] => Ok (sb, first)
  | (pos, name) :: strs' =>
    x <- (if len <=? pos / 8 then UB OobRead else l <- peek (a + pos / 8) 1 mem ;; Ok (negb (N.land (be_get l) (2 ^ (pos mod 8)) =? 0))) ;;
    if (x : bool) then sb <- sb_printf sb ((if first then [] else str "+") ++ name) ;; c_bits_loop a len strs' sb false
    else c_bits_loop a len strs' sb first
  end.
Definition c_bits_str (a len : N) (strs : list (N * list N)) : strfn := fun b n =>
  r <- c_bits_loop a len strs (sb_init b n) true ;;
  let '(sb, first) := r in
  sb <- (if first then sb_printf sb (str "-") else Ok sb) ;;
  sb_return sb.
(* osmo_pfcp_ie_node_id_to_str_buf(), 357-380 *)
Definition c_node_id_str : strfn := fun b n =>
  let sb := sb_init b n in
  let u := fo te NODE_ID "u" in
  t <- ln "enum osmo_pfcp_node_id_type" (fo te NODE_ID "type") ;;
  if t =? 2 then
    sb <- sb_printf sb (str "fqdn:") ;; s <- l_strn 254 (u + fo te "node_id.u" "fqdn") ;; sb <- sb_append sb (snprintf (tx_quote T s)) ;; sb_return sb
  else if negb ((t =? 0) || (t =? 1)) then sb <- sb_printf sb (str "unknown-node-id-type-" ++ pf_u t) ;; sb_return sb
  else
    sb <- sb_printf sb (if t =? 0 then str "v4:" else str "v6:") ;;
    x <- ls (u + fo te "node_id.u" "ip") ;; sb <- sb_append sb (snprintf (tx_sa T x)) ;; sb_return sb.
(* osmo_pfcp_enc_to_str_f_seid(), 561-568 *)
Definition c_f_seid_str : strfn := fun b n =>
  let sb := sb_init b n in
  x <- ln "uint64_t" (fo te F_SEID "seid") ;;
  sb <- sb_printf sb (str "0x" ++ pf_x x ++ str ",") ;;
  sb <- sb_append sb (c_addrs_str (fo te F_SEID "ip_addr")) ;;
  sb_return sb.
(* osmo_pfcp_ie_f_teid_to_str_buf(), 661-677 *)
Definition c_f_teid_str : strfn := fun b n =>
  let sb := sb_init b n in
  let f := fo te F_TEID "u" + fo te "f_teid.u" "fixed" in
  let c := fo te F_TEID "u" + fo te "f_teid.u" "choose" in
  ch <- lb (fo te F_TEID "choose_flag") ;;
  if (ch : bool) then
    sb <- sb_printf sb (str "CHOOSE") ;;
    v4 <- lb (c + fo te "f_teid.choose" "ipv4_addr") ;; sb <- (if v4 then sb_printf sb (str "-v4") else Ok sb) ;;
    v6 <- lb (c + fo te "f_teid.choose" "ipv6_addr") ;; sb <- (if v6 then sb_printf sb (str "-v6") else Ok sb) ;;
    p <- lb (c + fo te "f_teid.choose" "choose_id_present") ;;
    sb <- (if p then i <- ln "uint8_t" (c + fo te "f_teid.choose" "choose_id") ;; sb_printf sb (str "-id" ++ pf_u i) else Ok sb) ;;
    sb_return sb
  else
    x <- ln "uint32_t" (f + fo te "f_teid.fixed" "teid") ;;
    sb <- sb_printf sb (str "TEID-0x" ++ pf_x x ++ str ",") ;;
    sb <- sb_append sb (c_addrs_str (f + fo te "f_teid.fixed" "ip_addr")) ;;
    sb_return sb.
(* osmo_pfcp_ie_outer_header_creation_to_str_buf(), 880-898 *)
Definition c_ohc_str : strfn := fun b n =>
  let sb := sb_init b n in
  sb <- sb_append sb (c_bits_str (fo te OHC "desc_bits") 2 ohc_strs) ;;
  p <- lb (fo te OHC "teid_present") ;; sb <- (if p then x <- ln "uint32_t" (fo te OHC "teid") ;; sb_printf sb (str ",TEID:0x" ++ pf_x x) else Ok sb) ;;
  sb <- sb_printf sb (str ",") ;;
  sb <- sb_append sb (c_addrs_str (fo te OHC "ip_addr")) ;;
  p <- lb (fo te OHC "port_number_present") ;; sb <- (if p then x <- ln "uint16_t" (fo te OHC "port_number") ;; sb_printf sb (str ",port:" ++ pf_u x) else Ok sb) ;;
  p <- lb (fo te OHC "c_tag_present") ;; sb <- (if p then x <- ln "uint32_t" (fo te OHC "c_tag") ;; sb_printf sb (str ",c-tag:" ++ pf_u x) else Ok sb) ;;
  p <- lb (fo te OHC "s_tag_present") ;; sb <- (if p then x <- ln "uint32_t" (fo te OHC "s_tag") ;; sb_printf sb (str ",s-tag:" ++ pf_u x) else Ok sb) ;;
  sb_return sb.
(* osmo_pfcp_enc_to_str_outer_header_removal(), 959-967 *)
Definition c_ohr_str : strfn := fun b n =>
  let sb := sb_init b n in
  x <- ln "enum osmo_pfcp_outer_header_removal_desc" (fo te OHR "desc") ;;
  sb <- sb_printf sb (tx_ohr T x) ;;
  p <- lb (fo te OHR "gtp_u_extension_header_del_present") ;;
  sb <- (if p then l <- peek (fo te OHR "gtp_u_extension_header_del_bits") 1 mem ;; sb_printf sb (str ",ext-hdr-del:0x" ++ pf_x (be_get l)) else Ok sb) ;;
  sb_return sb.
(* osmo_pfcp_enc_to_str_ue_ip_address(), 1056-1076 *)
Definition c_ue_ip_str : strfn := fun b n =>
  let sb := sb_init b n in
  c <- lb (fo te UE_IP "chv4") ;; sb <- (if c then sb_printf sb (str "chv4") else Ok sb) ;;
  c <- lb (fo te UE_IP "chv6") ;; sb <- (if c then sb_printf sb (comma sb ++ str "chv4") else Ok sb) ;;
  c <- lb (fo te UE_IP "ip_is_destination") ;; sb <- (if c then sb_printf sb (comma sb ++ str "dst") else Ok sb) ;;
  sb <- (match sb_pos sb with Some _ => sb_printf sb (str ",") | None => Ok sb end) ;;
  sb <- sb_append sb (c_addrs_str (fo te UE_IP "ip_addr")) ;;
  c <- lb (fo te UE_IP "ipv6_prefix_delegation_bits_present") ;;
  sb <- (if c then x <- ln "uint8_t" (fo te UE_IP "ipv6_prefix_delegation_bits") ;; sb_printf sb (str ",ipv6-prefix-deleg:" ++ pf_x x) else Ok sb) ;;
  c <- lb (fo te UE_IP "ipv6_prefix_length_present") ;;
  sb <- (if c then x <- ln "uint8_t" (fo te UE_IP "ipv6_prefix_length") ;; sb_printf sb (str ",ipv6-prefix-len:" ++ pf_u x) else Ok sb) ;;
  sb_return sb.
(* the enc_to_str_func of each IE; cause 140-144, offending_ie 161-165, 8/16be/32be 182-228, interfaces 245-291, features 448-474,
   apply_action 707-711, network_inst 734-739, activate_predefined_rules 926-931 *)
Definition c_to_str (k : kind) : strfn :=
  match k with
  | KCause => fun b n => x <- ln (ktype KCause) 0 ;; snprintf (tx_cause T x) b n
  | KOffendingIe => fun b n => x <- ln (ktype KOffendingIe) 0 ;; snprintf (tx_iei T x) b n
  | K8 => fun b n => x <- ln "uint8_t" 0 ;; snprintf (pf_u x) b n
  | K16 => fun b n => x <- ln "uint16_t" 0 ;; snprintf (pf_u x) b n
  | K32 => fun b n => x <- ln "uint32_t" 0 ;; snprintf (pf_u x) b n
  | K3gppIface => fun b n => x <- ln (ktype K3gppIface) 0 ;; snprintf (tx_3gpp T x) b n
  | KSrcIface => fun b n => x <- ln (ktype KSrcIface) 0 ;; snprintf (tx_src T x) b n
  | KDstIface => fun b n => x <- ln (ktype KDstIface) 0 ;; snprintf (tx_dst T x) b n
  | KNodeId => c_node_id_str
  | KUpFF => c_bits_str (fo te UP_FF "bits") 6 up_feature_strs
  | KCpFF => c_bits_str (fo te CP_FF "bits") 1 cp_feature_strs
  | KApplyAction => c_bits_str (fo te APPLY "bits") 2 apply_action_strs
  | KFSeid => c_f_seid_str | KFTeid => c_f_teid_str
  | KNetInst => fun b n => s <- l_strn 254 (fo te NET_INST "str") ;; snprintf (tx_quote T s) b n
  | KActPredef => fun b n => s <- l_strn 256 (fo te RULES "str") ;; snprintf (tx_quote T s) b n
  | KOhc => c_ohc_str | KOhr => c_ohr_str | KUeIp => c_ue_ip_str
  end.
End Str.
End Abi.
