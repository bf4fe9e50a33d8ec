(* StrModel.v -- model of the human readable output: OSMO_STRBUF_* as used in the project, osmo_gtlvs_encode_to_str_buf() of
   src/libosmo-gtlv/gtlv_dec_enc.c, osmo_gtlv_tag_inst_to_str_buf() of gtlv.c, the osmo_pfcp_enc_to_str_*() functions of
   src/libosmo-pfcp/pfcp_ies_custom.c and osmo_pfcp_msg_to_str_buf() / _log_info_buf() of pfcp_msg.c *)
From Coq Require Import String Ascii.
From Coq Require Import Decimal Hexadecimal.
From Verif Require Import Base GtlvModel DecEncModel IesModel TablesModel MsgModel.

(* ---------------------------------------------------------------- printf *)

Definition str (s : string) : list N := map N_of_ascii (list_ascii_of_string s).
Arguments str s%string.

Fixpoint dec_chars (d : Decimal.uint) : list N :=
  match d with
  | Decimal.Nil => []
  | Decimal.D0 r => 48 :: dec_chars r | Decimal.D1 r => 49 :: dec_chars r | Decimal.D2 r => 50 :: dec_chars r
  | Decimal.D3 r => 51 :: dec_chars r | Decimal.D4 r => 52 :: dec_chars r | Decimal.D5 r => 53 :: dec_chars r
  | Decimal.D6 r => 54 :: dec_chars r | Decimal.D7 r => 55 :: dec_chars r | Decimal.D8 r => 56 :: dec_chars r
  | Decimal.D9 r => 57 :: dec_chars r
  end.
Fixpoint hex_chars (d : Hexadecimal.uint) : list N :=
  match d with
  | Hexadecimal.Nil => []
  | Hexadecimal.D0 r => 48 :: hex_chars r | Hexadecimal.D1 r => 49 :: hex_chars r | Hexadecimal.D2 r => 50 :: hex_chars r
  | Hexadecimal.D3 r => 51 :: hex_chars r | Hexadecimal.D4 r => 52 :: hex_chars r | Hexadecimal.D5 r => 53 :: hex_chars r
  | Hexadecimal.D6 r => 54 :: hex_chars r | Hexadecimal.D7 r => 55 :: hex_chars r | Hexadecimal.D8 r => 56 :: hex_chars r
  | Hexadecimal.D9 r => 57 :: hex_chars r | Hexadecimal.Da r => 97 :: hex_chars r | Hexadecimal.Db r => 98 :: hex_chars r
  | Hexadecimal.Dc r => 99 :: hex_chars r | Hexadecimal.Dd r => 100 :: hex_chars r | Hexadecimal.De r => 101 :: hex_chars r
  | Hexadecimal.Df r => 102 :: hex_chars r
  end.
(* "%u" and "%x" *)
Definition pf_u (n : N) : list N := dec_chars (N.to_uint n).
Definition pf_x (n : N) : list N := hex_chars (N.to_hex_uint n).

(* A char buffer: NULL or the bytes that exist from the pointer onwards. A function "int f(char *buf, size_t buflen, ...)":
   the buffer afterwards and the return value. *)
Definition cbuf := option (list N).
Definition strfn := cbuf -> N -> res (cbuf * Z).

(* snprintf() (libc) of the formatted text [s] *)
Definition snprintf (s : list N) : strfn := fun b n =>
  if n =? 0 then Ok (b, Z.of_N (lenN s))
  else match b with
  | None => UB NullDeref
  | Some m =>
    let w := takeN (n - 1) s ++ [0] in
    if lenN m <? lenN w then UB OobWrite else Ok (Some (w ++ dropN (lenN w) m), Z.of_N (lenN s))
  end.

(* struct osmo_strbuf (libosmocore utils.h); sb_pos: None = NULL, else the offset from buf *)
Record strbuf := mkSb { sb_buf : cbuf; sb_len : N; sb_pos : option N; sb_needed : N }.
Definition sb_init (b : cbuf) (n : N) : strbuf := mkSb b n None 0.

(* OSMO_STRBUF_APPEND() (libosmocore utils.h):
     if (!pos) pos = buf;
     remain = buf ? len - (pos - buf) : 0;
     l = func(pos, remain, ...);
     if (l < 0 || l > remain) pos = buf + len; else if (pos) pos += l;
     if (l > 0) chars_needed += l;
   "buf + len" of a NULL buf is NULL for len 0 only. *)
Definition sb_append (sb : strbuf) (f : strfn) : res strbuf :=
  let pos := match sb_pos sb with Some p => Some p | None => option_map (fun _ => 0) (sb_buf sb) end in
  let ofs := match pos with Some p => p | None => 0 end in
  let remain := match sb_buf sb with Some _ => sb_len sb - ofs | None => 0 end in
  r <- f (option_map (dropN ofs) (sb_buf sb)) remain ;;
  let '(b, l) := r in
  let buf' := match sb_buf sb, b with Some m, Some t => Some (takeN ofs m ++ t) | x, _ => x end in
  let pos' :=
    if ((l <? 0) || (Z.of_N remain <? l))%Z then
      match sb_buf sb with Some _ => Some (sb_len sb) | None => if sb_len sb =? 0 then None else Some (sb_len sb) end
    else option_map (fun p => p + Z.to_N l) pos in
  Ok (mkSb buf' (sb_len sb) pos' (if (0 <? l)%Z then sb_needed sb + Z.to_N l else sb_needed sb)).
(* OSMO_STRBUF_PRINTF() = OSMO_STRBUF_APPEND(sb, snprintf, ...) *)
Definition sb_printf (sb : strbuf) (s : list N) : res strbuf := sb_append sb (snprintf s).
(* "return sb.chars_needed" *)
Definition sb_return (sb : strbuf) : res (cbuf * Z) := Ok (sb_buf sb, Z.of_N (sb_needed sb)).

(* OSMO_NAME_C_IMPL() (libosmocore utils.h): call with a first buffer of [init] bytes, and again with a large enough one if
   the text did not fit. [m1] / [m2]: what the uninitialised memory of the two allocations (talloc_named_const()) contains.
   The result is the returned memory. *)
Definition name_c_impl (init : N) (on_error : list N) (f : strfn) (m1 : list N) (m2 : N -> list N) : res (list N) :=
  r <- f (Some m1) init ;;
  let '(b, needed) := r in
  if (needed <? 0)%Z then Ok (on_error ++ [0])
  else if (needed <? Z.of_N init)%Z then match b with Some m => Ok m | None => UB NullDeref end
  else
    let len := Z.to_N needed + 1 in
    r <- f (Some (m2 len)) len ;;
    let '(b, needed) := r in
    if (needed <? 0)%Z then Ok (on_error ++ [0])
    else match b with Some m => Ok m | None => UB NullDeref end.

(* ---------------------------------------------------------------- osmo_gtlv_tag_inst_to_str_buf(), gtlv.c:50-61 *)
(* get_value_string() (libosmocore) of a value_string table is a function [names]; None = NULL table *)
Definition tag_inst_to_str (ti : tag_inst) (names : option (N -> list N)) : strfn := fun b n =>
  let sb := sb_init b n in
  sb <- sb_printf sb (match names with None => pf_u (ti_tag ti) | Some f => f (ti_tag ti) end) ;;
  sb <- (if ti_ipres ti then sb_printf sb (str "[" ++ pf_u (ti_inst ti) ++ str "]") else Ok sb) ;;
  sb_return sb.

(* ---------------------------------------------------------------- osmo_gtlvs_encode_to_str_buf(), gtlv_dec_enc.c:542-606 *)
Section ToStr.
Context {V K : Type}.
(* a coding table with the kind of each leaf; [lf k] = enc_to_str_func of that kind, None = NULL *)
Inductive tcoding := TLeaf (h : chead) (k : K) | TNest (h : chead) (ies : list tcoding).
Definition thead (t : tcoding) : chead := match t with TLeaf h _ => h | TNest h _ => h end.

Variable lf : K -> option (V -> strfn).
Variable names : N -> list N.

Record tentry := mkTEntry { te_h : chead; te_put : strbuf -> val V -> res strbuf }.

Definition ENOTSUP_rc : Z := (-95)%Z.

(* the loop over the values of one member, 577-602; inr = return with this code *)
Fixpoint ts_vals (e : tentry) (sb : strbuf) (i : N) (vals : list (val V)) : res (strbuf + (cbuf * Z)) :=
  match vals with
  | [] => Ok (inl sb)
  | v :: vals' =>
    if match h_multi (te_h e) with Some (mx, _) => mx <=? i | None => false end then Ok (inr (sb_buf sb, ENOTSUP_rc)) else
    sb <- (if 0 <? i then sb_printf sb (str ", ") else Ok sb) ;;
    sb <- te_put e sb v ;;
    ts_vals e sb (i + 1) vals'
  end.
(* the loop over the table, 553-604 *)
Fixpoint ts_entries (es : list tentry) (slots : list (slot V)) (sb : strbuf) : res (cbuf * Z) :=
  match es, slots with
  | e :: es', s :: slots' =>
    let vals := to_encode (te_h e) s in
    match vals with
    | [] => ts_entries es' slots' sb (* 561-562, 570-571 *)
    | _ =>
      let multi := match h_multi (te_h e) with Some _ => true | None => false end in
      sb <- sb_printf sb (str " '" ++ names (ti_tag (h_ti (te_h e))) ++ str "'=") ;;
      sb <- (if multi then sb_printf sb (str "{ ") else Ok sb) ;;
      r <- ts_vals e sb 0 vals ;;
      match r with
      | inr ret => Ok ret
      | inl sb =>
        sb <- (if multi then sb_printf sb (str " }") else Ok sb) ;;
        ts_entries es' slots' sb
      end
    end
  | _, _ => sb_return sb
  end.
(* one value, 588-599; a value of the wrong type (impossible in C) is AssertFail *)
Fixpoint ts_put (t : tcoding) (sb : strbuf) (v : val V) : res strbuf :=
  match t, v with
  | TLeaf _ k, VLeaf x =>
    match lf k with
    | Some f => sb_append sb (f x)
    | None => sb_printf sb (str "(enc_to_str_func==NULL)")
    end
  | TNest _ ies, VStruct slots =>
    sb <- sb_printf sb (str "{") ;;
    sb <- sb_append sb (fun b n => ts_entries (map (fun d => mkTEntry (thead d) (ts_put d)) ies) slots (sb_init b n)) ;;
    sb_printf sb (str " }")
  | _, _ => UB AssertFail
  end.
Definition tentry_of (t : tcoding) : tentry := mkTEntry (thead t) (ts_put t).
(* None = NULL table *)
Definition gtlvs_to_str (ies : option (list tcoding)) (slots : list (slot V)) : strfn := fun b n =>
  match ies with
  | None => Ok (b, ENOTSUP_rc)
  | Some l => ts_entries (map tentry_of l) slots (sb_init b n)
  end.
End ToStr.
Arguments tcoding K : clear implicits.
Arguments tentry V : clear implicits.

(* ---------------------------------------------------------------- PFCP IEs, pfcp_ies_custom.c *)

(* Texts that come from value_string tables (pfcp_strs.c, by get_value_string()) or from libosmocore:
   osmo_sockaddr_to_str_buf2() of an address and osmo_quote_str_buf3() of a C string. *)
Record texts := mkTexts {
  tx_cause : N -> list N; tx_iei : N -> list N; tx_msgt : N -> list N; tx_3gpp : N -> list N; tx_src : N -> list N; tx_dst : N -> list N;
  tx_ohr : N -> list N; tx_sa : sa -> list N; tx_quote : list N -> list N
}.

(* the bit names, pfcp_strs.c:351-435 with the enums of pfcp_proto.h; (bit number, name) *)
Fixpoint number (i : N) (l : list string) : list (N * list N) := match l with [] => [] | s :: l' => (i, str s) :: number (i + 1) l' end.
Definition up_feature_strs : list (N * list N) := number 0
  ["BUCP"; "DDND"; "DLBD"; "TRST"; "FTUP"; "PFDM"; "HEEU"; "TREU"; "EMPU"; "PDIU"; "UDBC"; "QUOAC"; "TRACE"; "FRRT"; "PFDE"; "EPFAR";
   "DPDRA"; "ADPDP"; "UEIP"; "SSET"; "MNOP"; "MTE"; "BUNDL"; "GCOM"; "MPAS"; "RTTL"; "VTIME"; "NORP"; "IP6PL"; "TSCU"; "MPTCP";
   "ATSSSLL"; "QFQM"; "GPQM"; "MTEDT"; "CIOT"; "ETHAR"; "DDDS"; "RDS"; "RTTWP"]%string.
Definition cp_feature_strs : list (N * list N) := number 0 ["LOAD"; "OVRL"; "EPFAR"; "SSET"; "BUNDL"; "MPAS"; "ARDR"; "UIAUR"]%string.
Definition apply_action_strs : list (N * list N) := number 0
  ["DROP"; "FORW"; "BUFF"; "NOCP"; "DUPL"; "IPMA"; "IPMD"; "DFRT"; "EDRT"; "BDPN"; "DDPN"]%string.
Definition ohc_strs : list (N * list N) := number 0
  ["GTP_U_UDP_IPV4"; "GTP_U_UDP_IPV6"; "UDP_IPV4"; "UDP_IPV6"; "IPV4"; "IPV6"; "C_TAG"; "S_TAG"; "N19_INDICATION"; "N6_INDICATION"]%string.

(* osmo_pfcp_bits_to_str_buf(), 411-424 *)
Fixpoint bits_loop (bits : list N) (strs : list (N * list N)) (sb : strbuf) (first : bool) : res (strbuf * bool) :=
  match strs with
  | [] => Ok (sb, first)
  | (pos, name) :: strs' =>
    x <- bits_get bits pos ;;
    if x then sb <- sb_printf sb ((if first then [] else str "+") ++ name) ;; bits_loop bits strs' sb false
    else bits_loop bits strs' sb first
  end.
Definition bits_to_str (bits : list N) (strs : list (N * list N)) : strfn := fun b n =>
  r <- bits_loop bits strs (sb_init b n) true ;;
  let '(sb, first) := r in
  sb <- (if first then sb_printf sb (str "-") else Ok sb) ;;
  sb_return sb.

Section Pfcp.
Variable T : texts.

(* osmo_pfcp_ip_addrs_to_str_buf(), 532-554, of a non-NULL pointer *)
Definition ip_addrs_to_str (a : ip_addrs) : strfn := fun b n =>
  let sb := sb_init b n in
  if negb (ia_v4p a || ia_v6p a) then sb <- sb_printf sb (str "empty:-addr") ;; sb_return sb else
  sb <- (if ia_v4p a then sb <- sb_printf sb (str "v4:") ;; sb_append sb (snprintf (tx_sa T (ia_v4 a))) else Ok sb) ;;
  sb <- (if ia_v4p a && ia_v6p a then sb_printf sb (str ",") else Ok sb) ;;
  sb <- (if ia_v6p a then sb <- sb_printf sb (str "v6:") ;; sb_append sb (snprintf (tx_sa T (ia_v6 a))) else Ok sb) ;;
  sb_return sb.

(* osmo_pfcp_ie_node_id_to_str_buf(), 357-380 *)
Definition node_id_to_str (x : node_id) : strfn := fun b n =>
  let sb := sb_init b n in
  match x with
  | NodeV4 ip => sb <- sb_printf sb (str "v4:") ;; sb <- sb_append sb (snprintf (tx_sa T ip)) ;; sb_return sb
  | NodeV6 ip => sb <- sb_printf sb (str "v6:") ;; sb <- sb_append sb (snprintf (tx_sa T ip)) ;; sb_return sb
  | NodeFqdn s => sb <- sb_printf sb (str "fqdn:") ;; sb <- sb_append sb (snprintf (tx_quote T s)) ;; sb_return sb
  | NodeOther t => sb <- sb_printf sb (str "unknown-node-id-type-" ++ pf_u t) ;; sb_return sb
  end.

(* osmo_pfcp_enc_to_str_f_seid(), 561-568 *)
Definition f_seid_to_str (x : f_seid) : strfn := fun b n =>
  let sb := sb_init b n in
  sb <- sb_printf sb (str "0x" ++ pf_x (fs_seid x) ++ str ",") ;;
  sb <- sb_append sb (ip_addrs_to_str (fs_addr x)) ;;
  sb_return sb.

(* osmo_pfcp_ie_f_teid_to_str_buf(), 661-677 *)
Definition f_teid_to_str (x : f_teid) : strfn := fun b n =>
  let sb := sb_init b n in
  match x with
  | FtChoose v4 v6 idp id =>
    sb <- sb_printf sb (str "CHOOSE") ;;
    sb <- (if v4 then sb_printf sb (str "-v4") else Ok sb) ;;
    sb <- (if v6 then sb_printf sb (str "-v6") else Ok sb) ;;
    sb <- (if idp then sb_printf sb (str "-id" ++ pf_u id) else Ok sb) ;;
    sb_return sb
  | FtFixed teid a =>
    sb <- sb_printf sb (str "TEID-0x" ++ pf_x teid ++ str ",") ;;
    sb <- sb_append sb (ip_addrs_to_str a) ;;
    sb_return sb
  end.

(* osmo_pfcp_ie_outer_header_creation_to_str_buf(), 880-898 *)
Definition ohc_to_str (x : ohc) : strfn := fun b n =>
  let sb := sb_init b n in
  sb <- sb_append sb (bits_to_str (oh_desc x) ohc_strs) ;;
  sb <- (if oh_teidp x then sb_printf sb (str ",TEID:0x" ++ pf_x (oh_teid x)) else Ok sb) ;;
  sb <- sb_printf sb (str ",") ;;
  sb <- sb_append sb (ip_addrs_to_str (oh_addr x)) ;;
  sb <- (if oh_portp x then sb_printf sb (str ",port:" ++ pf_u (oh_port x)) else Ok sb) ;;
  sb <- (if oh_ctagp x then sb_printf sb (str ",c-tag:" ++ pf_u (oh_ctag x)) else Ok sb) ;;
  sb <- (if oh_stagp x then sb_printf sb (str ",s-tag:" ++ pf_u (oh_stag x)) else Ok sb) ;;
  sb_return sb.

(* osmo_pfcp_enc_to_str_outer_header_removal(), 959-967 *)
Definition ohr_to_str (x : ohr) : strfn := fun b n =>
  let sb := sb_init b n in
  sb <- sb_printf sb (tx_ohr T (or_desc x)) ;;
  sb <- (if or_extp x then
           match or_ext x with e :: _ => sb_printf sb (str ",ext-hdr-del:0x" ++ pf_x e) | [] => UB OobRead end
         else Ok sb) ;;
  sb_return sb.

(* "sb.pos ? "," : """ as an argument of OSMO_STRBUF_PRINTF(), 1063-1065: evaluated after the macro's "if (!pos) pos = buf" *)
Definition comma (sb : strbuf) : list N := match sb_pos sb, sb_buf sb with None, None => [] | _, _ => str "," end.
(* osmo_pfcp_enc_to_str_ue_ip_address(), 1056-1076; "chv4" is printed for chv6, 1063 *)
Definition ue_ip_to_str (x : ue_ip) : strfn := fun b n =>
  let sb := sb_init b n in
  sb <- (if ue_chv4 x then sb_printf sb (str "chv4") else Ok sb) ;;
  sb <- (if ue_chv6 x then sb_printf sb (comma sb ++ str "chv4") else Ok sb) ;;
  sb <- (if ue_dest x then sb_printf sb (comma sb ++ str "dst") else Ok sb) ;;
  sb <- (match sb_pos sb with Some _ => sb_printf sb (str ",") | None => Ok sb end) ;;
  sb <- sb_append sb (ip_addrs_to_str (ue_addr x)) ;;
  sb <- (if ue_delegp x then sb_printf sb (str ",ipv6-prefix-deleg:" ++ pf_x (ue_deleg x)) else Ok sb) ;;
  sb <- (if ue_plenp x then sb_printf sb (str ",ipv6-prefix-len:" ++ pf_u (ue_plen x)) else Ok sb) ;;
  sb_return sb.

(* the enc_to_str_func of each IE kind; a value of another type (impossible in C) is AssertFail.
   cause 140-144, offending_ie 161-165, 8/16be/32be 182-228, interfaces 245-291, features 448-474, apply_action 707-711,
   network_inst 734-739, activate_predefined_rules 926-931 *)
Definition ie_to_str (k : kind) (v : iev) : strfn :=
  match k, v with
  | KCause, IvNum x => snprintf (tx_cause T x)
  | KOffendingIe, IvNum x => snprintf (tx_iei T x)
  | K8, IvNum x | K16, IvNum x | K32, IvNum x => snprintf (pf_u x)
  | K3gppIface, IvNum x => snprintf (tx_3gpp T x)
  | KSrcIface, IvNum x => snprintf (tx_src T x)
  | KDstIface, IvNum x => snprintf (tx_dst T x)
  | KNodeId, IvNode x => node_id_to_str x
  | KUpFF, IvBits l => bits_to_str l up_feature_strs
  | KCpFF, IvBits l => bits_to_str l cp_feature_strs
  | KApplyAction, IvBits l => bits_to_str l apply_action_strs
  | KFSeid, IvFseid x => f_seid_to_str x
  | KFTeid, IvFteid x => f_teid_to_str x
  | KNetInst, IvStr s | KActPredef, IvStr s => snprintf (tx_quote T s)
  | KOhc, IvOhc x => ohc_to_str x
  | KOhr, IvOhr x => ohr_to_str x
  | KUeIp, IvUeip x => ue_ip_to_str x
  | _, _ => fun _ _ => UB AssertFail
  end.

Fixpoint ttab (p : pcoding) : tcoding kind :=
  match p with PLeaf h k => TLeaf h k | PNest h l => TNest h (map ttab l) end.
(* osmo_pfcp_ies_encode_to_str(), generated by gtlv_gen.c:393-401, with osmo_pfcp_iei_strs *)
Definition ies_to_str (t : N) (ies : list (slot iev)) : strfn :=
  gtlvs_to_str (fun k => Some (ie_to_str k)) (tx_iei T) (option_map (map ttab) (get_msg_coding t)) ies.

(* osmo_pfcp_msg_to_str_buf(), pfcp_msg.c:566-580 *)
Definition msg_to_str (m : pmsg) : strfn := fun b n =>
  let sb := sb_init b n in
  let h := m_h m in
  sb <- sb_printf sb (str "PFCPv" ++ pf_u (hd_version h) ++ str " " ++ tx_msgt T (hd_type h) ++ str " hdr={seq=" ++ pf_u (hd_seq h)) ;;
  sb <- (match hd_prio h with Some p => sb_printf sb (str " prio=" ++ pf_u p) | None => Ok sb end) ;;
  sb <- (match hd_seid h with Some s => sb_printf sb (str " SEID=0x" ++ pf_x s) | None => Ok sb end) ;;
  sb <- sb_printf sb (str "} ies={") ;;
  sb <- sb_append sb (ies_to_str (hd_type h) (m_ies m)) ;;
  sb <- sb_printf sb (str " }") ;;
  sb_return sb.

(* osmo_pfcp_msg_log_info_buf(), pfcp_msg.c:586-616; None = NULL message. [fi]: name and state name of the session_fi or
   peer_fi of the message, if any; [cause]: osmo_pfcp_msg_cause() *)
Definition msg_log_info (m : option pmsg) (fi : option (list N * list N)) (cause : option N) : strfn := fun b n =>
  let sb := sb_init b n in
  match m with
  | None => sb <- sb_printf sb (str "NULL") ;; sb_return sb
  | Some m =>
    let h := m_h m in
    sb <- (match fi with
           | Some (name, state) => sb_printf sb (name ++ str "{" ++ state ++ str "}: ")
           | None => sb_append sb (snprintf (tx_sa T (m_remote m)))
           end) ;;
    sb <- sb_printf sb (str (if m_rx m then "-rx->" else "<-tx-") ++ str " PFCP seq-" ++ pf_u (hd_seq h)) ;;
    sb <- (match hd_seid h with Some s => sb_printf sb (str " SEID-0x" ++ pf_x s) | None => Ok sb end) ;;
    sb <- sb_printf sb (str " " ++ tx_msgt T (hd_type h)) ;;
    sb <- (match cause with Some c => sb_printf sb (str ": " ++ tx_cause T c) | None => Ok sb end) ;;
    sb_return sb
  end.
End Pfcp.

(* the _c variants, "OSMO_NAME_C_IMPL(ctx, init, "ERROR", ..._buf, ...)": osmo_gtlv_tag_inst_to_str_c() gtlv.c:63-67 (64),
   osmo_gtlvs_encode_to_str_c() gtlv_dec_enc.c:617-623 (256), osmo_pfcp_msg_to_str_c() pfcp_msg.c:581-584 (256),
   osmo_pfcp_msg_log_info_c() 618-621 (128), and in pfcp_ies_custom.c node_id 382-385 (64), bits 426-429 (64), ip_addrs
   556-559 (32), f_teid 679-682 (64), outer_header_creation 900-903 (128) *)
Definition to_str_c (init : N) (f : strfn) := name_c_impl init (str "ERROR") f.
