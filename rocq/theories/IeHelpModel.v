(* IeHelpModel.v -- the helper functions on addresses, F-SEIDs, Node IDs and feature bits on memory (libosmo-pfcp/pfcp_ies_custom.c and
   pfcp_msg.c): loads and stores of members as in the source, for any ABI, with pointers that may point into the struct that is changed.
   Simplifications: alignment of accesses is not modelled; an assignment of a struct copies all of its bytes, "= {}" clears all of them;
   osmo_sockaddr_cmp() of libosmocore compares the addresses that the bytes stand for (IesModel.sa_cmp). *)
From Coq Require Import String Ascii.
From Verif Require Import Base GtlvModel DecEncModel CStr IesModel TablesModel StrModel MemModel MemSpec MemTest GenModel GenPfcp PfcpMem IeMemModel IeEncModel.
Local Open Scope string_scope.
Local Open Scope N_scope.
Local Open Scope list_scope.

Section Abi.
Variable te : tenv.                        (* the types of the headers *)
Variable be : bool.                        (* byte order of the host *)
Variable sa_rd : list N -> sa.             (* the address that the bytes of a struct osmo_sockaddr stand for *)
Variable set_port0 : list N -> list N.     (* osmo_sockaddr_set_port(..., 0) of libosmocore *)
Notation SA := (sz te SOCKADDR).
Notation "x <! a ;; b" := (bindm (lift a) (fun x => b)) (at level 61, a at next level, right associativity).

(* a const struct osmo_sockaddr *: somewhere else, with these bytes; or at an address within the memory that the function changes *)
Inductive sap := Elsewhere (bytes : list N) | Inside (a : N).
Definition ld_sa (p : sap) : mm (list N) := match p with Elsewhere l => ret l | Inside a => MemModel.rd a SA end.

(* osmo_pfcp_ip_addrs_set(), pfcp_msg.c:499-515; dst at address o *)
Definition c_ip_addrs_set (o : N) (p : sap) : mm unit :=
  f <~ ld_sa p ;;
  match sa_rd f with
  | Sa4 _ _ =>
    _ <~ st_bool (o + fo te IPA "v4_present") true ;;
    x <~ ld_sa p ;; _ <~ wr (o + fo te IPA "v4") x ;;
    y <~ MemModel.rd (o + fo te IPA "v4") SA ;; wr (o + fo te IPA "v4") (set_port0 y)
  | Sa6 _ _ =>
    _ <~ st_bool (o + fo te IPA "v6_present") true ;;
    x <~ ld_sa p ;; _ <~ wr (o + fo te IPA "v6") x ;;
    y <~ MemModel.rd (o + fo te IPA "v6") SA ;; wr (o + fo te IPA "v6") (set_port0 y)
  | SaUnspec => lift (Err ENOTSUP)
  end.
(* a return code that the caller ignores *)
Definition ignore (c : mm unit) : mm unit := fun mem => match c mem with (mem', Err _) => (mem', Ok tt) | r => r end.
(* osmo_pfcp_ie_f_seid_set(), pfcp_ies_custom.c:92-98; the F-SEID is at address 0 *)
Definition c_f_seid_set (seid : N) (p : sap) : mm unit :=
  _ <~ st_zero 0 (sz te F_SEID) ;; _ <~ st_num te be "uint64_t" (fo te F_SEID "seid") seid ;;
  ignore (c_ip_addrs_set (fo te F_SEID "ip_addr") p).

(* osmo_pfcp_ip_addrs_get(), pfcp_msg.c:517-532, for two result pointers to other memory: the bytes stored there; AF_UNSPEC is 0 *)
Definition c_ip_addrs_get (src : list N) : res (list N * list N) :=
  p4 <- lb src (fo te IPA "v4_present") ;;
  v4 <- (if p4 then peek (fo te IPA "v4") SA src else Ok (Base.zeros (N.to_nat SA))) ;;
  p6 <- lb src (fo te IPA "v6_present") ;;
  v6 <- (if p6 then peek (fo te IPA "v6") SA src else Ok (Base.zeros (N.to_nat SA))) ;;
  Ok (v4, v6).

(* osmo_pfcp_ie_f_seid_cmp(), pfcp_ies_custom.c:100-123, for two different pointers that are not NULL *)
Definition c_f_seid_cmp (a b : list N) : res Z :=
  let ia := fo te F_SEID "ip_addr" in
  let both m1 m2 n := x <- lb m1 (ia + fo te IPA n) ;; if x then lb m2 (ia + fo te IPA n) else Ok false in
  let addr m n := ls te sa_rd m (ia + fo te IPA n) in
  p4 <- both a b "v4_present" ;;
  rc <- (if p4 then x <- addr a "v4" ;; y <- addr b "v4" ;; Ok (sa_cmp x y)
         else p6 <- both a b "v6_present" ;;
              if p6 then x <- addr a "v6" ;; y <- addr b "v6" ;; Ok (sa_cmp x y)
              else x <- lb a (ia + fo te IPA "v4_present") ;; Ok (if x then (-1)%Z else 1%Z)) ;;
  if negb (rc =? 0)%Z then Ok rc
  else
    x <- ln te be a "uint64_t" (fo te F_SEID "seid") ;; y <- ln te be b "uint64_t" (fo te F_SEID "seid") ;;
    if x <? y then Ok (-1)%Z
    else x <- ln te be a "uint64_t" (fo te F_SEID "seid") ;; y <- ln te be b "uint64_t" (fo te F_SEID "seid") ;;
         if y <? x then Ok 1%Z else Ok 0%Z.

(* osmo_pfcp_ie_node_id_from_osmo_sockaddr(), pfcp_msg.c:104-118; the Node ID is at address 0 *)
Definition c_node_id_from (p : sap) : mm unit :=
  let o_type := fo te NODE_ID "type" in
  let o_ip := fo te NODE_ID "u" + fo te "node_id.u" "ip" in
  f <~ ld_sa p ;;
  match sa_rd f with
  | Sa4 _ _ => _ <~ st_num te be "enum osmo_pfcp_node_id_type" o_type 0 ;; x <~ ld_sa p ;; wr o_ip x
  | Sa6 _ _ => _ <~ st_num te be "enum osmo_pfcp_node_id_type" o_type 1 ;; x <~ ld_sa p ;; wr o_ip x
  | SaUnspec => lift (Err ENOTSUP)
  end.
(* osmo_pfcp_ie_node_id_to_osmo_sockaddr(), pfcp_msg.c:120-136; [n] is the Node ID, the state is the struct osmo_sockaddr *os *)
Definition c_node_id_to (n : list N) : mm unit :=
  let o_ip := fo te NODE_ID "u" + fo te "node_id.u" "ip" in
  t <! ln te be n "enum osmo_pfcp_node_id_type" (fo te NODE_ID "type") ;;
  if t =? 0 then os <~ MemModel.rd 0 SA ;; if is_inet (sa_rd os) then ip <! peek o_ip SA n ;; wr 0 ip else lift (Err EINVAL)
  else if t =? 1 then os <~ MemModel.rd 0 SA ;; if is_inet6 (sa_rd os) then ip <! peek o_ip SA n ;; wr 0 ip else lift (Err EINVAL)
  else lift (Err ENOTSUP).
End Abi.

(* osmo_pfcp_bits_get(), osmo_pfcp_bits_set(), pfcp_ies_custom.c:392-409, for an array at address a *)
Definition c_bits_get (a pos : N) (mem : list N) : res bool := l <- peek (a + pos / 8) 1 mem ;; Ok (negb (N.land (be_get l) (2 ^ (pos mod 8)) =? 0)).
Definition c_bits_set (a pos : N) (v : bool) : mm unit :=
  l <~ MemModel.rd (a + pos / 8) 1 ;;
  wr (a + pos / 8) [if v then N.lor (be_get l) (2 ^ (pos mod 8)) else N.ldiff (be_get l) (2 ^ (pos mod 8))].
