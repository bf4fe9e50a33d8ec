(* PfcpMem.v -- the types of include/osmocom/pfcp/pfcp_ies_custom.h in memory: their declarations, and which values of IesModel.v their
   bytes stand for. One ABI: 8-byte aligned uint64_t and struct osmo_sockaddr of 128 bytes (sockaddr_storage), enums of 4 bytes, Linux
   address families; both byte orders. Results about all ABIs do not use this file, it shows that their assumptions can be met.
   Simplification: a decoder stores its value when it succeeds; what it may have stored before it failed is left out (IeMemModel.v has
   the stores of the decoders, for any ABI). *)
From Coq Require Import String Ascii.
From Verif Require Import Base GtlvModel DecEncModel IesModel TablesModel StrModel MemModel MemSpec MemTest GenModel GenPfcp.
Local Open Scope string_scope.
Local Open Scope N_scope.

(* ---------------------------------------------------------------- declarations *)
Definition p_base : list (string * tyinfo) :=
  map (fun e : string * N * N => let '(t, s, a) := e in (t, mkTy s a []))
    [ ("bool", 1, 1); ("char", 1, 1); ("unsigned int", 4, 4); ("uint8_t", 1, 1); ("uint16_t", 2, 2); ("uint32_t", 4, 4); ("uint64_t", 8, 8);
      ("enum osmo_pfcp_cause", 4, 4); ("enum osmo_pfcp_iei", 4, 4); ("enum osmo_pfcp_3gpp_iface_type", 4, 4); ("enum osmo_pfcp_source_iface", 4, 4);
      ("enum osmo_pfcp_dest_iface", 4, 4); ("enum osmo_pfcp_node_id_type", 4, 4); ("enum osmo_pfcp_outer_header_removal_desc", 4, 4);
      ("struct osmo_sockaddr", 128, 8) ].
Definition mb (t n : string) : member := mkMemb t n None.
Definition mba (t n : string) (k : N) : member := mkMemb t n (Some k).
(* pfcp_ies_custom.h:34-188; anonymous structs and unions have the names node_id.u, f_teid.fixed, f_teid.choose, f_teid.u *)
Definition custom_h : list hitem := [
  HStruct "struct osmo_pfcp_ip_addrs" [mb "bool" "v4_present"; mb "struct osmo_sockaddr" "v4"; mb "bool" "v6_present"; mb "struct osmo_sockaddr" "v6"];
  HUnion "node_id.u" [mb "struct osmo_sockaddr" "ip"; mba "char" "fqdn" 254];
  HStruct "struct osmo_pfcp_ie_node_id" [mb "enum osmo_pfcp_node_id_type" "type"; mb "node_id.u" "u"];
  HStruct "struct osmo_pfcp_ie_up_function_features" [mba "uint8_t" "bits" 6];
  HStruct "struct osmo_pfcp_ie_cp_function_features" [mba "uint8_t" "bits" 1];
  HStruct "struct osmo_pfcp_ie_f_seid" [mb "uint64_t" "seid"; mb "struct osmo_pfcp_ip_addrs" "ip_addr"];
  HStruct "f_teid.fixed" [mb "uint32_t" "teid"; mb "struct osmo_pfcp_ip_addrs" "ip_addr"];
  HStruct "f_teid.choose" [mb "bool" "ipv4_addr"; mb "bool" "ipv6_addr"; mb "bool" "choose_id_present"; mb "uint8_t" "choose_id"];
  HUnion "f_teid.u" [mb "f_teid.fixed" "fixed"; mb "f_teid.choose" "choose"];
  HStruct "struct osmo_pfcp_ie_f_teid" [mb "bool" "choose_flag"; mb "f_teid.u" "u"];
  HStruct "struct osmo_pfcp_ie_ue_ip_address"
    [mb "bool" "chv6"; mb "bool" "chv4"; mb "bool" "ip_is_destination"; mb "struct osmo_pfcp_ip_addrs" "ip_addr";
     mb "bool" "ipv6_prefix_delegation_bits_present"; mb "uint8_t" "ipv6_prefix_delegation_bits"; mb "bool" "ipv6_prefix_length_present"; mb "uint8_t" "ipv6_prefix_length"];
  HStruct "struct osmo_pfcp_ie_apply_action" [mba "uint8_t" "bits" 2];
  HStruct "struct osmo_pfcp_ie_network_inst" [mba "char" "str" 254];
  HStruct "struct osmo_pfcp_ie_activate_predefined_rules" [mba "char" "str" 256];
  HStruct "struct osmo_pfcp_ie_outer_header_creation"
    [mba "uint8_t" "desc_bits" 2; mb "bool" "teid_present"; mb "uint32_t" "teid"; mb "struct osmo_pfcp_ip_addrs" "ip_addr"; mb "bool" "port_number_present";
     mb "uint16_t" "port_number"; mb "bool" "c_tag_present"; mb "uint32_t" "c_tag"; mb "bool" "s_tag_present"; mb "uint32_t" "s_tag"];
  HStruct "struct osmo_pfcp_ie_outer_header_removal"
    [mb "enum osmo_pfcp_outer_header_removal_desc" "desc"; mb "bool" "gtp_u_extension_header_del_present"; mba "uint8_t" "gtp_u_extension_header_del_bits" 1] ].
Definition p_te0 : tenv := fun t => get t p_base.
Definition p_te : tenv := match cc_h p_te0 custom_h with Some te => te | None => fun _ => None end.

(* ---------------------------------------------------------------- values in memory *)
Section Host.
Local Open Scope list_scope.
Variable be : bool.
(* an unsigned number of n bytes in host order *)
Definition n2y (n : nat) (x : N) : list N := if be then be_put n x else rev (be_put n x).
Definition y2n (l : list N) : N := if be then be_get l else be_get (rev l).
Definition z (n : N) : list N := Base.zeros (N.to_nat n).
(* a char array *)
Definition carr (n : N) (s : list N) : list N := s ++ z (n - lenN s).

(* struct sockaddr_in / sockaddr_in6: family at 0, port in network order at 2, address at 4 / 8; AF_INET 2, AF_INET6 10, AF_UNSPEC 0 *)
Definition sa_mem (x : sa) : list N :=
  match x with
  | SaUnspec => z 128
  | Sa4 a p => n2y 2 2 ++ be_put 2 p ++ a ++ z 120
  | Sa6 a p => n2y 2 10 ++ be_put 2 p ++ z 4 ++ a ++ z 104
  end.
Definition sa_val (l : list N) : sa :=
  let fam := y2n (get_at 0 2 l) in
  if fam =? 2 then Sa4 (get_at 4 4 l) (be_get (get_at 2 2 l))
  else if fam =? 10 then Sa6 (get_at 8 16 l) (be_get (get_at 2 2 l))
  else SaUnspec.
Definition ia_mem (a : ip_addrs) : list N := b2y (ia_v4p a) ++ z 7 ++ sa_mem (ia_v4 a) ++ b2y (ia_v6p a) ++ z 7 ++ sa_mem (ia_v6 a).
Definition ia_val (l : list N) : ip_addrs :=
  mkAddrs (y2b (get_at 0 1 l)) (sa_val (get_at 8 128 l)) (y2b (get_at 136 1 l)) (sa_val (get_at 144 128 l)).

Definition num_codec (n : nat) : codec iev :=
  mkCodec (N.of_nat n) (fun old v => match v with IvNum x => n2y n x | _ => old end) (fun l => IvNum (y2n l)).
Definition bits_codec (n : N) : codec iev := mkCodec n (fun old v => match v with IvBits b => b | _ => old end) IvBits.
Definition str_codec (n : N) : codec iev := mkCodec n (fun old v => match v with IvStr s => carr n s | _ => old end) (fun l => IvStr (c_str l)).
Definition p_codec (k : kind) : codec iev :=
  match k with
  | KCause | KOffendingIe | K32 | K3gppIface | KSrcIface | KDstIface => num_codec 4
  | K8 => num_codec 1
  | K16 => num_codec 2
  | KNodeId => mkCodec 264
      (fun old v => match v with
                    | IvNode (NodeV4 ip) => n2y 4 0 ++ z 4 ++ sa_mem ip ++ z 128
                    | IvNode (NodeV6 ip) => n2y 4 1 ++ z 4 ++ sa_mem ip ++ z 128
                    | IvNode (NodeFqdn s) => n2y 4 2 ++ z 4 ++ carr 254 s ++ z 2
                    | _ => old
                    end)
      (fun l => IvNode (let t := y2n (get_at 0 4 l) in
                        if t =? 0 then NodeV4 (sa_val (get_at 8 128 l)) else if t =? 1 then NodeV6 (sa_val (get_at 8 128 l))
                        else if t =? 2 then NodeFqdn (c_str (get_at 8 254 l)) else NodeOther t))
  | KUpFF => bits_codec 6
  | KCpFF => bits_codec 1
  | KApplyAction => bits_codec 2
  | KFSeid => mkCodec 280
      (fun old v => match v with IvFseid x => n2y 8 (fs_seid x) ++ ia_mem (fs_addr x) | _ => old end)
      (fun l => IvFseid (mkFseid (y2n (get_at 0 8 l)) (ia_val (get_at 8 272 l))))
  | KFTeid => mkCodec 288
      (fun old v => match v with
                    | IvFteid (FtFixed t a) => b2y false ++ z 7 ++ n2y 4 t ++ z 4 ++ ia_mem a
                    | IvFteid (FtChoose v4 v6 p i) => b2y true ++ z 7 ++ b2y v4 ++ b2y v6 ++ b2y p ++ [i] ++ z 276
                    | _ => old
                    end)
      (fun l => IvFteid (if y2b (get_at 0 1 l)
                         then FtChoose (y2b (get_at 8 1 l)) (y2b (get_at 9 1 l)) (y2b (get_at 10 1 l)) (be_get (get_at 11 1 l))
                         else FtFixed (y2n (get_at 8 4 l)) (ia_val (get_at 16 272 l))))
  | KNetInst => str_codec 254
  | KActPredef => str_codec 256
  | KOhc => mkCodec 304
      (fun old v => match v with
                    | IvOhc x => oh_desc x ++ b2y (oh_teidp x) ++ z 1 ++ n2y 4 (oh_teid x) ++ ia_mem (oh_addr x) ++ b2y (oh_portp x) ++ z 1 ++ n2y 2 (oh_port x)
                                 ++ b2y (oh_ctagp x) ++ z 3 ++ n2y 4 (oh_ctag x) ++ b2y (oh_stagp x) ++ z 3 ++ n2y 4 (oh_stag x) ++ z 4
                    | _ => old
                    end)
      (fun l => IvOhc (mkOhc (get_at 0 2 l) (y2b (get_at 2 1 l)) (y2n (get_at 4 4 l)) (ia_val (get_at 8 272 l)) (y2b (get_at 280 1 l)) (y2n (get_at 282 2 l))
                             (y2b (get_at 284 1 l)) (y2n (get_at 288 4 l)) (y2b (get_at 292 1 l)) (y2n (get_at 296 4 l))))
  | KOhr => mkCodec 8
      (fun old v => match v with IvOhr x => n2y 4 (or_desc x) ++ b2y (or_extp x) ++ or_ext x ++ z 2 | _ => old end)
      (fun l => IvOhr (mkOhr (y2n (get_at 0 4 l)) (y2b (get_at 4 1 l)) (get_at 5 1 l)))
  | KUeIp => mkCodec 288
      (fun old v => match v with
                    | IvUeip x => b2y (ue_chv6 x) ++ b2y (ue_chv4 x) ++ b2y (ue_dest x) ++ z 5 ++ ia_mem (ue_addr x) ++ b2y (ue_delegp x) ++ [ue_deleg x]
                                  ++ b2y (ue_plenp x) ++ [ue_plen x] ++ z 4
                    | _ => old
                    end)
      (fun l => IvUeip (mkUeip (y2b (get_at 0 1 l)) (y2b (get_at 1 1 l)) (y2b (get_at 2 1 l)) (ia_val (get_at 8 272 l)) (y2b (get_at 280 1 l)) (be_get (get_at 281 1 l))
                               (y2b (get_at 282 1 l)) (be_get (get_at 283 1 l))))
  end.
Variable T : texts.
Definition p_lk (f : fns) : mleaf := of_codec (p_codec (kind_of f)) (pfcp_leaf f) (Some (ie_to_str T (kind_of f))).
Definition p_ld (f : fns) : list N -> iev := cd_get (p_codec (kind_of f)).
End Host.

(* the offsets and sizes used above *)
Definition p_offsets : list (string * string * N * N) := [
  ("struct osmo_pfcp_ip_addrs", "v4_present", 0, 1); ("struct osmo_pfcp_ip_addrs", "v4", 8, 128); ("struct osmo_pfcp_ip_addrs", "v6_present", 136, 1);
  ("struct osmo_pfcp_ip_addrs", "v6", 144, 128);
  ("struct osmo_pfcp_ie_node_id", "type", 0, 4); ("struct osmo_pfcp_ie_node_id", "u", 8, 256); ("node_id.u", "ip", 0, 128); ("node_id.u", "fqdn", 0, 254);
  ("struct osmo_pfcp_ie_up_function_features", "bits", 0, 6); ("struct osmo_pfcp_ie_cp_function_features", "bits", 0, 1);
  ("struct osmo_pfcp_ie_f_seid", "seid", 0, 8); ("struct osmo_pfcp_ie_f_seid", "ip_addr", 8, 272);
  ("struct osmo_pfcp_ie_f_teid", "choose_flag", 0, 1); ("struct osmo_pfcp_ie_f_teid", "u", 8, 280);
  ("f_teid.u", "fixed", 0, 280); ("f_teid.u", "choose", 0, 4); ("f_teid.fixed", "teid", 0, 4); ("f_teid.fixed", "ip_addr", 8, 272);
  ("f_teid.choose", "ipv4_addr", 0, 1); ("f_teid.choose", "ipv6_addr", 1, 1); ("f_teid.choose", "choose_id_present", 2, 1); ("f_teid.choose", "choose_id", 3, 1);
  ("struct osmo_pfcp_ie_ue_ip_address", "chv6", 0, 1); ("struct osmo_pfcp_ie_ue_ip_address", "chv4", 1, 1); ("struct osmo_pfcp_ie_ue_ip_address", "ip_is_destination", 2, 1);
  ("struct osmo_pfcp_ie_ue_ip_address", "ip_addr", 8, 272); ("struct osmo_pfcp_ie_ue_ip_address", "ipv6_prefix_delegation_bits_present", 280, 1);
  ("struct osmo_pfcp_ie_ue_ip_address", "ipv6_prefix_delegation_bits", 281, 1); ("struct osmo_pfcp_ie_ue_ip_address", "ipv6_prefix_length_present", 282, 1);
  ("struct osmo_pfcp_ie_ue_ip_address", "ipv6_prefix_length", 283, 1);
  ("struct osmo_pfcp_ie_apply_action", "bits", 0, 2); ("struct osmo_pfcp_ie_network_inst", "str", 0, 254); ("struct osmo_pfcp_ie_activate_predefined_rules", "str", 0, 256);
  ("struct osmo_pfcp_ie_outer_header_creation", "desc_bits", 0, 2); ("struct osmo_pfcp_ie_outer_header_creation", "teid_present", 2, 1);
  ("struct osmo_pfcp_ie_outer_header_creation", "teid", 4, 4); ("struct osmo_pfcp_ie_outer_header_creation", "ip_addr", 8, 272);
  ("struct osmo_pfcp_ie_outer_header_creation", "port_number_present", 280, 1); ("struct osmo_pfcp_ie_outer_header_creation", "port_number", 282, 2);
  ("struct osmo_pfcp_ie_outer_header_creation", "c_tag_present", 284, 1); ("struct osmo_pfcp_ie_outer_header_creation", "c_tag", 288, 4);
  ("struct osmo_pfcp_ie_outer_header_creation", "s_tag_present", 292, 1); ("struct osmo_pfcp_ie_outer_header_creation", "s_tag", 296, 4);
  ("struct osmo_pfcp_ie_outer_header_removal", "desc", 0, 4); ("struct osmo_pfcp_ie_outer_header_removal", "gtp_u_extension_header_del_present", 4, 1);
  ("struct osmo_pfcp_ie_outer_header_removal", "gtp_u_extension_header_del_bits", 5, 1) ].
Lemma p_offsets_ok : forall T n o s, In (T, n, o, s) p_offsets -> option_map (fun x => (fst x, fi_size (snd x))) (offset_of p_te T None n) = Some (o, s).
Proof.
  assert (G : forallb (fun e : string * string * N * N => let '(T, n, o, s) := e in
     match option_map (fun x => (fst x, fi_size (snd x))) (offset_of p_te T None n) with Some (o', s') => (o' =? o) && (s' =? s) | None => false end) p_offsets = true)
    by (vm_compute; reflexivity).
  intros T n o s H. rewrite forallb_forall in G. specialize (G _ H). cbv beta iota in G.
  destruct (option_map _ _) as [[o' s']|]; [|discriminate]. apply andb_true_iff in G. destruct G as [G1 G2]. apply N.eqb_eq in G1, G2. congruence.
Qed.
