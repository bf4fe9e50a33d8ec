(* IeMemSpec.v -- what is assumed of the ABI and of libosmocore for the IE structs in memory, and which members of a struct count *)
From Coq Require Import String Ascii.
From Verif Require Import Base IesModel GenModel GenProofs PfcpMem IeMemModel.
Local Open Scope string_scope.
Local Open Scope N_scope.
Local Open Scope list_scope.

(* ---------------------------------------------------------------- assumptions on the ABI *)
(* the fixed-width types have their width, bool and char are bytes, the enums hold what the protocol puts into them *)
Definition base_sizes (te : tenv) : Prop :=
  sz te "bool" = 1 /\ sz te "char" = 1 /\ sz te "uint8_t" = 1 /\ sz te "uint16_t" = 2 /\ sz te "uint32_t" = 4 /\ sz te "uint64_t" = 8
  /\ 1 <= sz te "enum osmo_pfcp_cause" /\ 2 <= sz te "enum osmo_pfcp_iei" /\ 1 <= sz te "enum osmo_pfcp_3gpp_iface_type"
  /\ 1 <= sz te "enum osmo_pfcp_source_iface" /\ 1 <= sz te "enum osmo_pfcp_dest_iface" /\ 1 <= sz te "enum osmo_pfcp_node_id_type"
  /\ 1 <= sz te "enum osmo_pfcp_outer_header_removal_desc".
(* struct osmo_sockaddr of libosmocore: what osmo_sockaddr_from_octets() stores is that address; all zero is no address *)
Definition sockaddr_ok (te : tenv) (sa_img : sa -> list N) (sa_rd : list N -> sa) : Prop :=
  (forall o, bytes_ok o -> lenN o = 4 \/ lenN o = 16 -> lenN (sa_img (sa_from_octets o)) = sz te SOCKADDR /\ sa_rd (sa_img (sa_from_octets o)) = sa_from_octets o)
  /\ sa_rd (Base.zeros (N.to_nat (sz te SOCKADDR))) = SaUnspec.
(* any compiler and host: [te] are the types after pfcp_ies_custom.h was compiled *)
Definition ie_abi (te : tenv) (sa_img : sa -> list N) (sa_rd : list N -> sa) : Prop :=
  (exists te0, aligns te0 /\ cc_h te0 custom_h = Some te) /\ base_sizes te /\ sockaddr_ok te sa_img sa_rd.

(* the value without the members whose presence flag is not set *)
Definition present_addrs (a : ip_addrs) : ip_addrs :=
  mkAddrs (ia_v4p a) (if ia_v4p a then ia_v4 a else SaUnspec) (ia_v6p a) (if ia_v6p a then ia_v6 a else SaUnspec).
Definition present_only (v : iev) : iev :=
  match v with
  | IvFseid x => IvFseid (mkFseid (fs_seid x) (present_addrs (fs_addr x)))
  | IvUeip x => IvUeip (mkUeip (ue_chv6 x) (ue_chv4 x) (ue_dest x) (present_addrs (ue_addr x)) (ue_delegp x) (if ue_delegp x then ue_deleg x else 0)
                          (ue_plenp x) (if ue_plenp x then ue_plen x else 0))
  | _ => v
  end.
