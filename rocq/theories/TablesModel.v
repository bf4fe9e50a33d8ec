(* TablesModel.v -- the PFCP IE tables of src/libosmo-pfcp/gen__pfcp_ies_auto.c, as src/libosmo-gtlv/gtlv_gen.c:258-293
   turns them into struct osmo_gtlv_coding arrays: an M() entry has neither presence flag nor count, an O() entry has a
   presence flag, an O_MULTI(n) / M_MULTI(n, m) entry has a count with maximum n and mandatory number 0 / m. All nested
   tables use the same cfg (nested_ies_cfg NULL) and the same ordering (nested_ies_ordered = 0) as their parent. *)
From Verif Require Import Base GtlvModel DecEncModel IesModel.

Inductive pcoding := PLeaf (h : chead) (k : kind) | PNest (h : chead) (ies : list pcoding).
Definition phead (p : pcoding) : chead := match p with PLeaf h _ => h | PNest h _ => h end.
Fixpoint ptab (p : pcoding) : coding iev :=
  match p with
  | PLeaf h k => CLeaf h (leaf_of k)
  | PNest h l => CNest h None OrdSame (map ptab l)
  end.

(* OSMO_GTLV_GEN_M / _O / _O_MULTI / _M_MULTI, gtlv_gen.h:35-41 *)
Definition pM (t : N) : chead := mkHead (ti_of_tag t) false None.
Definition pO (t : N) : chead := mkHead (ti_of_tag t) true None.
Definition pMULTI (t mx mand : N) : chead := mkHead (ti_of_tag t) false (Some (mx, mand)).
(* MAX_*, gen__pfcp_ies_auto.c *)
Definition max_multi : N := 32.

(* enum osmo_pfcp_iei, pfcp_proto.h *)
Definition iei_create_pdr : N := 1.        Definition iei_pdi : N := 2.
Definition iei_create_far : N := 3.        Definition iei_forw_params : N := 4.
Definition iei_created_pdr : N := 8.       Definition iei_upd_pdr : N := 9.
Definition iei_upd_far : N := 10.          Definition iei_upd_forw_params : N := 11.
Definition iei_remove_pdr : N := 15.       Definition iei_remove_far : N := 16.
Definition iei_cause : N := 19.            Definition iei_source_iface : N := 20.
Definition iei_f_teid : N := 21.           Definition iei_network_inst : N := 22.
Definition iei_precedence : N := 29.       Definition iei_offending_ie : N := 40.
Definition iei_destination_iface : N := 42. Definition iei_up_function_features : N := 43.
Definition iei_apply_action : N := 44.     Definition iei_pdr_id : N := 56.
Definition iei_f_seid : N := 57.           Definition iei_node_id : N := 60.
Definition iei_outer_header_creation : N := 84. Definition iei_cp_function_features : N := 89.
Definition iei_ue_ip_address : N := 93.    Definition iei_outer_header_removal : N := 95.
Definition iei_recovery_time_stamp : N := 96. Definition iei_activate_predefined_rules : N := 106.
Definition iei_far_id : N := 108.          Definition iei_traffic_endpoint_id : N := 131.
Definition iei_3gpp_iface_type : N := 160. Definition iei_updated_pdr : N := 256.

(* ies_in_pdi, gen__pfcp_ies_auto.c:99-107 *)
Definition ies_pdi : list pcoding :=
  [ PLeaf (pM iei_source_iface) KSrcIface; PLeaf (pO iei_f_teid) KFTeid; PLeaf (pO iei_network_inst) KNetInst;
    PLeaf (pO iei_ue_ip_address) KUeIp; PLeaf (pO iei_traffic_endpoint_id) K8; PLeaf (pO iei_3gpp_iface_type) K3gppIface ].
(* ies_in_create_pdr, 120-128 *)
Definition ies_create_pdr : list pcoding :=
  [ PLeaf (pM iei_pdr_id) K16; PLeaf (pM iei_precedence) K32; PNest (pM iei_pdi) ies_pdi;
    PLeaf (pO iei_outer_header_removal) KOhr; PLeaf (pO iei_far_id) K32; PLeaf (pO iei_activate_predefined_rules) KActPredef ].
(* ies_in_created_pdr, 135-139 *)
Definition ies_created_pdr : list pcoding := [ PLeaf (pM iei_pdr_id) K16; PLeaf (pO iei_f_teid) KFTeid ].
(* ies_in_upd_pdr, 146-153 *)
Definition ies_upd_pdr : list pcoding :=
  [ PLeaf (pM iei_pdr_id) K16; PLeaf (pO iei_outer_header_removal) KOhr; PNest (pO iei_pdi) ies_pdi;
    PLeaf (pO iei_far_id) K32; PLeaf (pO iei_activate_predefined_rules) KActPredef ].
(* ies_in_updated_pdr, 160-164 *)
Definition ies_updated_pdr : list pcoding := [ PLeaf (pM iei_pdr_id) K16; PLeaf (pO iei_f_teid) KFTeid ].
(* ies_in_remove_pdr, 171-174 *)
Definition ies_remove_pdr : list pcoding := [ PLeaf (pM iei_pdr_id) K16 ].
(* ies_in_forw_params, 187-194 *)
Definition ies_forw_params : list pcoding :=
  [ PLeaf (pM iei_destination_iface) KDstIface; PLeaf (pO iei_network_inst) KNetInst; PLeaf (pO iei_outer_header_creation) KOhc;
    PLeaf (pO iei_traffic_endpoint_id) K8; PLeaf (pO iei_3gpp_iface_type) K3gppIface ].
(* ies_in_upd_forw_params, 201-208 *)
Definition ies_upd_forw_params : list pcoding :=
  [ PLeaf (pO iei_destination_iface) KDstIface; PLeaf (pO iei_network_inst) KNetInst; PLeaf (pO iei_outer_header_creation) KOhc;
    PLeaf (pO iei_traffic_endpoint_id) K8; PLeaf (pO iei_3gpp_iface_type) K3gppIface ].
(* ies_in_create_far, 215-220 *)
Definition ies_create_far : list pcoding :=
  [ PLeaf (pM iei_far_id) K32; PLeaf (pM iei_apply_action) KApplyAction; PNest (pO iei_forw_params) ies_forw_params ].
(* ies_in_remove_far, 227-230 *)
Definition ies_remove_far : list pcoding := [ PLeaf (pM iei_far_id) K32 ].
(* ies_in_upd_far, 237-242 *)
Definition ies_upd_far : list pcoding :=
  [ PLeaf (pM iei_far_id) K32; PLeaf (pO iei_apply_action) KApplyAction; PNest (pO iei_upd_forw_params) ies_upd_forw_params ].

(* enum osmo_pfcp_message_type, pfcp_proto.h *)
Definition msgt_heartbeat_req : N := 1.      Definition msgt_heartbeat_resp : N := 2.
Definition msgt_assoc_setup_req : N := 5.    Definition msgt_assoc_setup_resp : N := 6.
Definition msgt_assoc_release_req : N := 9.  Definition msgt_assoc_release_resp : N := 10.
Definition msgt_session_est_req : N := 50.   Definition msgt_session_est_resp : N := 51.
Definition msgt_session_mod_req : N := 52.   Definition msgt_session_mod_resp : N := 53.
Definition msgt_session_del_req : N := 54.   Definition msgt_session_del_resp : N := 55.

(* ies_in_heartbeat_req ... ies_in_session_del_resp, 249-331 *)
Definition ies_heartbeat : list pcoding := [ PLeaf (pM iei_recovery_time_stamp) K32 ].
Definition ies_assoc_setup_req : list pcoding :=
  [ PLeaf (pM iei_node_id) KNodeId; PLeaf (pM iei_recovery_time_stamp) K32; PLeaf (pO iei_up_function_features) KUpFF;
    PLeaf (pO iei_cp_function_features) KCpFF ].
Definition ies_assoc_setup_resp : list pcoding :=
  [ PLeaf (pM iei_node_id) KNodeId; PLeaf (pM iei_cause) KCause; PLeaf (pM iei_recovery_time_stamp) K32;
    PLeaf (pO iei_up_function_features) KUpFF; PLeaf (pO iei_cp_function_features) KCpFF ].
Definition ies_assoc_release_req : list pcoding := [ PLeaf (pM iei_node_id) KNodeId ].
Definition ies_assoc_release_resp : list pcoding := [ PLeaf (pM iei_node_id) KNodeId; PLeaf (pM iei_cause) KCause ].
Definition ies_session_est_req : list pcoding :=
  [ PLeaf (pM iei_node_id) KNodeId; PLeaf (pO iei_f_seid) KFSeid; PNest (pMULTI iei_create_pdr max_multi 1) ies_create_pdr;
    PNest (pMULTI iei_create_far max_multi 1) ies_create_far ].
Definition ies_session_est_resp : list pcoding :=
  [ PLeaf (pM iei_node_id) KNodeId; PLeaf (pM iei_cause) KCause; PLeaf (pO iei_offending_ie) KOffendingIe;
    PLeaf (pO iei_f_seid) KFSeid; PNest (pMULTI iei_created_pdr max_multi 0) ies_created_pdr ].
Definition ies_session_mod_req : list pcoding :=
  [ PLeaf (pO iei_f_seid) KFSeid; PNest (pMULTI iei_remove_pdr max_multi 0) ies_remove_pdr;
    PNest (pMULTI iei_remove_far max_multi 0) ies_remove_far; PNest (pMULTI iei_create_pdr max_multi 0) ies_create_pdr;
    PNest (pMULTI iei_create_far max_multi 0) ies_create_far; PNest (pMULTI iei_upd_pdr max_multi 0) ies_upd_pdr;
    PNest (pMULTI iei_upd_far max_multi 0) ies_upd_far ].
Definition ies_session_mod_resp : list pcoding :=
  [ PLeaf (pM iei_cause) KCause; PLeaf (pO iei_offending_ie) KOffendingIe;
    PNest (pMULTI iei_created_pdr max_multi 0) ies_created_pdr; PNest (pMULTI iei_updated_pdr max_multi 0) ies_updated_pdr ].
Definition ies_session_del_resp : list pcoding := [ PLeaf (pM iei_cause) KCause ].

(* msg_defs 334-348 and the generated osmo_pfcp_get_msg_coding(), gtlv_gen.c:363-377; None = NULL *)
Definition get_msg_coding (t : N) : option (list pcoding) :=
  if t =? msgt_heartbeat_req then Some ies_heartbeat
  else if t =? msgt_heartbeat_resp then Some ies_heartbeat
  else if t =? msgt_assoc_setup_req then Some ies_assoc_setup_req
  else if t =? msgt_assoc_setup_resp then Some ies_assoc_setup_resp
  else if t =? msgt_assoc_release_req then Some ies_assoc_release_req
  else if t =? msgt_assoc_release_resp then Some ies_assoc_release_resp
  else if t =? msgt_session_est_req then Some ies_session_est_req
  else if t =? msgt_session_est_resp then Some ies_session_est_resp
  else if t =? msgt_session_mod_req then Some ies_session_mod_req
  else if t =? msgt_session_mod_resp then Some ies_session_mod_resp
  else if t =? msgt_session_del_req then Some []
  else if t =? msgt_session_del_resp then Some ies_session_del_resp
  else None.
Definition msg_table (t : N) : option (list (coding iev)) := option_map (map ptab) (get_msg_coding t).
