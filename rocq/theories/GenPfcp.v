(* GenPfcp.v -- the PFCP definitions that are the input of the generator: src/libosmo-pfcp/gen__pfcp_ies_auto.c, and the enumerators of
   include/osmocom/pfcp/pfcp_proto.h. Addresses (g_id) are arbitrary but distinct numbers; spec_ref is left out. *)
From Coq Require Import String Ascii.
From Verif Require Import Base GtlvModel DecEncModel IesModel TablesModel MemModel GenModel.
Local Open Scope string_scope.
Local Open Scope N_scope.

(* enum osmo_pfcp_message_type and enum osmo_pfcp_iei, pfcp_proto.h:30-335 *)
Definition pfcp_enums : list (string * N) :=
  [ ("OSMO_PFCP_MSGT_NONE", 0); ("OSMO_PFCP_MSGT_HEARTBEAT_REQ", 1); ("OSMO_PFCP_MSGT_HEARTBEAT_RESP", 2); ("OSMO_PFCP_MSGT_PFD_MGMT_REQ", 3);
    ("OSMO_PFCP_MSGT_PFD_MGMT_RESP", 4); ("OSMO_PFCP_MSGT_ASSOC_SETUP_REQ", 5); ("OSMO_PFCP_MSGT_ASSOC_SETUP_RESP", 6);
    ("OSMO_PFCP_MSGT_ASSOC_UPDATE_REQ", 7); ("OSMO_PFCP_MSGT_ASSOC_UPDATE_RESP", 8); ("OSMO_PFCP_MSGT_ASSOC_RELEASE_REQ", 9);
    ("OSMO_PFCP_MSGT_ASSOC_RELEASE_RESP", 10); ("OSMO_PFCP_MSGT_VERSION_NOT_SUPP_RESP", 11); ("OSMO_PFCP_MSGT_NODE_REPORT_REQ", 12);
    ("OSMO_PFCP_MSGT_NODE_REPORT_RESP", 13); ("OSMO_PFCP_MSGT_SESSION_SET_DEL_REQ", 14); ("OSMO_PFCP_MSGT_SESSION_SET_DEL_RESP", 15);
    ("OSMO_PFCP_MSGT_SESSION_EST_REQ", 50); ("OSMO_PFCP_MSGT_SESSION_EST_RESP", 51); ("OSMO_PFCP_MSGT_SESSION_MOD_REQ", 52);
    ("OSMO_PFCP_MSGT_SESSION_MOD_RESP", 53); ("OSMO_PFCP_MSGT_SESSION_DEL_REQ", 54); ("OSMO_PFCP_MSGT_SESSION_DEL_RESP", 55);
    ("OSMO_PFCP_MSGT_SESSION_REP_REQ", 56); ("OSMO_PFCP_MSGT_SESSION_REP_RESP", 57); ("OSMO_PFCP_INVALID_IEI", 0); ("OSMO_PFCP_IEI_CREATE_PDR", 1);
    ("OSMO_PFCP_IEI_PDI", 2); ("OSMO_PFCP_IEI_CREATE_FAR", 3); ("OSMO_PFCP_IEI_FORW_PARAMS", 4); ("OSMO_PFCP_IEI_DUPL_PARAMS", 5);
    ("OSMO_PFCP_IEI_CREATE_URR", 6); ("OSMO_PFCP_IEI_CREATE_QER", 7); ("OSMO_PFCP_IEI_CREATED_PDR", 8); ("OSMO_PFCP_IEI_UPD_PDR", 9);
    ("OSMO_PFCP_IEI_UPD_FAR", 10); ("OSMO_PFCP_IEI_UPD_FORW_PARAMS", 11); ("OSMO_PFCP_IEI_UPD_BAR_SESS_REP_RESP", 12); ("OSMO_PFCP_IEI_UPD_URR", 13);
    ("OSMO_PFCP_IEI_UPD_QER", 14); ("OSMO_PFCP_IEI_REMOVE_PDR", 15); ("OSMO_PFCP_IEI_REMOVE_FAR", 16); ("OSMO_PFCP_IEI_REMOVE_URR", 17);
    ("OSMO_PFCP_IEI_REMOVE_QER", 18); ("OSMO_PFCP_IEI_CAUSE", 19); ("OSMO_PFCP_IEI_SOURCE_IFACE", 20); ("OSMO_PFCP_IEI_F_TEID", 21);
    ("OSMO_PFCP_IEI_NETWORK_INST", 22); ("OSMO_PFCP_IEI_SDF_FILTER", 23); ("OSMO_PFCP_IEI_APPLICATION_ID", 24); ("OSMO_PFCP_IEI_GATE_STATUS", 25);
    ("OSMO_PFCP_IEI_MBR", 26); ("OSMO_PFCP_IEI_GBR", 27); ("OSMO_PFCP_IEI_QER_CORRELATION_ID", 28); ("OSMO_PFCP_IEI_PRECEDENCE", 29);
    ("OSMO_PFCP_IEI_TRANSPORT_LEVEL_MARKING", 30); ("OSMO_PFCP_IEI_VOLUME_THRESH", 31); ("OSMO_PFCP_IEI_TIME_THRESH", 32);
    ("OSMO_PFCP_IEI_MONITORING_TIME", 33); ("OSMO_PFCP_IEI_SUBSEQUENT_VOLUME_THRESH", 34); ("OSMO_PFCP_IEI_SUBSEQUENT_TIME_THRESH", 35);
    ("OSMO_PFCP_IEI_INACT_DETECTION_TIME", 36); ("OSMO_PFCP_IEI_REPORTING_TRIGGERS", 37); ("OSMO_PFCP_IEI_REDIRECT_INFO", 38);
    ("OSMO_PFCP_IEI_REP_TYPE", 39); ("OSMO_PFCP_IEI_OFFENDING_IE", 40); ("OSMO_PFCP_IEI_FORW_POLICY", 41); ("OSMO_PFCP_IEI_DESTINATION_IFACE", 42);
    ("OSMO_PFCP_IEI_UP_FUNCTION_FEATURES", 43); ("OSMO_PFCP_IEI_APPLY_ACTION", 44); ("OSMO_PFCP_IEI_DL_DATA_SERVICE_INFO", 45);
    ("OSMO_PFCP_IEI_DL_DATA_NOTIFICATION_DELAY", 46); ("OSMO_PFCP_IEI_DL_BUFF_DURATION", 47); ("OSMO_PFCP_IEI_DL_BUFF_SUGGESTED_PACKET_COUNT", 48);
    ("OSMO_PFCP_IEI_PFCPSMREQ_FLAGS", 49); ("OSMO_PFCP_IEI_PFCPSRRSP_FLAGS", 50); ("OSMO_PFCP_IEI_LOAD_CTRL_INFO", 51);
    ("OSMO_PFCP_IEI_SEQUENCE_NUMBER", 52); ("OSMO_PFCP_IEI_METRIC", 53); ("OSMO_PFCP_IEI_OVERLOAD_CTRL_INFO", 54); ("OSMO_PFCP_IEI_TIMER", 55);
    ("OSMO_PFCP_IEI_PDR_ID", 56); ("OSMO_PFCP_IEI_F_SEID", 57); ("OSMO_PFCP_IEI_APPLICATION_IDS_PFDS", 58); ("OSMO_PFCP_IEI_PFD_CONTEXT", 59);
    ("OSMO_PFCP_IEI_NODE_ID", 60); ("OSMO_PFCP_IEI_PFD_CONTENTS", 61); ("OSMO_PFCP_IEI_MEAS_METHOD", 62); ("OSMO_PFCP_IEI_USAGE_REP_TRIGGER", 63);
    ("OSMO_PFCP_IEI_MEAS_PERIOD", 64); ("OSMO_PFCP_IEI_FQ_CSID", 65); ("OSMO_PFCP_IEI_VOLUME_MEAS", 66); ("OSMO_PFCP_IEI_DURATION_MEAS", 67);
    ("OSMO_PFCP_IEI_APPLICATION_DETECTION_INFO", 68); ("OSMO_PFCP_IEI_TIME_OF_FIRST_PACKET", 69); ("OSMO_PFCP_IEI_TIME_OF_LAST_PACKET", 70);
    ("OSMO_PFCP_IEI_QUOTA_HOLDING_TIME", 71); ("OSMO_PFCP_IEI_DROPPED_DL_TRAFFIC_THRESH", 72); ("OSMO_PFCP_IEI_VOLUME_QUOTA", 73);
    ("OSMO_PFCP_IEI_TIME_QUOTA", 74); ("OSMO_PFCP_IEI_START_TIME", 75); ("OSMO_PFCP_IEI_END_TIME", 76); ("OSMO_PFCP_IEI_QUERY_URR", 77);
    ("OSMO_PFCP_IEI_USAGE_REP_SESS_MOD_RESP", 78); ("OSMO_PFCP_IEI_USAGE_REP_SESS_DEL_RESP", 79); ("OSMO_PFCP_IEI_USAGE_REP_SESS_REP_REQ", 80);
    ("OSMO_PFCP_IEI_URR_ID", 81); ("OSMO_PFCP_IEI_LINKED_URR_ID", 82); ("OSMO_PFCP_IEI_DL_DATA_REP", 83);
    ("OSMO_PFCP_IEI_OUTER_HEADER_CREATION", 84); ("OSMO_PFCP_IEI_CREATE_BAR", 85); ("OSMO_PFCP_IEI_UPD_BAR_SESS_MOD_REQ", 86);
    ("OSMO_PFCP_IEI_REMOVE_BAR", 87); ("OSMO_PFCP_IEI_BAR_ID", 88); ("OSMO_PFCP_IEI_CP_FUNCTION_FEATURES", 89); ("OSMO_PFCP_IEI_USAGE_INFO", 90);
    ("OSMO_PFCP_IEI_APPLICATION_INST_ID", 91); ("OSMO_PFCP_IEI_FLOW_INFO", 92); ("OSMO_PFCP_IEI_UE_IP_ADDRESS", 93);
    ("OSMO_PFCP_IEI_PACKET_RATE", 94); ("OSMO_PFCP_IEI_OUTER_HEADER_REMOVAL", 95); ("OSMO_PFCP_IEI_RECOVERY_TIME_STAMP", 96);
    ("OSMO_PFCP_IEI_DL_FLOW_LEVEL_MARKING", 97); ("OSMO_PFCP_IEI_HEADER_ENRICHMENT", 98); ("OSMO_PFCP_IEI_ERROR_IND_REP", 99);
    ("OSMO_PFCP_IEI_MEAS_INFO", 100); ("OSMO_PFCP_IEI_NODE_REP_TYPE", 101); ("OSMO_PFCP_IEI_USER_PLANE_PATH_FAILURE_REP", 102);
    ("OSMO_PFCP_IEI_REMOTE_GTP_U_PEER", 103); ("OSMO_PFCP_IEI_UR_SEQN", 104); ("OSMO_PFCP_IEI_UPD_DUPL_PARAMS", 105);
    ("OSMO_PFCP_IEI_ACTIVATE_PREDEFINED_RULES", 106); ("OSMO_PFCP_IEI_DEACTIVATE_PREDEFINED_RULES", 107); ("OSMO_PFCP_IEI_FAR_ID", 108);
    ("OSMO_PFCP_IEI_QER_ID", 109); ("OSMO_PFCP_IEI_OCI_FLAGS", 110); ("OSMO_PFCP_IEI_PFCP_ASSOC_RELEASE_REQ", 111);
    ("OSMO_PFCP_IEI_GRACEFUL_RELEASE_PERIOD", 112); ("OSMO_PFCP_IEI_PDN_TYPE", 113); ("OSMO_PFCP_IEI_FAILED_RULE_ID", 114);
    ("OSMO_PFCP_IEI_TIME_QUOTA_MECHANISM", 115); ("OSMO_PFCP_IEI_RESERVED", 116); ("OSMO_PFCP_IEI_USER_PLANE_INACT_TIMER", 117);
    ("OSMO_PFCP_IEI_AGGREGATED_URRS", 118); ("OSMO_PFCP_IEI_MULTIPLIER", 119); ("OSMO_PFCP_IEI_AGGREGATED_URR_ID", 120);
    ("OSMO_PFCP_IEI_SUBSEQUENT_VOLUME_QUOTA", 121); ("OSMO_PFCP_IEI_SUBSEQUENT_TIME_QUOTA", 122); ("OSMO_PFCP_IEI_RQI", 123);
    ("OSMO_PFCP_IEI_QFI", 124); ("OSMO_PFCP_IEI_QUERY_URR_REFERENCE", 125); ("OSMO_PFCP_IEI_ADDITIONAL_USAGE_REPS_INFO", 126);
    ("OSMO_PFCP_IEI_CREATE_TRAFFIC_ENDPOINT", 127); ("OSMO_PFCP_IEI_CREATED_TRAFFIC_ENDPOINT", 128); ("OSMO_PFCP_IEI_UPD_TRAFFIC_ENDPOINT", 129);
    ("OSMO_PFCP_IEI_REMOVE_TRAFFIC_ENDPOINT", 130); ("OSMO_PFCP_IEI_TRAFFIC_ENDPOINT_ID", 131); ("OSMO_PFCP_IEI_ETHERNET_PACKET_FILTER", 132);
    ("OSMO_PFCP_IEI_MAC_ADDRESS", 133); ("OSMO_PFCP_IEI_C_TAG", 134); ("OSMO_PFCP_IEI_S_TAG", 135); ("OSMO_PFCP_IEI_ETHERTYPE", 136);
    ("OSMO_PFCP_IEI_PROXYING", 137); ("OSMO_PFCP_IEI_ETHERNET_FILTER_ID", 138); ("OSMO_PFCP_IEI_ETHERNET_FILTER_PROPERTIES", 139);
    ("OSMO_PFCP_IEI_SUGGESTED_BUFF_PACKETS_COUNT", 140); ("OSMO_PFCP_IEI_USER_ID", 141); ("OSMO_PFCP_IEI_ETHERNET_PDU_SESS_INFO", 142);
    ("OSMO_PFCP_IEI_ETHERNET_TRAFFIC_INFO", 143); ("OSMO_PFCP_IEI_MAC_ADDRS_DETECTED", 144); ("OSMO_PFCP_IEI_MAC_ADDRS_REMOVED", 145);
    ("OSMO_PFCP_IEI_ETHERNET_INACT_TIMER", 146); ("OSMO_PFCP_IEI_ADDITIONAL_MONITORING_TIME", 147); ("OSMO_PFCP_IEI_EVENT_QUOTA", 148);
    ("OSMO_PFCP_IEI_EVENT_THRESH", 149); ("OSMO_PFCP_IEI_SUBSEQUENT_EVENT_QUOTA", 150); ("OSMO_PFCP_IEI_SUBSEQUENT_EVENT_THRESH", 151);
    ("OSMO_PFCP_IEI_TRACE_INFO", 152); ("OSMO_PFCP_IEI_FRAMED_ROUTE", 153); ("OSMO_PFCP_IEI_FRAMED_ROUTING", 154);
    ("OSMO_PFCP_IEI_FRAMED_IPV6_ROUTE", 155); ("OSMO_PFCP_IEI_TIME_STAMP", 156); ("OSMO_PFCP_IEI_AVERAGING_WINDOW", 157);
    ("OSMO_PFCP_IEI_PAGING_POLICY_INDICATOR", 158); ("OSMO_PFCP_IEI_APN_DNN", 159); ("OSMO_PFCP_IEI_3GPP_IFACE_TYPE", 160);
    ("OSMO_PFCP_IEI_PFCPSRREQ_FLAGS", 161); ("OSMO_PFCP_IEI_PFCPAUREQ_FLAGS", 162); ("OSMO_PFCP_IEI_ACTIVATION_TIME", 163);
    ("OSMO_PFCP_IEI_DEACTIVATION_TIME", 164); ("OSMO_PFCP_IEI_CREATE_MAR", 165); ("OSMO_PFCP_IEI_3GPP_ACCESS_FORW_ACTION_INFO", 166);
    ("OSMO_PFCP_IEI_NON_3GPP_ACCESS_FORW_ACTION_INFO", 167); ("OSMO_PFCP_IEI_REMOVE_MAR", 168); ("OSMO_PFCP_IEI_UPD_MAR", 169);
    ("OSMO_PFCP_IEI_MAR_ID", 170); ("OSMO_PFCP_IEI_STEERING_FUNCTIONALITY", 171); ("OSMO_PFCP_IEI_STEERING_MODE", 172);
    ("OSMO_PFCP_IEI_WEIGHT", 173); ("OSMO_PFCP_IEI_PRIORITY", 174); ("OSMO_PFCP_IEI_UPD_3GPP_ACCESS_FORW_ACTION_INFO", 175);
    ("OSMO_PFCP_IEI_UPD_NON_3GPP_ACCESS_FORW_ACTION_INFO", 176); ("OSMO_PFCP_IEI_UE_IP_ADDRESS_POOL_IDENTITY", 177);
    ("OSMO_PFCP_IEI_ALTERNATIVE_SMF_IP_ADDRESS", 178); ("OSMO_PFCP_IEI_PACKET_REPLICATION_AND_DETECTION_CARRY_ON_INFO", 179);
    ("OSMO_PFCP_IEI_SMF_SET_ID", 180); ("OSMO_PFCP_IEI_QUOTA_VALIDITY_TIME", 181); ("OSMO_PFCP_IEI_NUMBER_OF_REPS", 182);
    ("OSMO_PFCP_IEI_PFCP_SESS_RETENTION_INFO_IN_ASSOC_SETUP_REQ", 183); ("OSMO_PFCP_IEI_PFCPASRSP_FLAGS", 184);
    ("OSMO_PFCP_IEI_CP_ENTITY_IP_ADDRESS", 185); ("OSMO_PFCP_IEI_PFCPSEREQ_FLAGS", 186); ("OSMO_PFCP_IEI_USER_PLANE_PATH_RECOVERY_REP", 187);
    ("OSMO_PFCP_IEI_IP_MULTICAST_ADDR_INFO_IN_SESS_EST_REQ", 188); ("OSMO_PFCP_IEI_JOIN_IP_MULTICAST_INFO_IE_IN_USAGE_REP", 189);
    ("OSMO_PFCP_IEI_LEAVE_IP_MULTICAST_INFO_IE_IN_USAGE_REP", 190); ("OSMO_PFCP_IEI_IP_MULTICAST_ADDRESS", 191);
    ("OSMO_PFCP_IEI_SOURCE_IP_ADDRESS", 192); ("OSMO_PFCP_IEI_PACKET_RATE_STATUS", 193); ("OSMO_PFCP_IEI_CREATE_BRIDGE_INFO_FOR_TSC", 194);
    ("OSMO_PFCP_IEI_CREATED_BRIDGE_INFO_FOR_TSC", 195); ("OSMO_PFCP_IEI_DS_TT_PORT_NUMBER", 196); ("OSMO_PFCP_IEI_NW_TT_PORT_NUMBER", 197);
    ("OSMO_PFCP_IEI_TSN_BRIDGE_ID", 198); ("OSMO_PFCP_IEI_TSC_MGMT_INFO_IE_IN_SESS_MOD_REQ", 199);
    ("OSMO_PFCP_IEI_TSC_MGMT_INFO_IE_IN_SESS_MOD_RESP", 200); ("OSMO_PFCP_IEI_TSC_MGMT_INFO_IE_IN_SESS_REP_REQ", 201);
    ("OSMO_PFCP_IEI_PORT_MGMT_INFO_CONTAINER", 202); ("OSMO_PFCP_IEI_CLOCK_DRIFT_CTRL_INFO", 203); ("OSMO_PFCP_IEI_REQUESTED_CLOCK_DRIFT_INFO", 204);
    ("OSMO_PFCP_IEI_CLOCK_DRIFT_REP", 205); ("OSMO_PFCP_IEI_TSN_TIME_DOMAIN_NUMBER", 206); ("OSMO_PFCP_IEI_TIME_OFFSET_THRESH", 207);
    ("OSMO_PFCP_IEI_CUMULATIVE_RATERATIO_THRESH", 208); ("OSMO_PFCP_IEI_TIME_OFFSET_MEAS", 209); ("OSMO_PFCP_IEI_CUMULATIVE_RATERATIO_MEAS", 210);
    ("OSMO_PFCP_IEI_REMOVE_SRR", 211); ("OSMO_PFCP_IEI_CREATE_SRR", 212); ("OSMO_PFCP_IEI_UPD_SRR", 213); ("OSMO_PFCP_IEI_SESS_REP", 214);
    ("OSMO_PFCP_IEI_SRR_ID", 215); ("OSMO_PFCP_IEI_ACCESS_AVAIL_CTRL_INFO", 216); ("OSMO_PFCP_IEI_REQUESTED_ACCESS_AVAIL_INFO", 217);
    ("OSMO_PFCP_IEI_ACCESS_AVAIL_REP", 218); ("OSMO_PFCP_IEI_ACCESS_AVAIL_INFO", 219); ("OSMO_PFCP_IEI_PROVIDE_ATSSS_CTRL_INFO", 220);
    ("OSMO_PFCP_IEI_ATSSS_CTRL_PARAMS", 221); ("OSMO_PFCP_IEI_MPTCP_CTRL_INFO", 222); ("OSMO_PFCP_IEI_ATSSS_LL_CTRL_INFO", 223);
    ("OSMO_PFCP_IEI_PMF_CTRL_INFO", 224); ("OSMO_PFCP_IEI_MPTCP_PARAMS", 225); ("OSMO_PFCP_IEI_ATSSS_LL_PARAMS", 226);
    ("OSMO_PFCP_IEI_PMF_PARAMS", 227); ("OSMO_PFCP_IEI_MPTCP_ADDRESS_INFO", 228); ("OSMO_PFCP_IEI_UE_LINK_SPECIFIC_IP_ADDRESS", 229);
    ("OSMO_PFCP_IEI_PMF_ADDRESS_INFO", 230); ("OSMO_PFCP_IEI_ATSSS_LL_INFO", 231); ("OSMO_PFCP_IEI_DATA_NETWORK_ACCESS_IDENTIFIER", 232);
    ("OSMO_PFCP_IEI_UE_IP_ADDRESS_POOL_INFO", 233); ("OSMO_PFCP_IEI_AVERAGE_PACKET_DELAY", 234); ("OSMO_PFCP_IEI_MIN_PACKET_DELAY", 235);
    ("OSMO_PFCP_IEI_MAX_PACKET_DELAY", 236); ("OSMO_PFCP_IEI_QOS_REP_TRIGGER", 237); ("OSMO_PFCP_IEI_GTP_U_PATH_QOS_CTRL_INFO", 238);
    ("OSMO_PFCP_IEI_GTP_U_PATH_QOS_REP_NODE_REP_REQ", 239); ("OSMO_PFCP_IEI_QOS_INFO_IN_GTP_U_PATH_QOS_REP", 240);
    ("OSMO_PFCP_IEI_GTP_U_PATH_IFACE_TYPE", 241); ("OSMO_PFCP_IEI_QOS_MONITORING_PER_QOS_FLOW_CTRL_INFO", 242);
    ("OSMO_PFCP_IEI_REQUESTED_QOS_MONITORING", 243); ("OSMO_PFCP_IEI_REPORTING_FREQUENCY", 244); ("OSMO_PFCP_IEI_PACKET_DELAY_THRESHOLDS", 245);
    ("OSMO_PFCP_IEI_MIN_WAIT_TIME", 246); ("OSMO_PFCP_IEI_QOS_MONITORING_REP", 247); ("OSMO_PFCP_IEI_QOS_MONITORING_MEAS", 248);
    ("OSMO_PFCP_IEI_MT_EDT_CTRL_INFO", 249); ("OSMO_PFCP_IEI_DL_DATA_PACKETS_SIZE", 250); ("OSMO_PFCP_IEI_QER_CTRL_INDICATIONS", 251);
    ("OSMO_PFCP_IEI_PACKET_RATE_STATUS_REP", 252); ("OSMO_PFCP_IEI_NF_INST_ID", 253); ("OSMO_PFCP_IEI_ETHERNET_CONTEXT_INFO", 254);
    ("OSMO_PFCP_IEI_REDUNDANT_TRANSMISSION_PARAMS", 255); ("OSMO_PFCP_IEI_UPDATED_PDR", 256); ("OSMO_PFCP_IEI_S_NSSAI", 257);
    ("OSMO_PFCP_IEI_IP_VERSION", 258); ("OSMO_PFCP_IEI_PFCPASREQ_FLAGS", 259); ("OSMO_PFCP_IEI_DATA_STATUS", 260);
    ("OSMO_PFCP_IEI_PROVIDE_RDS_CONF_INFO", 261); ("OSMO_PFCP_IEI_RDS_CONF_INFO", 262);
    ("OSMO_PFCP_IEI_QUERY_PACKET_RATE_STATUS_IE_IN_SESS_MOD_REQ", 263); ("OSMO_PFCP_IEI_PACKET_RATE_STATUS_REP_IE_IN_SESS_MOD_RESP", 264);
    ("OSMO_PFCP_IEI_MPTCP_APPLICABLE_IND", 265); ("OSMO_PFCP_IEI_BRIDGE_MGMT_INFO_CONTAINER", 266); ("OSMO_PFCP_IEI_UE_IP_ADDRESS_USAGE_INFO", 267);
    ("OSMO_PFCP_IEI_NUMBER_OF_UE_IP_ADDRS", 268); ("OSMO_PFCP_IEI_VALIDITY_TIMER", 269); ("OSMO_PFCP_IEI_REDUNDANT_TRANSMISSION_FORW_PARAMS", 270);
    ("OSMO_PFCP_IEI_TRANSPORT_DELAY_REPORTING", 271) ].
Definition pfcp_ce (n : string) : option N := get n pfcp_enums.

(* a struct osmo_gtlv_gen_ie object: its address and contents *)
Definition gref : Type := gdef * option (list gie).
(* gtlv_gen.h:35-41 *)
Definition gO (r : gref) (n : string) : gie := GIe (mkGMod n true 0 0 None) (fst r) (snd r).
Definition gM (r : gref) (n : string) : gie := GIe (mkGMod n false 0 0 None) (fst r) (snd r).
Definition gO_MULTI (mx : N) (r : gref) (n : string) : gie := GIe (mkGMod n false mx 0 None) (fst r) (snd r).
Definition gM_MULTI (mx mand : N) (r : gref) (n : string) : gie := GIe (mkGMod n false mx mand None) (fst r) (snd r).
(* osmo_gtlv_gen_ie_auto, gtlv_gen.c:36 *)
Definition d_auto : gref := (mkGDef 0 None None None, None).

(* gen__pfcp_ies_auto.c:43-97, 114-118, 181-185 *)
Definition d_recovery_time_stamp : gref := (mkGDef 1 (Some "uint32_t") None (Some "32be"), None).
Definition d_cause : gref := (mkGDef 2 (Some "enum osmo_pfcp_cause") None None, None).
Definition d_offending_ie : gref := (mkGDef 3 (Some "enum osmo_pfcp_iei") None None, None).
Definition d_f_seid : gref := (mkGDef 4 None (Some "f_seid") None, None).
Definition d_pdr_id : gref := (mkGDef 5 (Some "uint16_t") None (Some "16be"), None).
Definition d_precedence : gref := (mkGDef 6 (Some "uint32_t") None (Some "32be"), None).
Definition d_source_iface : gref := (mkGDef 7 (Some "enum osmo_pfcp_source_iface") None None, None).
Definition d_f_teid : gref := (mkGDef 8 None (Some "f_teid") None, None).
Definition d_traffic_endpoint_id : gref := (mkGDef 9 (Some "uint8_t") (Some "traffic_endpoint_id") (Some "8"), None).
Definition d_iface_type : gref := (mkGDef 10 (Some "enum osmo_pfcp_3gpp_iface_type") (Some "3gpp_iface_type") None, None).
Definition d_far_id : gref := (mkGDef 11 (Some "uint32_t") None (Some "32be"), None).
Definition d_destination_iface : gref := (mkGDef 12 (Some "enum osmo_pfcp_dest_iface") None (Some "dest_iface"), None).

(* 99-112 *)
Definition d_pdi : gref := (mkGDef 20 None None None, Some
  [ gM d_source_iface "source_iface"; gO d_f_teid "local_f_teid"; gO d_auto "network_inst"; gO d_auto "ue_ip_address";
    gO d_traffic_endpoint_id "traffic_endpoint_id"; gO d_iface_type "source_iface_type" ]).
(* 120-133 *)
Definition d_create_pdr : gref := (mkGDef 21 None None None, Some
  [ gM d_pdr_id "pdr_id"; gM d_precedence "precedence"; gM d_pdi "pdi"; gO d_auto "outer_header_removal"; gO d_far_id "far_id";
    gO d_auto "activate_predefined_rules" ]).
(* 135-144 *)
Definition d_created_pdr : gref := (mkGDef 22 None None None, Some [ gM d_pdr_id "pdr_id"; gO d_f_teid "local_f_teid" ]).
(* 146-158 *)
Definition d_upd_pdr : gref := (mkGDef 23 None None None, Some
  [ gM d_pdr_id "pdr_id"; gO d_auto "outer_header_removal"; gO d_pdi "pdi"; gO d_far_id "far_id"; gO d_auto "activate_predefined_rules" ]).
(* 160-169 *)
Definition d_updated_pdr : gref := (mkGDef 24 None None None, Some [ gM d_pdr_id "pdr_id"; gO d_f_teid "local_f_teid" ]).
(* 171-179 *)
Definition d_remove_pdr : gref := (mkGDef 25 None None None, Some [ gM d_pdr_id "pdr_id" ]).
(* 187-199 *)
Definition d_forw_params : gref := (mkGDef 26 None None None, Some
  [ gM d_destination_iface "destination_iface"; gO d_auto "network_inst"; gO d_auto "outer_header_creation";
    gO d_traffic_endpoint_id "linked_te_id"; gO d_iface_type "destination_iface_type" ]).
(* 201-213 *)
Definition d_upd_forw_params : gref := (mkGDef 27 None None None, Some
  [ gO d_destination_iface "destination_iface"; gO d_auto "network_inst"; gO d_auto "outer_header_creation";
    gO d_traffic_endpoint_id "linked_te_id"; gO d_iface_type "destination_iface_type" ]).
(* 215-225 *)
Definition d_create_far : gref := (mkGDef 28 None None None, Some
  [ gM d_far_id "far_id"; gM d_auto "apply_action"; gO d_forw_params "forw_params" ]).
(* 227-235 *)
Definition d_remove_far : gref := (mkGDef 29 None None None, Some [ gM d_far_id "far_id" ]).
(* 237-247 *)
Definition d_upd_far : gref := (mkGDef 30 None None None, Some
  [ gM d_far_id "far_id"; gO d_auto "apply_action"; gO d_upd_forw_params "upd_forw_params" ]).

(* 249-348 *)
Definition pfcp_msgs : list gmsg := [
  ("heartbeat_req", [ gM d_recovery_time_stamp "recovery_time_stamp" ]);
  ("heartbeat_resp", [ gM d_recovery_time_stamp "recovery_time_stamp" ]);
  ("assoc_setup_req", [ gM d_auto "node_id"; gM d_recovery_time_stamp "recovery_time_stamp"; gO d_auto "up_function_features";
                        gO d_auto "cp_function_features" ]);
  ("assoc_setup_resp", [ gM d_auto "node_id"; gM d_cause "cause"; gM d_recovery_time_stamp "recovery_time_stamp";
                         gO d_auto "up_function_features"; gO d_auto "cp_function_features" ]);
  ("assoc_release_req", [ gM d_auto "node_id" ]);
  ("assoc_release_resp", [ gM d_auto "node_id"; gM d_cause "cause" ]);
  ("session_est_req", [ gM d_auto "node_id"; gO d_f_seid "cp_f_seid"; gM_MULTI 32 1 d_create_pdr "create_pdr"; gM_MULTI 32 1 d_create_far "create_far" ]);
  ("session_est_resp", [ gM d_auto "node_id"; gM d_cause "cause"; gO d_offending_ie "offending_ie"; gO d_f_seid "up_f_seid";
                         gO_MULTI 32 d_created_pdr "created_pdr" ]);
  ("session_mod_req", [ gO d_f_seid "cp_f_seid"; gO_MULTI 32 d_remove_pdr "remove_pdr"; gO_MULTI 32 d_remove_far "remove_far";
                        gO_MULTI 32 d_create_pdr "create_pdr"; gO_MULTI 32 d_create_far "create_far"; gO_MULTI 32 d_upd_pdr "upd_pdr";
                        gO_MULTI 32 d_upd_far "upd_far" ]);
  ("session_mod_resp", [ gM d_cause "cause"; gO d_offending_ie "offending_ie"; gO_MULTI 32 d_created_pdr "created_pdr";
                         gO_MULTI 32 d_updated_pdr "updated_pdr" ]);
  ("session_del_req", []);
  ("session_del_resp", [ gM d_cause "cause" ]) ].
(* main(), 350-366 *)
Definition pfcp_cfg : gcfg := mkGCfg "osmo_pfcp" "OSMO_PFCP_MSGT_" "OSMO_PFCP_IEI_" "struct osmo_pfcp_ie_" true.

(* which functions of pfcp_ies_custom.c are which IE kinds of IesModel.v, and the type to which they cast decode_to / encode_from (first
   line of osmo_pfcp_dec_*()) *)
Definition pfcp_funcs : list (string * (kind * string)) := [
  ("osmo_pfcp_dec_cause", (KCause, "enum osmo_pfcp_cause"));                       (* 125-127 *)
  ("osmo_pfcp_dec_offending_ie", (KOffendingIe, "enum osmo_pfcp_iei"));            (* 146-148 *)
  ("osmo_pfcp_dec_8", (K8, "uint8_t"));                                            (* 167-169 *)
  ("osmo_pfcp_dec_16be", (K16, "uint16_t"));                                       (* 188-190 *)
  ("osmo_pfcp_dec_32be", (K32, "uint32_t"));                                       (* 209-211 *)
  ("osmo_pfcp_dec_3gpp_iface_type", (K3gppIface, "enum osmo_pfcp_3gpp_iface_type")); (* 230-232 *)
  ("osmo_pfcp_dec_source_iface", (KSrcIface, "enum osmo_pfcp_source_iface"));      (* 251-253 *)
  ("osmo_pfcp_dec_dest_iface", (KDstIface, "enum osmo_pfcp_dest_iface"));          (* 272-274 *)
  ("osmo_pfcp_dec_node_id", (KNodeId, "struct osmo_pfcp_ie_node_id"));             (* 293-295 *)
  ("osmo_pfcp_dec_up_function_features", (KUpFF, "struct osmo_pfcp_ie_up_function_features"));  (* 431-433 *)
  ("osmo_pfcp_dec_cp_function_features", (KCpFF, "struct osmo_pfcp_ie_cp_function_features"));  (* 454-456 *)
  ("osmo_pfcp_dec_f_seid", (KFSeid, "struct osmo_pfcp_ie_f_seid"));  (* 476-478 *)
  ("osmo_pfcp_dec_f_teid", (KFTeid, "struct osmo_pfcp_ie_f_teid"));  (* 570-572 *)
  ("osmo_pfcp_dec_apply_action", (KApplyAction, "struct osmo_pfcp_ie_apply_action"));  (* 690-692 *)
  ("osmo_pfcp_dec_network_inst", (KNetInst, "struct osmo_pfcp_ie_network_inst"));  (* 713-715 *)
  ("osmo_pfcp_dec_outer_header_creation", (KOhc, "struct osmo_pfcp_ie_outer_header_creation"));  (* 741-743 *)
  ("osmo_pfcp_dec_activate_predefined_rules", (KActPredef, "struct osmo_pfcp_ie_activate_predefined_rules"));  (* 910-912 *)
  ("osmo_pfcp_dec_outer_header_removal", (KOhr, "struct osmo_pfcp_ie_outer_header_removal"));  (* 933-935 *)
  ("osmo_pfcp_dec_ue_ip_address", (KUeIp, "struct osmo_pfcp_ie_ue_ip_address")) ].  (* 969-971 *)
Definition kind_of (f : fns) : kind := match get (fn_dec f) pfcp_funcs with Some (k, _) => k | None => K8 end.
Definition type_of (f : fns) : option string := option_map snd (get (fn_dec f) pfcp_funcs).
(* the table of a message without its layout: as in TablesModel.v *)
Definition pfcp_leaf (f : fns) : leaf iev := leaf_of (kind_of f).

(* the types that the user's headers define for leaf IEs, and the types that the generator defines *)
Definition pfcp_leaf_types : list string := map (fun e => snd (snd e)) pfcp_funcs.
Definition pfcp_gen_types : list string :=
  map (fun n => "struct osmo_pfcp_ie_" ++ n)%string
    ["pdi"; "create_pdr"; "created_pdr"; "upd_pdr"; "updated_pdr"; "remove_pdr"; "forw_params"; "upd_forw_params"; "create_far"; "remove_far"; "upd_far"]
  ++ map (fun m : gmsg => msg_struct pfcp_cfg (fst m)) pfcp_msgs ++ [msg_union pfcp_cfg].
(* headers with the standard types, the types for leaf IEs, and none of the generated ones *)
Definition pfcp_env (te0 : tenv) : Prop :=
  (exists b, te0 "bool" = Some b /\ ty_size b = 1) /\ (exists u, te0 "unsigned int" = Some u /\ ty_size u = 4)
  /\ (forall T ty, te0 T = Some ty -> 0 < ty_align ty)
  /\ Forall (fun t => exists ty, te0 t = Some ty /\ 0 < ty_size ty) pfcp_leaf_types
  /\ Forall (fun t => te0 t = None) pfcp_gen_types.
