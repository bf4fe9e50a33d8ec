(* NamesModel.v -- the enumerations of include/osmocom/pfcp/pfcp_proto.h and the value_string tables of
   src/libosmo-pfcp/pfcp_strs.c, entry by entry, and get_value_string() of libosmocore *)
From Coq Require Import String Ascii.
From Verif Require Import Base IesModel StrModel.
Open Scope string_scope.
Open Scope list_scope.
Open Scope N_scope.

(* ---------------------------------------------------------------- C enumerations *)
(* An enumerator and its "= value", if there is one. Without, the value is that of the preceding enumerator plus one, and 0 for
   the first (C standard). *)
Definition enum := list (string * option N).
Fixpoint enum_from (next : N) (e : enum) : list (string * N) :=
  match e with
  | [] => []
  | (nm, v) :: e' => let x := match v with Some x => x | None => next end in (nm, x) :: enum_from (x + 1) e'
  end.
Definition enumerators (e : enum) : list (string * N) := enum_from 0 e.
(* the value of an enumerator; None: no such enumerator (does not compile) *)
Definition enum_val (e : enum) (nm : string) : option N := option_map snd (find (fun p => String.eqb (fst p) nm) (enumerators e)).

(* ---------------------------------------------------------------- struct value_string [], get_value_string() *)
(* the table as in the source: enumerator, text. The terminating { 0 } / {} is the end of the list. *)
Definition vstrs := list (string * string).
(* the array: value, text *)
Fixpoint vs_array (e : enum) (t : vstrs) : option (list (N * list N)) :=
  match t with
  | [] => Some []
  | (nm, s) :: t' => match enum_val e nm, vs_array e t' with Some v, Some r => Some ((v, str s) :: r) | _, _ => None end
  end.
(* get_value_string_or_null(), libosmocore utils.c: the text of the first entry with this value *)
Definition get_value_string_or_null (a : list (N * list N)) (val : N) : option (list N) :=
  option_map snd (find (fun p => fst p =? val) a).
(* get_value_string(), libosmocore utils.c: "unknown 0x%x" if there is none *)
Definition get_value_string (a : list (N * list N)) (val : N) : list N :=
  match get_value_string_or_null a val with Some s => s | None => str "unknown 0x" ++ pf_x val end.
(* the functions osmo_pfcp_*_str() of include/osmocom/pfcp/pfcp_strs.h:30-97; a table that does not compile has no names *)
Definition name_of (e : enum) (t : vstrs) (val : N) : list N :=
  match vs_array e t with Some a => get_value_string a val | None => [] end.

(* ---------------------------------------------------------------- enumerations *)
(* enum osmo_pfcp_message_type, pfcp_proto.h:30-59 *)
Definition e_message_type : enum :=
  [ ("OSMO_PFCP_MSGT_NONE", Some 0);
    ("OSMO_PFCP_MSGT_HEARTBEAT_REQ", Some 1);
    ("OSMO_PFCP_MSGT_HEARTBEAT_RESP", Some 2);
    ("OSMO_PFCP_MSGT_PFD_MGMT_REQ", Some 3);
    ("OSMO_PFCP_MSGT_PFD_MGMT_RESP", Some 4);
    ("OSMO_PFCP_MSGT_ASSOC_SETUP_REQ", Some 5);
    ("OSMO_PFCP_MSGT_ASSOC_SETUP_RESP", Some 6);
    ("OSMO_PFCP_MSGT_ASSOC_UPDATE_REQ", Some 7);
    ("OSMO_PFCP_MSGT_ASSOC_UPDATE_RESP", Some 8);
    ("OSMO_PFCP_MSGT_ASSOC_RELEASE_REQ", Some 9);
    ("OSMO_PFCP_MSGT_ASSOC_RELEASE_RESP", Some 10);
    ("OSMO_PFCP_MSGT_VERSION_NOT_SUPP_RESP", Some 11);
    ("OSMO_PFCP_MSGT_NODE_REPORT_REQ", Some 12);
    ("OSMO_PFCP_MSGT_NODE_REPORT_RESP", Some 13);
    ("OSMO_PFCP_MSGT_SESSION_SET_DEL_REQ", Some 14);
    ("OSMO_PFCP_MSGT_SESSION_SET_DEL_RESP", Some 15);
    ("OSMO_PFCP_MSGT_SESSION_EST_REQ", Some 50);
    ("OSMO_PFCP_MSGT_SESSION_EST_RESP", Some 51);
    ("OSMO_PFCP_MSGT_SESSION_MOD_REQ", Some 52);
    ("OSMO_PFCP_MSGT_SESSION_MOD_RESP", Some 53);
    ("OSMO_PFCP_MSGT_SESSION_DEL_REQ", Some 54);
    ("OSMO_PFCP_MSGT_SESSION_DEL_RESP", Some 55);
    ("OSMO_PFCP_MSGT_SESSION_REP_REQ", Some 56);
    ("OSMO_PFCP_MSGT_SESSION_REP_RESP", Some 57) ].

(* enum osmo_pfcp_iei, pfcp_proto.h:62-335 *)
Definition e_iei : enum :=
  [ ("OSMO_PFCP_INVALID_IEI", Some 0);
    ("OSMO_PFCP_IEI_CREATE_PDR", Some 1);
    ("OSMO_PFCP_IEI_PDI", Some 2);
    ("OSMO_PFCP_IEI_CREATE_FAR", Some 3);
    ("OSMO_PFCP_IEI_FORW_PARAMS", Some 4);
    ("OSMO_PFCP_IEI_DUPL_PARAMS", Some 5);
    ("OSMO_PFCP_IEI_CREATE_URR", Some 6);
    ("OSMO_PFCP_IEI_CREATE_QER", Some 7);
    ("OSMO_PFCP_IEI_CREATED_PDR", Some 8);
    ("OSMO_PFCP_IEI_UPD_PDR", Some 9);
    ("OSMO_PFCP_IEI_UPD_FAR", Some 10);
    ("OSMO_PFCP_IEI_UPD_FORW_PARAMS", Some 11);
    ("OSMO_PFCP_IEI_UPD_BAR_SESS_REP_RESP", Some 12);
    ("OSMO_PFCP_IEI_UPD_URR", Some 13);
    ("OSMO_PFCP_IEI_UPD_QER", Some 14);
    ("OSMO_PFCP_IEI_REMOVE_PDR", Some 15);
    ("OSMO_PFCP_IEI_REMOVE_FAR", Some 16);
    ("OSMO_PFCP_IEI_REMOVE_URR", Some 17);
    ("OSMO_PFCP_IEI_REMOVE_QER", Some 18);
    ("OSMO_PFCP_IEI_CAUSE", Some 19);
    ("OSMO_PFCP_IEI_SOURCE_IFACE", Some 20);
    ("OSMO_PFCP_IEI_F_TEID", Some 21);
    ("OSMO_PFCP_IEI_NETWORK_INST", Some 22);
    ("OSMO_PFCP_IEI_SDF_FILTER", Some 23);
    ("OSMO_PFCP_IEI_APPLICATION_ID", Some 24);
    ("OSMO_PFCP_IEI_GATE_STATUS", Some 25);
    ("OSMO_PFCP_IEI_MBR", Some 26);
    ("OSMO_PFCP_IEI_GBR", Some 27);
    ("OSMO_PFCP_IEI_QER_CORRELATION_ID", Some 28);
    ("OSMO_PFCP_IEI_PRECEDENCE", Some 29);
    ("OSMO_PFCP_IEI_TRANSPORT_LEVEL_MARKING", Some 30);
    ("OSMO_PFCP_IEI_VOLUME_THRESH", Some 31);
    ("OSMO_PFCP_IEI_TIME_THRESH", Some 32);
    ("OSMO_PFCP_IEI_MONITORING_TIME", Some 33);
    ("OSMO_PFCP_IEI_SUBSEQUENT_VOLUME_THRESH", Some 34);
    ("OSMO_PFCP_IEI_SUBSEQUENT_TIME_THRESH", Some 35);
    ("OSMO_PFCP_IEI_INACT_DETECTION_TIME", Some 36);
    ("OSMO_PFCP_IEI_REPORTING_TRIGGERS", Some 37);
    ("OSMO_PFCP_IEI_REDIRECT_INFO", Some 38);
    ("OSMO_PFCP_IEI_REP_TYPE", Some 39);
    ("OSMO_PFCP_IEI_OFFENDING_IE", Some 40);
    ("OSMO_PFCP_IEI_FORW_POLICY", Some 41);
    ("OSMO_PFCP_IEI_DESTINATION_IFACE", Some 42);
    ("OSMO_PFCP_IEI_UP_FUNCTION_FEATURES", Some 43);
    ("OSMO_PFCP_IEI_APPLY_ACTION", Some 44);
    ("OSMO_PFCP_IEI_DL_DATA_SERVICE_INFO", Some 45);
    ("OSMO_PFCP_IEI_DL_DATA_NOTIFICATION_DELAY", Some 46);
    ("OSMO_PFCP_IEI_DL_BUFF_DURATION", Some 47);
    ("OSMO_PFCP_IEI_DL_BUFF_SUGGESTED_PACKET_COUNT", Some 48);
    ("OSMO_PFCP_IEI_PFCPSMREQ_FLAGS", Some 49);
    ("OSMO_PFCP_IEI_PFCPSRRSP_FLAGS", Some 50);
    ("OSMO_PFCP_IEI_LOAD_CTRL_INFO", Some 51);
    ("OSMO_PFCP_IEI_SEQUENCE_NUMBER", Some 52);
    ("OSMO_PFCP_IEI_METRIC", Some 53);
    ("OSMO_PFCP_IEI_OVERLOAD_CTRL_INFO", Some 54);
    ("OSMO_PFCP_IEI_TIMER", Some 55);
    ("OSMO_PFCP_IEI_PDR_ID", Some 56);
    ("OSMO_PFCP_IEI_F_SEID", Some 57);
    ("OSMO_PFCP_IEI_APPLICATION_IDS_PFDS", Some 58);
    ("OSMO_PFCP_IEI_PFD_CONTEXT", Some 59);
    ("OSMO_PFCP_IEI_NODE_ID", Some 60);
    ("OSMO_PFCP_IEI_PFD_CONTENTS", Some 61);
    ("OSMO_PFCP_IEI_MEAS_METHOD", Some 62);
    ("OSMO_PFCP_IEI_USAGE_REP_TRIGGER", Some 63);
    ("OSMO_PFCP_IEI_MEAS_PERIOD", Some 64);
    ("OSMO_PFCP_IEI_FQ_CSID", Some 65);
    ("OSMO_PFCP_IEI_VOLUME_MEAS", Some 66);
    ("OSMO_PFCP_IEI_DURATION_MEAS", Some 67);
    ("OSMO_PFCP_IEI_APPLICATION_DETECTION_INFO", Some 68);
    ("OSMO_PFCP_IEI_TIME_OF_FIRST_PACKET", Some 69);
    ("OSMO_PFCP_IEI_TIME_OF_LAST_PACKET", Some 70);
    ("OSMO_PFCP_IEI_QUOTA_HOLDING_TIME", Some 71);
    ("OSMO_PFCP_IEI_DROPPED_DL_TRAFFIC_THRESH", Some 72);
    ("OSMO_PFCP_IEI_VOLUME_QUOTA", Some 73);
    ("OSMO_PFCP_IEI_TIME_QUOTA", Some 74);
    ("OSMO_PFCP_IEI_START_TIME", Some 75);
    ("OSMO_PFCP_IEI_END_TIME", Some 76);
    ("OSMO_PFCP_IEI_QUERY_URR", Some 77);
    ("OSMO_PFCP_IEI_USAGE_REP_SESS_MOD_RESP", Some 78);
    ("OSMO_PFCP_IEI_USAGE_REP_SESS_DEL_RESP", Some 79);
    ("OSMO_PFCP_IEI_USAGE_REP_SESS_REP_REQ", Some 80);
    ("OSMO_PFCP_IEI_URR_ID", Some 81);
    ("OSMO_PFCP_IEI_LINKED_URR_ID", Some 82);
    ("OSMO_PFCP_IEI_DL_DATA_REP", Some 83);
    ("OSMO_PFCP_IEI_OUTER_HEADER_CREATION", Some 84);
    ("OSMO_PFCP_IEI_CREATE_BAR", Some 85);
    ("OSMO_PFCP_IEI_UPD_BAR_SESS_MOD_REQ", Some 86);
    ("OSMO_PFCP_IEI_REMOVE_BAR", Some 87);
    ("OSMO_PFCP_IEI_BAR_ID", Some 88);
    ("OSMO_PFCP_IEI_CP_FUNCTION_FEATURES", Some 89);
    ("OSMO_PFCP_IEI_USAGE_INFO", Some 90);
    ("OSMO_PFCP_IEI_APPLICATION_INST_ID", Some 91);
    ("OSMO_PFCP_IEI_FLOW_INFO", Some 92);
    ("OSMO_PFCP_IEI_UE_IP_ADDRESS", Some 93);
    ("OSMO_PFCP_IEI_PACKET_RATE", Some 94);
    ("OSMO_PFCP_IEI_OUTER_HEADER_REMOVAL", Some 95);
    ("OSMO_PFCP_IEI_RECOVERY_TIME_STAMP", Some 96);
    ("OSMO_PFCP_IEI_DL_FLOW_LEVEL_MARKING", Some 97);
    ("OSMO_PFCP_IEI_HEADER_ENRICHMENT", Some 98);
    ("OSMO_PFCP_IEI_ERROR_IND_REP", Some 99);
    ("OSMO_PFCP_IEI_MEAS_INFO", Some 100);
    ("OSMO_PFCP_IEI_NODE_REP_TYPE", Some 101);
    ("OSMO_PFCP_IEI_USER_PLANE_PATH_FAILURE_REP", Some 102);
    ("OSMO_PFCP_IEI_REMOTE_GTP_U_PEER", Some 103);
    ("OSMO_PFCP_IEI_UR_SEQN", Some 104);
    ("OSMO_PFCP_IEI_UPD_DUPL_PARAMS", Some 105);
    ("OSMO_PFCP_IEI_ACTIVATE_PREDEFINED_RULES", Some 106);
    ("OSMO_PFCP_IEI_DEACTIVATE_PREDEFINED_RULES", Some 107);
    ("OSMO_PFCP_IEI_FAR_ID", Some 108);
    ("OSMO_PFCP_IEI_QER_ID", Some 109);
    ("OSMO_PFCP_IEI_OCI_FLAGS", Some 110);
    ("OSMO_PFCP_IEI_PFCP_ASSOC_RELEASE_REQ", Some 111);
    ("OSMO_PFCP_IEI_GRACEFUL_RELEASE_PERIOD", Some 112);
    ("OSMO_PFCP_IEI_PDN_TYPE", Some 113);
    ("OSMO_PFCP_IEI_FAILED_RULE_ID", Some 114);
    ("OSMO_PFCP_IEI_TIME_QUOTA_MECHANISM", Some 115);
    ("OSMO_PFCP_IEI_RESERVED", Some 116);
    ("OSMO_PFCP_IEI_USER_PLANE_INACT_TIMER", Some 117);
    ("OSMO_PFCP_IEI_AGGREGATED_URRS", Some 118);
    ("OSMO_PFCP_IEI_MULTIPLIER", Some 119);
    ("OSMO_PFCP_IEI_AGGREGATED_URR_ID", Some 120);
    ("OSMO_PFCP_IEI_SUBSEQUENT_VOLUME_QUOTA", Some 121);
    ("OSMO_PFCP_IEI_SUBSEQUENT_TIME_QUOTA", Some 122);
    ("OSMO_PFCP_IEI_RQI", Some 123);
    ("OSMO_PFCP_IEI_QFI", Some 124);
    ("OSMO_PFCP_IEI_QUERY_URR_REFERENCE", Some 125);
    ("OSMO_PFCP_IEI_ADDITIONAL_USAGE_REPS_INFO", Some 126);
    ("OSMO_PFCP_IEI_CREATE_TRAFFIC_ENDPOINT", Some 127);
    ("OSMO_PFCP_IEI_CREATED_TRAFFIC_ENDPOINT", Some 128);
    ("OSMO_PFCP_IEI_UPD_TRAFFIC_ENDPOINT", Some 129);
    ("OSMO_PFCP_IEI_REMOVE_TRAFFIC_ENDPOINT", Some 130);
    ("OSMO_PFCP_IEI_TRAFFIC_ENDPOINT_ID", Some 131);
    ("OSMO_PFCP_IEI_ETHERNET_PACKET_FILTER", Some 132);
    ("OSMO_PFCP_IEI_MAC_ADDRESS", Some 133);
    ("OSMO_PFCP_IEI_C_TAG", Some 134);
    ("OSMO_PFCP_IEI_S_TAG", Some 135);
    ("OSMO_PFCP_IEI_ETHERTYPE", Some 136);
    ("OSMO_PFCP_IEI_PROXYING", Some 137);
    ("OSMO_PFCP_IEI_ETHERNET_FILTER_ID", Some 138);
    ("OSMO_PFCP_IEI_ETHERNET_FILTER_PROPERTIES", Some 139);
    ("OSMO_PFCP_IEI_SUGGESTED_BUFF_PACKETS_COUNT", Some 140);
    ("OSMO_PFCP_IEI_USER_ID", Some 141);
    ("OSMO_PFCP_IEI_ETHERNET_PDU_SESS_INFO", Some 142);
    ("OSMO_PFCP_IEI_ETHERNET_TRAFFIC_INFO", Some 143);
    ("OSMO_PFCP_IEI_MAC_ADDRS_DETECTED", Some 144);
    ("OSMO_PFCP_IEI_MAC_ADDRS_REMOVED", Some 145);
    ("OSMO_PFCP_IEI_ETHERNET_INACT_TIMER", Some 146);
    ("OSMO_PFCP_IEI_ADDITIONAL_MONITORING_TIME", Some 147);
    ("OSMO_PFCP_IEI_EVENT_QUOTA", Some 148);
    ("OSMO_PFCP_IEI_EVENT_THRESH", Some 149);
    ("OSMO_PFCP_IEI_SUBSEQUENT_EVENT_QUOTA", Some 150);
    ("OSMO_PFCP_IEI_SUBSEQUENT_EVENT_THRESH", Some 151);
    ("OSMO_PFCP_IEI_TRACE_INFO", Some 152);
    ("OSMO_PFCP_IEI_FRAMED_ROUTE", Some 153);
    ("OSMO_PFCP_IEI_FRAMED_ROUTING", Some 154);
    ("OSMO_PFCP_IEI_FRAMED_IPV6_ROUTE", Some 155);
    ("OSMO_PFCP_IEI_TIME_STAMP", Some 156);
    ("OSMO_PFCP_IEI_AVERAGING_WINDOW", Some 157);
    ("OSMO_PFCP_IEI_PAGING_POLICY_INDICATOR", Some 158);
    ("OSMO_PFCP_IEI_APN_DNN", Some 159);
    ("OSMO_PFCP_IEI_3GPP_IFACE_TYPE", Some 160);
    ("OSMO_PFCP_IEI_PFCPSRREQ_FLAGS", Some 161);
    ("OSMO_PFCP_IEI_PFCPAUREQ_FLAGS", Some 162);
    ("OSMO_PFCP_IEI_ACTIVATION_TIME", Some 163);
    ("OSMO_PFCP_IEI_DEACTIVATION_TIME", Some 164);
    ("OSMO_PFCP_IEI_CREATE_MAR", Some 165);
    ("OSMO_PFCP_IEI_3GPP_ACCESS_FORW_ACTION_INFO", Some 166);
    ("OSMO_PFCP_IEI_NON_3GPP_ACCESS_FORW_ACTION_INFO", Some 167);
    ("OSMO_PFCP_IEI_REMOVE_MAR", Some 168);
    ("OSMO_PFCP_IEI_UPD_MAR", Some 169);
    ("OSMO_PFCP_IEI_MAR_ID", Some 170);
    ("OSMO_PFCP_IEI_STEERING_FUNCTIONALITY", Some 171);
    ("OSMO_PFCP_IEI_STEERING_MODE", Some 172);
    ("OSMO_PFCP_IEI_WEIGHT", Some 173);
    ("OSMO_PFCP_IEI_PRIORITY", Some 174);
    ("OSMO_PFCP_IEI_UPD_3GPP_ACCESS_FORW_ACTION_INFO", Some 175);
    ("OSMO_PFCP_IEI_UPD_NON_3GPP_ACCESS_FORW_ACTION_INFO", Some 176);
    ("OSMO_PFCP_IEI_UE_IP_ADDRESS_POOL_IDENTITY", Some 177);
    ("OSMO_PFCP_IEI_ALTERNATIVE_SMF_IP_ADDRESS", Some 178);
    ("OSMO_PFCP_IEI_PACKET_REPLICATION_AND_DETECTION_CARRY_ON_INFO", Some 179);
    ("OSMO_PFCP_IEI_SMF_SET_ID", Some 180);
    ("OSMO_PFCP_IEI_QUOTA_VALIDITY_TIME", Some 181);
    ("OSMO_PFCP_IEI_NUMBER_OF_REPS", Some 182);
    ("OSMO_PFCP_IEI_PFCP_SESS_RETENTION_INFO_IN_ASSOC_SETUP_REQ", Some 183);
    ("OSMO_PFCP_IEI_PFCPASRSP_FLAGS", Some 184);
    ("OSMO_PFCP_IEI_CP_ENTITY_IP_ADDRESS", Some 185);
    ("OSMO_PFCP_IEI_PFCPSEREQ_FLAGS", Some 186);
    ("OSMO_PFCP_IEI_USER_PLANE_PATH_RECOVERY_REP", Some 187);
    ("OSMO_PFCP_IEI_IP_MULTICAST_ADDR_INFO_IN_SESS_EST_REQ", Some 188);
    ("OSMO_PFCP_IEI_JOIN_IP_MULTICAST_INFO_IE_IN_USAGE_REP", Some 189);
    ("OSMO_PFCP_IEI_LEAVE_IP_MULTICAST_INFO_IE_IN_USAGE_REP", Some 190);
    ("OSMO_PFCP_IEI_IP_MULTICAST_ADDRESS", Some 191);
    ("OSMO_PFCP_IEI_SOURCE_IP_ADDRESS", Some 192);
    ("OSMO_PFCP_IEI_PACKET_RATE_STATUS", Some 193);
    ("OSMO_PFCP_IEI_CREATE_BRIDGE_INFO_FOR_TSC", Some 194);
    ("OSMO_PFCP_IEI_CREATED_BRIDGE_INFO_FOR_TSC", Some 195);
    ("OSMO_PFCP_IEI_DS_TT_PORT_NUMBER", Some 196);
    ("OSMO_PFCP_IEI_NW_TT_PORT_NUMBER", Some 197);
    ("OSMO_PFCP_IEI_TSN_BRIDGE_ID", Some 198);
    ("OSMO_PFCP_IEI_TSC_MGMT_INFO_IE_IN_SESS_MOD_REQ", Some 199);
    ("OSMO_PFCP_IEI_TSC_MGMT_INFO_IE_IN_SESS_MOD_RESP", Some 200);
    ("OSMO_PFCP_IEI_TSC_MGMT_INFO_IE_IN_SESS_REP_REQ", Some 201);
    ("OSMO_PFCP_IEI_PORT_MGMT_INFO_CONTAINER", Some 202);
    ("OSMO_PFCP_IEI_CLOCK_DRIFT_CTRL_INFO", Some 203);
    ("OSMO_PFCP_IEI_REQUESTED_CLOCK_DRIFT_INFO", Some 204);
    ("OSMO_PFCP_IEI_CLOCK_DRIFT_REP", Some 205);
    ("OSMO_PFCP_IEI_TSN_TIME_DOMAIN_NUMBER", Some 206);
    ("OSMO_PFCP_IEI_TIME_OFFSET_THRESH", Some 207);
    ("OSMO_PFCP_IEI_CUMULATIVE_RATERATIO_THRESH", Some 208);
    ("OSMO_PFCP_IEI_TIME_OFFSET_MEAS", Some 209);
    ("OSMO_PFCP_IEI_CUMULATIVE_RATERATIO_MEAS", Some 210);
    ("OSMO_PFCP_IEI_REMOVE_SRR", Some 211);
    ("OSMO_PFCP_IEI_CREATE_SRR", Some 212);
    ("OSMO_PFCP_IEI_UPD_SRR", Some 213);
    ("OSMO_PFCP_IEI_SESS_REP", Some 214);
    ("OSMO_PFCP_IEI_SRR_ID", Some 215);
    ("OSMO_PFCP_IEI_ACCESS_AVAIL_CTRL_INFO", Some 216);
    ("OSMO_PFCP_IEI_REQUESTED_ACCESS_AVAIL_INFO", Some 217);
    ("OSMO_PFCP_IEI_ACCESS_AVAIL_REP", Some 218);
    ("OSMO_PFCP_IEI_ACCESS_AVAIL_INFO", Some 219);
    ("OSMO_PFCP_IEI_PROVIDE_ATSSS_CTRL_INFO", Some 220);
    ("OSMO_PFCP_IEI_ATSSS_CTRL_PARAMS", Some 221);
    ("OSMO_PFCP_IEI_MPTCP_CTRL_INFO", Some 222);
    ("OSMO_PFCP_IEI_ATSSS_LL_CTRL_INFO", Some 223);
    ("OSMO_PFCP_IEI_PMF_CTRL_INFO", Some 224);
    ("OSMO_PFCP_IEI_MPTCP_PARAMS", Some 225);
    ("OSMO_PFCP_IEI_ATSSS_LL_PARAMS", Some 226);
    ("OSMO_PFCP_IEI_PMF_PARAMS", Some 227);
    ("OSMO_PFCP_IEI_MPTCP_ADDRESS_INFO", Some 228);
    ("OSMO_PFCP_IEI_UE_LINK_SPECIFIC_IP_ADDRESS", Some 229);
    ("OSMO_PFCP_IEI_PMF_ADDRESS_INFO", Some 230);
    ("OSMO_PFCP_IEI_ATSSS_LL_INFO", Some 231);
    ("OSMO_PFCP_IEI_DATA_NETWORK_ACCESS_IDENTIFIER", Some 232);
    ("OSMO_PFCP_IEI_UE_IP_ADDRESS_POOL_INFO", Some 233);
    ("OSMO_PFCP_IEI_AVERAGE_PACKET_DELAY", Some 234);
    ("OSMO_PFCP_IEI_MIN_PACKET_DELAY", Some 235);
    ("OSMO_PFCP_IEI_MAX_PACKET_DELAY", Some 236);
    ("OSMO_PFCP_IEI_QOS_REP_TRIGGER", Some 237);
    ("OSMO_PFCP_IEI_GTP_U_PATH_QOS_CTRL_INFO", Some 238);
    ("OSMO_PFCP_IEI_GTP_U_PATH_QOS_REP_NODE_REP_REQ", Some 239);
    ("OSMO_PFCP_IEI_QOS_INFO_IN_GTP_U_PATH_QOS_REP", Some 240);
    ("OSMO_PFCP_IEI_GTP_U_PATH_IFACE_TYPE", Some 241);
    ("OSMO_PFCP_IEI_QOS_MONITORING_PER_QOS_FLOW_CTRL_INFO", Some 242);
    ("OSMO_PFCP_IEI_REQUESTED_QOS_MONITORING", Some 243);
    ("OSMO_PFCP_IEI_REPORTING_FREQUENCY", Some 244);
    ("OSMO_PFCP_IEI_PACKET_DELAY_THRESHOLDS", Some 245);
    ("OSMO_PFCP_IEI_MIN_WAIT_TIME", Some 246);
    ("OSMO_PFCP_IEI_QOS_MONITORING_REP", Some 247);
    ("OSMO_PFCP_IEI_QOS_MONITORING_MEAS", Some 248);
    ("OSMO_PFCP_IEI_MT_EDT_CTRL_INFO", Some 249);
    ("OSMO_PFCP_IEI_DL_DATA_PACKETS_SIZE", Some 250);
    ("OSMO_PFCP_IEI_QER_CTRL_INDICATIONS", Some 251);
    ("OSMO_PFCP_IEI_PACKET_RATE_STATUS_REP", Some 252);
    ("OSMO_PFCP_IEI_NF_INST_ID", Some 253);
    ("OSMO_PFCP_IEI_ETHERNET_CONTEXT_INFO", Some 254);
    ("OSMO_PFCP_IEI_REDUNDANT_TRANSMISSION_PARAMS", Some 255);
    ("OSMO_PFCP_IEI_UPDATED_PDR", Some 256);
    ("OSMO_PFCP_IEI_S_NSSAI", Some 257);
    ("OSMO_PFCP_IEI_IP_VERSION", Some 258);
    ("OSMO_PFCP_IEI_PFCPASREQ_FLAGS", Some 259);
    ("OSMO_PFCP_IEI_DATA_STATUS", Some 260);
    ("OSMO_PFCP_IEI_PROVIDE_RDS_CONF_INFO", Some 261);
    ("OSMO_PFCP_IEI_RDS_CONF_INFO", Some 262);
    ("OSMO_PFCP_IEI_QUERY_PACKET_RATE_STATUS_IE_IN_SESS_MOD_REQ", Some 263);
    ("OSMO_PFCP_IEI_PACKET_RATE_STATUS_REP_IE_IN_SESS_MOD_RESP", Some 264);
    ("OSMO_PFCP_IEI_MPTCP_APPLICABLE_IND", Some 265);
    ("OSMO_PFCP_IEI_BRIDGE_MGMT_INFO_CONTAINER", Some 266);
    ("OSMO_PFCP_IEI_UE_IP_ADDRESS_USAGE_INFO", Some 267);
    ("OSMO_PFCP_IEI_NUMBER_OF_UE_IP_ADDRS", Some 268);
    ("OSMO_PFCP_IEI_VALIDITY_TIMER", Some 269);
    ("OSMO_PFCP_IEI_REDUNDANT_TRANSMISSION_FORW_PARAMS", Some 270);
    ("OSMO_PFCP_IEI_TRANSPORT_DELAY_REPORTING", Some 271) ].

(* enum osmo_pfcp_cause, pfcp_proto.h:338-358 *)
Definition e_cause : enum :=
  [ ("OSMO_PFCP_CAUSE_RESERVED", Some 0);
    ("OSMO_PFCP_CAUSE_REQUEST_ACCEPTED", Some 1);
    ("OSMO_PFCP_CAUSE_MORE_USAGE_REPORT_TO_SEND", Some 2);
    ("OSMO_PFCP_CAUSE_REQUEST_REJECTED", Some 64);
    ("OSMO_PFCP_CAUSE_SESSION_CTX_NOT_FOUND", Some 65);
    ("OSMO_PFCP_CAUSE_MANDATORY_IE_MISSING", Some 66);
    ("OSMO_PFCP_CAUSE_CONDITIONAL_IE_MISSING", Some 67);
    ("OSMO_PFCP_CAUSE_INVALID_LENGTH", Some 68);
    ("OSMO_PFCP_CAUSE_MANDATORY_IE_INCORRECT", Some 69);
    ("OSMO_PFCP_CAUSE_INVALID_FORW_POLICY", Some 70);
    ("OSMO_PFCP_CAUSE_INVALID_F_TEID_ALLOC_OPTION", Some 71);
    ("OSMO_PFCP_CAUSE_NO_ESTABLISHED_PFCP_ASSOC", Some 72);
    ("OSMO_PFCP_CAUSE_RULE_CREATION_MOD_FAILURE", Some 73);
    ("OSMO_PFCP_CAUSE_PFCP_ENTITY_IN_CONGESTION", Some 74);
    ("OSMO_PFCP_CAUSE_NO_RESOURCES_AVAILABLE", Some 75);
    ("OSMO_PFCP_CAUSE_SERVICE_NOT_SUPPORTED", Some 76);
    ("OSMO_PFCP_CAUSE_SYSTEM_FAILURE", Some 77);
    ("OSMO_PFCP_CAUSE_REDIRECTION_REQUESTED", Some 78);
    ("OSMO_PFCP_CAUSE_ALL_DYNAMIC_ADDRESSES_ARE_OCCUPIED", Some 79) ].

(* enum osmo_pfcp_node_id_type, pfcp_proto.h:361-365 *)
Definition e_node_id_type : enum :=
  [ ("OSMO_PFCP_NODE_ID_T_IPV4", Some 0);
    ("OSMO_PFCP_NODE_ID_T_IPV6", Some 1);
    ("OSMO_PFCP_NODE_ID_T_FQDN", Some 2) ].

(* enum osmo_pfcp_3gpp_iface_type, pfcp_proto.h:367-389 *)
Definition e_3gpp_iface_type : enum :=
  [ ("OSMO_PFCP_3GPP_IFACE_TYPE_S1_U", Some 0);
    ("OSMO_PFCP_3GPP_IFACE_TYPE_S5_S8_U", Some 1);
    ("OSMO_PFCP_3GPP_IFACE_TYPE_S4_U", Some 2);
    ("OSMO_PFCP_3GPP_IFACE_TYPE_S11_U", Some 3);
    ("OSMO_PFCP_3GPP_IFACE_TYPE_S12_U", Some 4);
    ("OSMO_PFCP_3GPP_IFACE_TYPE_GN_GP_U", Some 5);
    ("OSMO_PFCP_3GPP_IFACE_TYPE_S2A_U", Some 6);
    ("OSMO_PFCP_3GPP_IFACE_TYPE_S2B_U", Some 7);
    ("OSMO_PFCP_3GPP_IFACE_TYPE_ENODEB_GTP_U_INTERFACE_FOR_DL_DATA_FORWARDING", Some 8);
    ("OSMO_PFCP_3GPP_IFACE_TYPE_ENODEB_GTP_U_INTERFACE_FOR_UL_DATA_FORWARDING", Some 9);
    ("OSMO_PFCP_3GPP_IFACE_TYPE_SGW_UPF_GTP_U_INTERFACE_FOR_DL_DATA_FORWARDING", Some 10);
    ("OSMO_PFCP_3GPP_IFACE_TYPE_N3_3GPP_ACCESS", Some 11);
    ("OSMO_PFCP_3GPP_IFACE_TYPE_N3_TRUSTED_NON_3GPP_ACCESS", Some 12);
    ("OSMO_PFCP_3GPP_IFACE_TYPE_N3_UNTRUSTED_NON_3GPP_ACCESS", Some 13);
    ("OSMO_PFCP_3GPP_IFACE_TYPE_N3_FOR_DATA_FORWARDING", Some 14);
    ("OSMO_PFCP_3GPP_IFACE_TYPE_N9", Some 15);
    ("OSMO_PFCP_3GPP_IFACE_TYPE_SGI", Some 16);
    ("OSMO_PFCP_3GPP_IFACE_TYPE_N6", Some 17);
    ("OSMO_PFCP_3GPP_IFACE_TYPE_N19", Some 18);
    ("OSMO_PFCP_3GPP_IFACE_TYPE_S8_U", Some 19);
    ("OSMO_PFCP_3GPP_IFACE_TYPE_GP_U", Some 20) ].

(* enum osmo_pfcp_source_iface, pfcp_proto.h:391-397 *)
Definition e_source_iface : enum :=
  [ ("OSMO_PFCP_SOURCE_IFACE_ACCESS", Some 0);
    ("OSMO_PFCP_SOURCE_IFACE_CORE", Some 1);
    ("OSMO_PFCP_SOURCE_IFACE_SGI_LAN_N6_LAN", Some 2);
    ("OSMO_PFCP_SOURCE_IFACE_CP_FUNCTION", Some 3);
    ("OSMO_PFCP_SOURCE_IFACE_5G_VN_INTERNAL", Some 4) ].

(* enum osmo_pfcp_dest_iface, pfcp_proto.h:399-406 *)
Definition e_dest_iface : enum :=
  [ ("OSMO_PFCP_DEST_IFACE_ACCESS", Some 0);
    ("OSMO_PFCP_DEST_IFACE_CORE", Some 1);
    ("OSMO_PFCP_DEST_IFACE_SGI_LAN_N6_LAN", Some 2);
    ("OSMO_PFCP_DEST_IFACE_CP_FUNCTION", Some 3);
    ("OSMO_PFCP_DEST_IFACE_LI_FUNCTION", Some 4);
    ("OSMO_PFCP_DEST_IFACE_5G_VN_INTERNAL", Some 5) ].

(* enum osmo_pfcp_up_feature, pfcp_proto.h:415-456 *)
Definition e_up_feature : enum :=
  [ ("OSMO_PFCP_UP_FEAT_BUCP", Some 0);
    ("OSMO_PFCP_UP_FEAT_DDND", None);
    ("OSMO_PFCP_UP_FEAT_DLBD", None);
    ("OSMO_PFCP_UP_FEAT_TRST", None);
    ("OSMO_PFCP_UP_FEAT_FTUP", None);
    ("OSMO_PFCP_UP_FEAT_PFDM", None);
    ("OSMO_PFCP_UP_FEAT_HEEU", None);
    ("OSMO_PFCP_UP_FEAT_TREU", None);
    ("OSMO_PFCP_UP_FEAT_EMPU", None);
    ("OSMO_PFCP_UP_FEAT_PDIU", None);
    ("OSMO_PFCP_UP_FEAT_UDBC", None);
    ("OSMO_PFCP_UP_FEAT_QUOAC", None);
    ("OSMO_PFCP_UP_FEAT_TRACE", None);
    ("OSMO_PFCP_UP_FEAT_FRRT", None);
    ("OSMO_PFCP_UP_FEAT_PFDE", None);
    ("OSMO_PFCP_UP_FEAT_EPFAR", None);
    ("OSMO_PFCP_UP_FEAT_DPDRA", None);
    ("OSMO_PFCP_UP_FEAT_ADPDP", None);
    ("OSMO_PFCP_UP_FEAT_UEIP", None);
    ("OSMO_PFCP_UP_FEAT_SSET", None);
    ("OSMO_PFCP_UP_FEAT_MNOP", None);
    ("OSMO_PFCP_UP_FEAT_MTE", None);
    ("OSMO_PFCP_UP_FEAT_BUNDL", None);
    ("OSMO_PFCP_UP_FEAT_GCOM", None);
    ("OSMO_PFCP_UP_FEAT_MPAS", None);
    ("OSMO_PFCP_UP_FEAT_RTTL", None);
    ("OSMO_PFCP_UP_FEAT_VTIME", None);
    ("OSMO_PFCP_UP_FEAT_NORP", None);
    ("OSMO_PFCP_UP_FEAT_IP6PL", None);
    ("OSMO_PFCP_UP_FEAT_TSCU", None);
    ("OSMO_PFCP_UP_FEAT_MPTCP", None);
    ("OSMO_PFCP_UP_FEAT_ATSSSLL", None);
    ("OSMO_PFCP_UP_FEAT_QFQM", None);
    ("OSMO_PFCP_UP_FEAT_GPQM", None);
    ("OSMO_PFCP_UP_FEAT_MTEDT", None);
    ("OSMO_PFCP_UP_FEAT_CIOT", None);
    ("OSMO_PFCP_UP_FEAT_ETHAR", None);
    ("OSMO_PFCP_UP_FEAT_DDDS", None);
    ("OSMO_PFCP_UP_FEAT_RDS", None);
    ("OSMO_PFCP_UP_FEAT_RTTWP", None) ].

(* enum osmo_pfcp_cp_feature, pfcp_proto.h:465-474 *)
Definition e_cp_feature : enum :=
  [ ("OSMO_PFCP_CP_FEAT_LOAD", Some 0);
    ("OSMO_PFCP_CP_FEAT_OVRL", None);
    ("OSMO_PFCP_CP_FEAT_EPFAR", None);
    ("OSMO_PFCP_CP_FEAT_SSET", None);
    ("OSMO_PFCP_CP_FEAT_BUNDL", None);
    ("OSMO_PFCP_CP_FEAT_MPAS", None);
    ("OSMO_PFCP_CP_FEAT_ARDR", None);
    ("OSMO_PFCP_CP_FEAT_UIAUR", None) ].

(* enum osmo_pfcp_apply_action, pfcp_proto.h:483-495 *)
Definition e_apply_action : enum :=
  [ ("OSMO_PFCP_APPLY_ACTION_DROP", Some 0);
    ("OSMO_PFCP_APPLY_ACTION_FORW", None);
    ("OSMO_PFCP_APPLY_ACTION_BUFF", None);
    ("OSMO_PFCP_APPLY_ACTION_NOCP", None);
    ("OSMO_PFCP_APPLY_ACTION_DUPL", None);
    ("OSMO_PFCP_APPLY_ACTION_IPMA", None);
    ("OSMO_PFCP_APPLY_ACTION_IPMD", None);
    ("OSMO_PFCP_APPLY_ACTION_DFRT", None);
    ("OSMO_PFCP_APPLY_ACTION_EDRT", None);
    ("OSMO_PFCP_APPLY_ACTION_BDPN", None);
    ("OSMO_PFCP_APPLY_ACTION_DDPN", None) ].

(* enum osmo_pfcp_outer_header_creation, pfcp_proto.h:504-515 *)
Definition e_outer_header_creation : enum :=
  [ ("OSMO_PFCP_OUTER_HEADER_CREATION_GTP_U_UDP_IPV4", Some 0);
    ("OSMO_PFCP_OUTER_HEADER_CREATION_GTP_U_UDP_IPV6", None);
    ("OSMO_PFCP_OUTER_HEADER_CREATION_UDP_IPV4", None);
    ("OSMO_PFCP_OUTER_HEADER_CREATION_UDP_IPV6", None);
    ("OSMO_PFCP_OUTER_HEADER_CREATION_IPV4", None);
    ("OSMO_PFCP_OUTER_HEADER_CREATION_IPV6", None);
    ("OSMO_PFCP_OUTER_HEADER_CREATION_C_TAG", None);
    ("OSMO_PFCP_OUTER_HEADER_CREATION_S_TAG", None);
    ("OSMO_PFCP_OUTER_HEADER_CREATION_N19_INDICATION", None);
    ("OSMO_PFCP_OUTER_HEADER_CREATION_N6_INDICATION", None) ].

(* enum osmo_pfcp_outer_header_removal_desc, pfcp_proto.h:518-528 *)
Definition e_outer_header_removal_desc : enum :=
  [ ("OSMO_PFCP_OUTER_HEADER_REMOVAL_GTP_U_UDP_IPV4", Some 0);
    ("OSMO_PFCP_OUTER_HEADER_REMOVAL_GTP_U_UDP_IPV6", Some 1);
    ("OSMO_PFCP_OUTER_HEADER_REMOVAL_UDP_IPV4", Some 2);
    ("OSMO_PFCP_OUTER_HEADER_REMOVAL_UDP_IPV6", Some 3);
    ("OSMO_PFCP_OUTER_HEADER_REMOVAL_IPV4", Some 4);
    ("OSMO_PFCP_OUTER_HEADER_REMOVAL_IPV6", Some 5);
    ("OSMO_PFCP_OUTER_HEADER_REMOVAL_GTP_U_UDP_IP", Some 6);
    ("OSMO_PFCP_OUTER_HEADER_REMOVAL_VLAN_S_TAG", Some 7);
    ("OSMO_PFCP_OUTER_HEADER_REMOVAL_S_TAG_AND_C_TAG", Some 8) ].

(* ---------------------------------------------------------------- tables *)
(* osmo_pfcp_message_type_strs, pfcp_strs.c:26-51 *)
Definition s_message_type : vstrs :=
  [ ("OSMO_PFCP_MSGT_HEARTBEAT_REQ", "HEARTBEAT_REQ");
    ("OSMO_PFCP_MSGT_HEARTBEAT_RESP", "HEARTBEAT_RESP");
    ("OSMO_PFCP_MSGT_PFD_MGMT_REQ", "PFD_MGMT_REQ");
    ("OSMO_PFCP_MSGT_PFD_MGMT_RESP", "PFD_MGMT_RESP");
    ("OSMO_PFCP_MSGT_ASSOC_SETUP_REQ", "ASSOC_SETUP_REQ");
    ("OSMO_PFCP_MSGT_ASSOC_SETUP_RESP", "ASSOC_SETUP_RESP");
    ("OSMO_PFCP_MSGT_ASSOC_UPDATE_REQ", "ASSOC_UPDATE_REQ");
    ("OSMO_PFCP_MSGT_ASSOC_UPDATE_RESP", "ASSOC_UPDATE_RESP");
    ("OSMO_PFCP_MSGT_ASSOC_RELEASE_REQ", "ASSOC_RELEASE_REQ");
    ("OSMO_PFCP_MSGT_ASSOC_RELEASE_RESP", "ASSOC_RELEASE_RESP");
    ("OSMO_PFCP_MSGT_VERSION_NOT_SUPP_RESP", "VERSION_NOT_SUPP_RESP");
    ("OSMO_PFCP_MSGT_NODE_REPORT_REQ", "NODE_REPORT_REQ");
    ("OSMO_PFCP_MSGT_NODE_REPORT_RESP", "NODE_REPORT_RESP");
    ("OSMO_PFCP_MSGT_SESSION_SET_DEL_REQ", "SESSION_SET_DEL_REQ");
    ("OSMO_PFCP_MSGT_SESSION_SET_DEL_RESP", "SESSION_SET_DEL_RESP");
    ("OSMO_PFCP_MSGT_SESSION_EST_REQ", "SESSION_EST_REQ");
    ("OSMO_PFCP_MSGT_SESSION_EST_RESP", "SESSION_EST_RESP");
    ("OSMO_PFCP_MSGT_SESSION_MOD_REQ", "SESSION_MOD_REQ");
    ("OSMO_PFCP_MSGT_SESSION_MOD_RESP", "SESSION_MOD_RESP");
    ("OSMO_PFCP_MSGT_SESSION_DEL_REQ", "SESSION_DEL_REQ");
    ("OSMO_PFCP_MSGT_SESSION_DEL_RESP", "SESSION_DEL_RESP");
    ("OSMO_PFCP_MSGT_SESSION_REP_REQ", "SESSION_REP_REQ");
    ("OSMO_PFCP_MSGT_SESSION_REP_RESP", "SESSION_REP_RESP") ].

(* osmo_pfcp_iei_strs, pfcp_strs.c:53-326 *)
Definition s_iei : vstrs :=
  [ ("OSMO_PFCP_IEI_CREATE_PDR", "Create PDR");
    ("OSMO_PFCP_IEI_PDI", "PDI");
    ("OSMO_PFCP_IEI_CREATE_FAR", "Create FAR");
    ("OSMO_PFCP_IEI_FORW_PARAMS", "Forwarding Parameters");
    ("OSMO_PFCP_IEI_DUPL_PARAMS", "Duplicating Parameters");
    ("OSMO_PFCP_IEI_CREATE_URR", "Create URR");
    ("OSMO_PFCP_IEI_CREATE_QER", "Create QER");
    ("OSMO_PFCP_IEI_CREATED_PDR", "Created PDR");
    ("OSMO_PFCP_IEI_UPD_PDR", "Update PDR");
    ("OSMO_PFCP_IEI_UPD_FAR", "Update FAR");
    ("OSMO_PFCP_IEI_UPD_FORW_PARAMS", "Update Forwarding Parameters");
    ("OSMO_PFCP_IEI_UPD_BAR_SESS_REP_RESP", "Update BAR (PFCP Session Report Response)");
    ("OSMO_PFCP_IEI_UPD_URR", "Update URR");
    ("OSMO_PFCP_IEI_UPD_QER", "Update QER");
    ("OSMO_PFCP_IEI_REMOVE_PDR", "Remove PDR");
    ("OSMO_PFCP_IEI_REMOVE_FAR", "Remove FAR");
    ("OSMO_PFCP_IEI_REMOVE_URR", "Remove URR");
    ("OSMO_PFCP_IEI_REMOVE_QER", "Remove QER");
    ("OSMO_PFCP_IEI_CAUSE", "Cause");
    ("OSMO_PFCP_IEI_SOURCE_IFACE", "Source Interface");
    ("OSMO_PFCP_IEI_F_TEID", "F-TEID");
    ("OSMO_PFCP_IEI_NETWORK_INST", "Network Instance");
    ("OSMO_PFCP_IEI_SDF_FILTER", "SDF Filter");
    ("OSMO_PFCP_IEI_APPLICATION_ID", "Application ID");
    ("OSMO_PFCP_IEI_GATE_STATUS", "Gate Status");
    ("OSMO_PFCP_IEI_MBR", "MBR");
    ("OSMO_PFCP_IEI_GBR", "GBR");
    ("OSMO_PFCP_IEI_QER_CORRELATION_ID", "QER Correlation ID");
    ("OSMO_PFCP_IEI_PRECEDENCE", "Precedence");
    ("OSMO_PFCP_IEI_TRANSPORT_LEVEL_MARKING", "Transport Level Marking");
    ("OSMO_PFCP_IEI_VOLUME_THRESH", "Volume Threshold");
    ("OSMO_PFCP_IEI_TIME_THRESH", "Time Threshold");
    ("OSMO_PFCP_IEI_MONITORING_TIME", "Monitoring Time");
    ("OSMO_PFCP_IEI_SUBSEQUENT_VOLUME_THRESH", "Subsequent Volume Threshold");
    ("OSMO_PFCP_IEI_SUBSEQUENT_TIME_THRESH", "Subsequent Time Threshold");
    ("OSMO_PFCP_IEI_INACT_DETECTION_TIME", "Inactivity Detection Time");
    ("OSMO_PFCP_IEI_REPORTING_TRIGGERS", "Reporting Triggers");
    ("OSMO_PFCP_IEI_REDIRECT_INFO", "Redirect Information");
    ("OSMO_PFCP_IEI_REP_TYPE", "Report Type");
    ("OSMO_PFCP_IEI_OFFENDING_IE", "Offending IE");
    ("OSMO_PFCP_IEI_FORW_POLICY", "Forwarding Policy");
    ("OSMO_PFCP_IEI_DESTINATION_IFACE", "Destination Interface");
    ("OSMO_PFCP_IEI_UP_FUNCTION_FEATURES", "UP Function Features");
    ("OSMO_PFCP_IEI_APPLY_ACTION", "Apply Action");
    ("OSMO_PFCP_IEI_DL_DATA_SERVICE_INFO", "Downlink Data Service Information");
    ("OSMO_PFCP_IEI_DL_DATA_NOTIFICATION_DELAY", "Downlink Data Notification Delay");
    ("OSMO_PFCP_IEI_DL_BUFF_DURATION", "DL Buffering Duration");
    ("OSMO_PFCP_IEI_DL_BUFF_SUGGESTED_PACKET_COUNT", "DL Buffering Suggested Packet Count");
    ("OSMO_PFCP_IEI_PFCPSMREQ_FLAGS", "PFCPSMReq-Flags");
    ("OSMO_PFCP_IEI_PFCPSRRSP_FLAGS", "PFCPSRRsp-Flags");
    ("OSMO_PFCP_IEI_LOAD_CTRL_INFO", "Load Control Information");
    ("OSMO_PFCP_IEI_SEQUENCE_NUMBER", "Sequence Number");
    ("OSMO_PFCP_IEI_METRIC", "Metric");
    ("OSMO_PFCP_IEI_OVERLOAD_CTRL_INFO", "Overload Control Information");
    ("OSMO_PFCP_IEI_TIMER", "Timer");
    ("OSMO_PFCP_IEI_PDR_ID", "PDR ID");
    ("OSMO_PFCP_IEI_F_SEID", "F-SEID");
    ("OSMO_PFCP_IEI_APPLICATION_IDS_PFDS", "Application ID's PFDs");
    ("OSMO_PFCP_IEI_PFD_CONTEXT", "PFD context");
    ("OSMO_PFCP_IEI_NODE_ID", "Node ID");
    ("OSMO_PFCP_IEI_PFD_CONTENTS", "PFD contents");
    ("OSMO_PFCP_IEI_MEAS_METHOD", "Measurement Method");
    ("OSMO_PFCP_IEI_USAGE_REP_TRIGGER", "Usage Report Trigger");
    ("OSMO_PFCP_IEI_MEAS_PERIOD", "Measurement Period");
    ("OSMO_PFCP_IEI_FQ_CSID", "FQ-CSID");
    ("OSMO_PFCP_IEI_VOLUME_MEAS", "Volume Measurement");
    ("OSMO_PFCP_IEI_DURATION_MEAS", "Duration Measurement");
    ("OSMO_PFCP_IEI_APPLICATION_DETECTION_INFO", "Application Detection Information");
    ("OSMO_PFCP_IEI_TIME_OF_FIRST_PACKET", "Time of First Packet");
    ("OSMO_PFCP_IEI_TIME_OF_LAST_PACKET", "Time of Last Packet");
    ("OSMO_PFCP_IEI_QUOTA_HOLDING_TIME", "Quota Holding Time");
    ("OSMO_PFCP_IEI_DROPPED_DL_TRAFFIC_THRESH", "Dropped DL Traffic Threshold");
    ("OSMO_PFCP_IEI_VOLUME_QUOTA", "Volume Quota");
    ("OSMO_PFCP_IEI_TIME_QUOTA", "Time Quota");
    ("OSMO_PFCP_IEI_START_TIME", "Start Time");
    ("OSMO_PFCP_IEI_END_TIME", "End Time");
    ("OSMO_PFCP_IEI_QUERY_URR", "Query URR");
    ("OSMO_PFCP_IEI_USAGE_REP_SESS_MOD_RESP", "Usage Report (Session Modification Response)");
    ("OSMO_PFCP_IEI_USAGE_REP_SESS_DEL_RESP", "Usage Report (Session Deletion Response)");
    ("OSMO_PFCP_IEI_USAGE_REP_SESS_REP_REQ", "Usage Report (Session Report Request)");
    ("OSMO_PFCP_IEI_URR_ID", "URR ID");
    ("OSMO_PFCP_IEI_LINKED_URR_ID", "Linked URR ID");
    ("OSMO_PFCP_IEI_DL_DATA_REP", "Downlink Data Report");
    ("OSMO_PFCP_IEI_OUTER_HEADER_CREATION", "Outer Header Creation");
    ("OSMO_PFCP_IEI_CREATE_BAR", "Create BAR");
    ("OSMO_PFCP_IEI_UPD_BAR_SESS_MOD_REQ", "Update BAR (Session Modification Request)");
    ("OSMO_PFCP_IEI_REMOVE_BAR", "Remove BAR");
    ("OSMO_PFCP_IEI_BAR_ID", "BAR ID");
    ("OSMO_PFCP_IEI_CP_FUNCTION_FEATURES", "CP Function Features");
    ("OSMO_PFCP_IEI_USAGE_INFO", "Usage Information");
    ("OSMO_PFCP_IEI_APPLICATION_INST_ID", "Application Instance ID");
    ("OSMO_PFCP_IEI_FLOW_INFO", "Flow Information");
    ("OSMO_PFCP_IEI_UE_IP_ADDRESS", "UE IP Address");
    ("OSMO_PFCP_IEI_PACKET_RATE", "Packet Rate");
    ("OSMO_PFCP_IEI_OUTER_HEADER_REMOVAL", "Outer Header Removal");
    ("OSMO_PFCP_IEI_RECOVERY_TIME_STAMP", "Recovery Time Stamp");
    ("OSMO_PFCP_IEI_DL_FLOW_LEVEL_MARKING", "DL Flow Level Marking");
    ("OSMO_PFCP_IEI_HEADER_ENRICHMENT", "Header Enrichment");
    ("OSMO_PFCP_IEI_ERROR_IND_REP", "Error Indication Report");
    ("OSMO_PFCP_IEI_MEAS_INFO", "Measurement Information");
    ("OSMO_PFCP_IEI_NODE_REP_TYPE", "Node Report Type");
    ("OSMO_PFCP_IEI_USER_PLANE_PATH_FAILURE_REP", "User Plane Path Failure Report");
    ("OSMO_PFCP_IEI_REMOTE_GTP_U_PEER", "Remote GTP-U Peer");
    ("OSMO_PFCP_IEI_UR_SEQN", "UR-SEQN");
    ("OSMO_PFCP_IEI_UPD_DUPL_PARAMS", "Update Duplicating Parameters");
    ("OSMO_PFCP_IEI_ACTIVATE_PREDEFINED_RULES", "Activate Predefined Rules");
    ("OSMO_PFCP_IEI_DEACTIVATE_PREDEFINED_RULES", "Deactivate Predefined Rules");
    ("OSMO_PFCP_IEI_FAR_ID", "FAR ID");
    ("OSMO_PFCP_IEI_QER_ID", "QER ID");
    ("OSMO_PFCP_IEI_OCI_FLAGS", "OCI Flags");
    ("OSMO_PFCP_IEI_PFCP_ASSOC_RELEASE_REQ", "PFCP Association Release Request");
    ("OSMO_PFCP_IEI_GRACEFUL_RELEASE_PERIOD", "Graceful Release Period");
    ("OSMO_PFCP_IEI_PDN_TYPE", "PDN Type");
    ("OSMO_PFCP_IEI_FAILED_RULE_ID", "Failed Rule ID");
    ("OSMO_PFCP_IEI_TIME_QUOTA_MECHANISM", "Time Quota Mechanism");
    ("OSMO_PFCP_IEI_RESERVED", "Reserved");
    ("OSMO_PFCP_IEI_USER_PLANE_INACT_TIMER", "User Plane Inactivity Timer");
    ("OSMO_PFCP_IEI_AGGREGATED_URRS", "Aggregated URRs");
    ("OSMO_PFCP_IEI_MULTIPLIER", "Multiplier");
    ("OSMO_PFCP_IEI_AGGREGATED_URR_ID", "Aggregated URR ID");
    ("OSMO_PFCP_IEI_SUBSEQUENT_VOLUME_QUOTA", "Subsequent Volume Quota");
    ("OSMO_PFCP_IEI_SUBSEQUENT_TIME_QUOTA", "Subsequent Time Quota");
    ("OSMO_PFCP_IEI_RQI", "RQI");
    ("OSMO_PFCP_IEI_QFI", "QFI");
    ("OSMO_PFCP_IEI_QUERY_URR_REFERENCE", "Query URR Reference");
    ("OSMO_PFCP_IEI_ADDITIONAL_USAGE_REPS_INFO", "Additional Usage Reports Information");
    ("OSMO_PFCP_IEI_CREATE_TRAFFIC_ENDPOINT", "Create Traffic Endpoint");
    ("OSMO_PFCP_IEI_CREATED_TRAFFIC_ENDPOINT", "Created Traffic Endpoint");
    ("OSMO_PFCP_IEI_UPD_TRAFFIC_ENDPOINT", "Update Traffic Endpoint");
    ("OSMO_PFCP_IEI_REMOVE_TRAFFIC_ENDPOINT", "Remove Traffic Endpoint");
    ("OSMO_PFCP_IEI_TRAFFIC_ENDPOINT_ID", "Traffic Endpoint ID");
    ("OSMO_PFCP_IEI_ETHERNET_PACKET_FILTER", "Ethernet Packet Filter");
    ("OSMO_PFCP_IEI_MAC_ADDRESS", "MAC address");
    ("OSMO_PFCP_IEI_C_TAG", "C-TAG");
    ("OSMO_PFCP_IEI_S_TAG", "S-TAG");
    ("OSMO_PFCP_IEI_ETHERTYPE", "Ethertype");
    ("OSMO_PFCP_IEI_PROXYING", "Proxying");
    ("OSMO_PFCP_IEI_ETHERNET_FILTER_ID", "Ethernet Filter ID");
    ("OSMO_PFCP_IEI_ETHERNET_FILTER_PROPERTIES", "Ethernet Filter Properties");
    ("OSMO_PFCP_IEI_SUGGESTED_BUFF_PACKETS_COUNT", "Suggested Buffering Packets Count");
    ("OSMO_PFCP_IEI_USER_ID", "User ID");
    ("OSMO_PFCP_IEI_ETHERNET_PDU_SESS_INFO", "Ethernet PDU Session Information");
    ("OSMO_PFCP_IEI_ETHERNET_TRAFFIC_INFO", "Ethernet Traffic Information");
    ("OSMO_PFCP_IEI_MAC_ADDRS_DETECTED", "MAC Addresses Detected");
    ("OSMO_PFCP_IEI_MAC_ADDRS_REMOVED", "MAC Addresses Removed");
    ("OSMO_PFCP_IEI_ETHERNET_INACT_TIMER", "Ethernet Inactivity Timer");
    ("OSMO_PFCP_IEI_ADDITIONAL_MONITORING_TIME", "Additional Monitoring Time");
    ("OSMO_PFCP_IEI_EVENT_QUOTA", "Event Quota");
    ("OSMO_PFCP_IEI_EVENT_THRESH", "Event Threshold");
    ("OSMO_PFCP_IEI_SUBSEQUENT_EVENT_QUOTA", "Subsequent Event Quota");
    ("OSMO_PFCP_IEI_SUBSEQUENT_EVENT_THRESH", "Subsequent Event Threshold");
    ("OSMO_PFCP_IEI_TRACE_INFO", "Trace Information");
    ("OSMO_PFCP_IEI_FRAMED_ROUTE", "Framed-Route");
    ("OSMO_PFCP_IEI_FRAMED_ROUTING", "Framed-Routing");
    ("OSMO_PFCP_IEI_FRAMED_IPV6_ROUTE", "Framed-IPv6-Route");
    ("OSMO_PFCP_IEI_TIME_STAMP", "Time Stamp");
    ("OSMO_PFCP_IEI_AVERAGING_WINDOW", "Averaging Window");
    ("OSMO_PFCP_IEI_PAGING_POLICY_INDICATOR", "Paging Policy Indicator");
    ("OSMO_PFCP_IEI_APN_DNN", "APN/DNN");
    ("OSMO_PFCP_IEI_3GPP_IFACE_TYPE", "3GPP Interface Type");
    ("OSMO_PFCP_IEI_PFCPSRREQ_FLAGS", "PFCPSRReq-Flags");
    ("OSMO_PFCP_IEI_PFCPAUREQ_FLAGS", "PFCPAUReq-Flags");
    ("OSMO_PFCP_IEI_ACTIVATION_TIME", "Activation Time");
    ("OSMO_PFCP_IEI_DEACTIVATION_TIME", "Deactivation Time");
    ("OSMO_PFCP_IEI_CREATE_MAR", "Create MAR");
    ("OSMO_PFCP_IEI_3GPP_ACCESS_FORW_ACTION_INFO", "3GPP Access Forwarding Action Information");
    ("OSMO_PFCP_IEI_NON_3GPP_ACCESS_FORW_ACTION_INFO", "Non-3GPP Access Forwarding Action Information");
    ("OSMO_PFCP_IEI_REMOVE_MAR", "Remove MAR");
    ("OSMO_PFCP_IEI_UPD_MAR", "Update MAR");
    ("OSMO_PFCP_IEI_MAR_ID", "MAR ID");
    ("OSMO_PFCP_IEI_STEERING_FUNCTIONALITY", "Steering Functionality");
    ("OSMO_PFCP_IEI_STEERING_MODE", "Steering Mode");
    ("OSMO_PFCP_IEI_WEIGHT", "Weight");
    ("OSMO_PFCP_IEI_PRIORITY", "Priority");
    ("OSMO_PFCP_IEI_UPD_3GPP_ACCESS_FORW_ACTION_INFO", "Update 3GPP Access Forwarding Action Information");
    ("OSMO_PFCP_IEI_UPD_NON_3GPP_ACCESS_FORW_ACTION_INFO", "Update Non 3GPP Access Forwarding Action Information");
    ("OSMO_PFCP_IEI_UE_IP_ADDRESS_POOL_IDENTITY", "UE IP address Pool Identity");
    ("OSMO_PFCP_IEI_ALTERNATIVE_SMF_IP_ADDRESS", "Alternative SMF IP Address");
    ("OSMO_PFCP_IEI_PACKET_REPLICATION_AND_DETECTION_CARRY_ON_INFO", "Packet Replication and Detection Carry-On Information");
    ("OSMO_PFCP_IEI_SMF_SET_ID", "SMF Set ID");
    ("OSMO_PFCP_IEI_QUOTA_VALIDITY_TIME", "Quota Validity Time");
    ("OSMO_PFCP_IEI_NUMBER_OF_REPS", "Number of Reports");
    ("OSMO_PFCP_IEI_PFCP_SESS_RETENTION_INFO_IN_ASSOC_SETUP_REQ", "PFCP Session Retention Information (within PFCP Association Setup Request)");
    ("OSMO_PFCP_IEI_PFCPASRSP_FLAGS", "PFCPASRsp-Flags");
    ("OSMO_PFCP_IEI_CP_ENTITY_IP_ADDRESS", "CP PFCP Entity IP Address");
    ("OSMO_PFCP_IEI_PFCPSEREQ_FLAGS", "PFCPSEReq-Flags");
    ("OSMO_PFCP_IEI_USER_PLANE_PATH_RECOVERY_REP", "User Plane Path Recovery Report");
    ("OSMO_PFCP_IEI_IP_MULTICAST_ADDR_INFO_IN_SESS_EST_REQ", "IP Multicast Addressing Info within PFCP Session Establishment Request");
    ("OSMO_PFCP_IEI_JOIN_IP_MULTICAST_INFO_IE_IN_USAGE_REP", "Join IP Multicast Information IE within Usage Report");
    ("OSMO_PFCP_IEI_LEAVE_IP_MULTICAST_INFO_IE_IN_USAGE_REP", "Leave IP Multicast Information IE within Usage Report");
    ("OSMO_PFCP_IEI_IP_MULTICAST_ADDRESS", "IP Multicast Address");
    ("OSMO_PFCP_IEI_SOURCE_IP_ADDRESS", "Source IP Address");
    ("OSMO_PFCP_IEI_PACKET_RATE_STATUS", "Packet Rate Status");
    ("OSMO_PFCP_IEI_CREATE_BRIDGE_INFO_FOR_TSC", "Create Bridge Info for TSC");
    ("OSMO_PFCP_IEI_CREATED_BRIDGE_INFO_FOR_TSC", "Created Bridge Info for TSC");
    ("OSMO_PFCP_IEI_DS_TT_PORT_NUMBER", "DS-TT Port Number");
    ("OSMO_PFCP_IEI_NW_TT_PORT_NUMBER", "NW-TT Port Number");
    ("OSMO_PFCP_IEI_TSN_BRIDGE_ID", "TSN Bridge ID");
    ("OSMO_PFCP_IEI_TSC_MGMT_INFO_IE_IN_SESS_MOD_REQ", "TSC Management Information IE within PFCP Session Modification Request");
    ("OSMO_PFCP_IEI_TSC_MGMT_INFO_IE_IN_SESS_MOD_RESP", "TSC Management Information IE within PFCP Session Modification Response");
    ("OSMO_PFCP_IEI_TSC_MGMT_INFO_IE_IN_SESS_REP_REQ", "TSC Management Information IE within PFCP Session Report Request");
    ("OSMO_PFCP_IEI_PORT_MGMT_INFO_CONTAINER", "Port Management Information Container");
    ("OSMO_PFCP_IEI_CLOCK_DRIFT_CTRL_INFO", "Clock Drift Control Information");
    ("OSMO_PFCP_IEI_REQUESTED_CLOCK_DRIFT_INFO", "Requested Clock Drift Information");
    ("OSMO_PFCP_IEI_CLOCK_DRIFT_REP", "Clock Drift Report");
    ("OSMO_PFCP_IEI_TSN_TIME_DOMAIN_NUMBER", "TSN Time Domain Number");
    ("OSMO_PFCP_IEI_TIME_OFFSET_THRESH", "Time Offset Threshold");
    ("OSMO_PFCP_IEI_CUMULATIVE_RATERATIO_THRESH", "Cumulative rateRatio Threshold");
    ("OSMO_PFCP_IEI_TIME_OFFSET_MEAS", "Time Offset Measurement");
    ("OSMO_PFCP_IEI_CUMULATIVE_RATERATIO_MEAS", "Cumulative rateRatio Measurement");
    ("OSMO_PFCP_IEI_REMOVE_SRR", "Remove SRR");
    ("OSMO_PFCP_IEI_CREATE_SRR", "Create SRR");
    ("OSMO_PFCP_IEI_UPD_SRR", "Update SRR");
    ("OSMO_PFCP_IEI_SESS_REP", "Session Report");
    ("OSMO_PFCP_IEI_SRR_ID", "SRR ID");
    ("OSMO_PFCP_IEI_ACCESS_AVAIL_CTRL_INFO", "Access Availability Control Information");
    ("OSMO_PFCP_IEI_REQUESTED_ACCESS_AVAIL_INFO", "Requested Access Availability Information");
    ("OSMO_PFCP_IEI_ACCESS_AVAIL_REP", "Access Availability Report");
    ("OSMO_PFCP_IEI_ACCESS_AVAIL_INFO", "Access Availability Information");
    ("OSMO_PFCP_IEI_PROVIDE_ATSSS_CTRL_INFO", "Provide ATSSS Control Information");
    ("OSMO_PFCP_IEI_ATSSS_CTRL_PARAMS", "ATSSS Control Parameters");
    ("OSMO_PFCP_IEI_MPTCP_CTRL_INFO", "MPTCP Control Information");
    ("OSMO_PFCP_IEI_ATSSS_LL_CTRL_INFO", "ATSSS-LL Control Information");
    ("OSMO_PFCP_IEI_PMF_CTRL_INFO", "PMF Control Information");
    ("OSMO_PFCP_IEI_MPTCP_PARAMS", "MPTCP Parameters");
    ("OSMO_PFCP_IEI_ATSSS_LL_PARAMS", "ATSSS-LL Parameters");
    ("OSMO_PFCP_IEI_PMF_PARAMS", "PMF Parameters");
    ("OSMO_PFCP_IEI_MPTCP_ADDRESS_INFO", "MPTCP Address Information");
    ("OSMO_PFCP_IEI_UE_LINK_SPECIFIC_IP_ADDRESS", "UE Link-Specific IP Address");
    ("OSMO_PFCP_IEI_PMF_ADDRESS_INFO", "PMF Address Information");
    ("OSMO_PFCP_IEI_ATSSS_LL_INFO", "ATSSS-LL Information");
    ("OSMO_PFCP_IEI_DATA_NETWORK_ACCESS_IDENTIFIER", "Data Network Access Identifier");
    ("OSMO_PFCP_IEI_UE_IP_ADDRESS_POOL_INFO", "UE IP address Pool Information");
    ("OSMO_PFCP_IEI_AVERAGE_PACKET_DELAY", "Average Packet Delay");
    ("OSMO_PFCP_IEI_MIN_PACKET_DELAY", "Minimum Packet Delay");
    ("OSMO_PFCP_IEI_MAX_PACKET_DELAY", "Maximum Packet Delay");
    ("OSMO_PFCP_IEI_QOS_REP_TRIGGER", "QoS Report Trigger");
    ("OSMO_PFCP_IEI_GTP_U_PATH_QOS_CTRL_INFO", "GTP-U Path QoS Control Information");
    ("OSMO_PFCP_IEI_GTP_U_PATH_QOS_REP_NODE_REP_REQ", "GTP-U Path QoS Report (PFCP Node Report Request)");
    ("OSMO_PFCP_IEI_QOS_INFO_IN_GTP_U_PATH_QOS_REP", "QoS Information in GTP-U Path QoS Report");
    ("OSMO_PFCP_IEI_GTP_U_PATH_IFACE_TYPE", "GTP-U Path Interface Type");
    ("OSMO_PFCP_IEI_QOS_MONITORING_PER_QOS_FLOW_CTRL_INFO", "QoS Monitoring per QoS flow Control Information");
    ("OSMO_PFCP_IEI_REQUESTED_QOS_MONITORING", "Requested QoS Monitoring");
    ("OSMO_PFCP_IEI_REPORTING_FREQUENCY", "Reporting Frequency");
    ("OSMO_PFCP_IEI_PACKET_DELAY_THRESHOLDS", "Packet Delay Thresholds");
    ("OSMO_PFCP_IEI_MIN_WAIT_TIME", "Minimum Wait Time");
    ("OSMO_PFCP_IEI_QOS_MONITORING_REP", "QoS Monitoring Report");
    ("OSMO_PFCP_IEI_QOS_MONITORING_MEAS", "QoS Monitoring Measurement");
    ("OSMO_PFCP_IEI_MT_EDT_CTRL_INFO", "MT-EDT Control Information");
    ("OSMO_PFCP_IEI_DL_DATA_PACKETS_SIZE", "DL Data Packets Size");
    ("OSMO_PFCP_IEI_QER_CTRL_INDICATIONS", "QER Control Indications");
    ("OSMO_PFCP_IEI_PACKET_RATE_STATUS_REP", "Packet Rate Status Report");
    ("OSMO_PFCP_IEI_NF_INST_ID", "NF Instance ID");
    ("OSMO_PFCP_IEI_ETHERNET_CONTEXT_INFO", "Ethernet Context Information");
    ("OSMO_PFCP_IEI_REDUNDANT_TRANSMISSION_PARAMS", "Redundant Transmission Parameters");
    ("OSMO_PFCP_IEI_UPDATED_PDR", "Updated PDR");
    ("OSMO_PFCP_IEI_S_NSSAI", "S-NSSAI");
    ("OSMO_PFCP_IEI_IP_VERSION", "IP version");
    ("OSMO_PFCP_IEI_PFCPASREQ_FLAGS", "PFCPASReq-Flags");
    ("OSMO_PFCP_IEI_DATA_STATUS", "Data Status");
    ("OSMO_PFCP_IEI_PROVIDE_RDS_CONF_INFO", "Provide RDS configuration information");
    ("OSMO_PFCP_IEI_RDS_CONF_INFO", "RDS configuration information");
    ("OSMO_PFCP_IEI_QUERY_PACKET_RATE_STATUS_IE_IN_SESS_MOD_REQ", "Query Packet Rate Status IE within PFCP Session Modification Request");
    ("OSMO_PFCP_IEI_PACKET_RATE_STATUS_REP_IE_IN_SESS_MOD_RESP", "Packet Rate Status Report IE within PFCP Session Modification Response");
    ("OSMO_PFCP_IEI_MPTCP_APPLICABLE_IND", "MPTCP Applicable Indication");
    ("OSMO_PFCP_IEI_BRIDGE_MGMT_INFO_CONTAINER", "Bridge Management Information Container");
    ("OSMO_PFCP_IEI_UE_IP_ADDRESS_USAGE_INFO", "UE IP Address Usage Information");
    ("OSMO_PFCP_IEI_NUMBER_OF_UE_IP_ADDRS", "Number of UE IP Addresses");
    ("OSMO_PFCP_IEI_VALIDITY_TIMER", "Validity Timer");
    ("OSMO_PFCP_IEI_REDUNDANT_TRANSMISSION_FORW_PARAMS", "Redundant Transmission Forwarding Parameters");
    ("OSMO_PFCP_IEI_TRANSPORT_DELAY_REPORTING", "Transport Delay Reporting") ].

(* osmo_pfcp_cause_strs, pfcp_strs.c:328-349 *)
Definition s_cause : vstrs :=
  [ ("OSMO_PFCP_CAUSE_RESERVED", "0");
    ("OSMO_PFCP_CAUSE_REQUEST_ACCEPTED", "Request accepted (success)");
    ("OSMO_PFCP_CAUSE_MORE_USAGE_REPORT_TO_SEND", "More Usage Report to send");
    ("OSMO_PFCP_CAUSE_REQUEST_REJECTED", "Request rejected (reason not specified)");
    ("OSMO_PFCP_CAUSE_SESSION_CTX_NOT_FOUND", "Session context not found");
    ("OSMO_PFCP_CAUSE_MANDATORY_IE_MISSING", "Mandatory IE missing");
    ("OSMO_PFCP_CAUSE_CONDITIONAL_IE_MISSING", "Conditional IE missing");
    ("OSMO_PFCP_CAUSE_INVALID_LENGTH", "Invalid length");
    ("OSMO_PFCP_CAUSE_MANDATORY_IE_INCORRECT", "Mandatory IE incorrect");
    ("OSMO_PFCP_CAUSE_INVALID_FORW_POLICY", "Invalid Forwarding Policy");
    ("OSMO_PFCP_CAUSE_INVALID_F_TEID_ALLOC_OPTION", "Invalid F-TEID allocation option");
    ("OSMO_PFCP_CAUSE_NO_ESTABLISHED_PFCP_ASSOC", "No established PFCP Association");
    ("OSMO_PFCP_CAUSE_RULE_CREATION_MOD_FAILURE", "Rule creation/modification Failure");
    ("OSMO_PFCP_CAUSE_PFCP_ENTITY_IN_CONGESTION", "PFCP entity in congestion");
    ("OSMO_PFCP_CAUSE_NO_RESOURCES_AVAILABLE", "No resources available");
    ("OSMO_PFCP_CAUSE_SERVICE_NOT_SUPPORTED", "Service not supported");
    ("OSMO_PFCP_CAUSE_SYSTEM_FAILURE", "System failure");
    ("OSMO_PFCP_CAUSE_REDIRECTION_REQUESTED", "Redirection Requested");
    ("OSMO_PFCP_CAUSE_ALL_DYNAMIC_ADDRESSES_ARE_OCCUPIED", "All dynamic addresses are occupied") ].

(* osmo_pfcp_up_feature_strs, pfcp_strs.c:351-393 *)
Definition s_up_feature : vstrs :=
  [ ("OSMO_PFCP_UP_FEAT_BUCP", "BUCP");
    ("OSMO_PFCP_UP_FEAT_DDND", "DDND");
    ("OSMO_PFCP_UP_FEAT_DLBD", "DLBD");
    ("OSMO_PFCP_UP_FEAT_TRST", "TRST");
    ("OSMO_PFCP_UP_FEAT_FTUP", "FTUP");
    ("OSMO_PFCP_UP_FEAT_PFDM", "PFDM");
    ("OSMO_PFCP_UP_FEAT_HEEU", "HEEU");
    ("OSMO_PFCP_UP_FEAT_TREU", "TREU");
    ("OSMO_PFCP_UP_FEAT_EMPU", "EMPU");
    ("OSMO_PFCP_UP_FEAT_PDIU", "PDIU");
    ("OSMO_PFCP_UP_FEAT_UDBC", "UDBC");
    ("OSMO_PFCP_UP_FEAT_QUOAC", "QUOAC");
    ("OSMO_PFCP_UP_FEAT_TRACE", "TRACE");
    ("OSMO_PFCP_UP_FEAT_FRRT", "FRRT");
    ("OSMO_PFCP_UP_FEAT_PFDE", "PFDE");
    ("OSMO_PFCP_UP_FEAT_EPFAR", "EPFAR");
    ("OSMO_PFCP_UP_FEAT_DPDRA", "DPDRA");
    ("OSMO_PFCP_UP_FEAT_ADPDP", "ADPDP");
    ("OSMO_PFCP_UP_FEAT_UEIP", "UEIP");
    ("OSMO_PFCP_UP_FEAT_SSET", "SSET");
    ("OSMO_PFCP_UP_FEAT_MNOP", "MNOP");
    ("OSMO_PFCP_UP_FEAT_MTE", "MTE");
    ("OSMO_PFCP_UP_FEAT_BUNDL", "BUNDL");
    ("OSMO_PFCP_UP_FEAT_GCOM", "GCOM");
    ("OSMO_PFCP_UP_FEAT_MPAS", "MPAS");
    ("OSMO_PFCP_UP_FEAT_RTTL", "RTTL");
    ("OSMO_PFCP_UP_FEAT_VTIME", "VTIME");
    ("OSMO_PFCP_UP_FEAT_NORP", "NORP");
    ("OSMO_PFCP_UP_FEAT_IP6PL", "IP6PL");
    ("OSMO_PFCP_UP_FEAT_TSCU", "TSCU");
    ("OSMO_PFCP_UP_FEAT_MPTCP", "MPTCP");
    ("OSMO_PFCP_UP_FEAT_ATSSSLL", "ATSSSLL");
    ("OSMO_PFCP_UP_FEAT_QFQM", "QFQM");
    ("OSMO_PFCP_UP_FEAT_GPQM", "GPQM");
    ("OSMO_PFCP_UP_FEAT_MTEDT", "MTEDT");
    ("OSMO_PFCP_UP_FEAT_CIOT", "CIOT");
    ("OSMO_PFCP_UP_FEAT_ETHAR", "ETHAR");
    ("OSMO_PFCP_UP_FEAT_DDDS", "DDDS");
    ("OSMO_PFCP_UP_FEAT_RDS", "RDS");
    ("OSMO_PFCP_UP_FEAT_RTTWP", "RTTWP") ].

(* osmo_pfcp_cp_feature_strs, pfcp_strs.c:396-406 *)
Definition s_cp_feature : vstrs :=
  [ ("OSMO_PFCP_CP_FEAT_LOAD", "LOAD");
    ("OSMO_PFCP_CP_FEAT_OVRL", "OVRL");
    ("OSMO_PFCP_CP_FEAT_EPFAR", "EPFAR");
    ("OSMO_PFCP_CP_FEAT_SSET", "SSET");
    ("OSMO_PFCP_CP_FEAT_BUNDL", "BUNDL");
    ("OSMO_PFCP_CP_FEAT_MPAS", "MPAS");
    ("OSMO_PFCP_CP_FEAT_ARDR", "ARDR");
    ("OSMO_PFCP_CP_FEAT_UIAUR", "UIAUR") ].

(* osmo_pfcp_apply_action_strs, pfcp_strs.c:408-421 *)
Definition s_apply_action : vstrs :=
  [ ("OSMO_PFCP_APPLY_ACTION_DROP", "DROP");
    ("OSMO_PFCP_APPLY_ACTION_FORW", "FORW");
    ("OSMO_PFCP_APPLY_ACTION_BUFF", "BUFF");
    ("OSMO_PFCP_APPLY_ACTION_NOCP", "NOCP");
    ("OSMO_PFCP_APPLY_ACTION_DUPL", "DUPL");
    ("OSMO_PFCP_APPLY_ACTION_IPMA", "IPMA");
    ("OSMO_PFCP_APPLY_ACTION_IPMD", "IPMD");
    ("OSMO_PFCP_APPLY_ACTION_DFRT", "DFRT");
    ("OSMO_PFCP_APPLY_ACTION_EDRT", "EDRT");
    ("OSMO_PFCP_APPLY_ACTION_BDPN", "BDPN");
    ("OSMO_PFCP_APPLY_ACTION_DDPN", "DDPN") ].

(* osmo_pfcp_outer_header_creation_strs, pfcp_strs.c:423-435 *)
Definition s_outer_header_creation : vstrs :=
  [ ("OSMO_PFCP_OUTER_HEADER_CREATION_GTP_U_UDP_IPV4", "GTP_U_UDP_IPV4");
    ("OSMO_PFCP_OUTER_HEADER_CREATION_GTP_U_UDP_IPV6", "GTP_U_UDP_IPV6");
    ("OSMO_PFCP_OUTER_HEADER_CREATION_UDP_IPV4", "UDP_IPV4");
    ("OSMO_PFCP_OUTER_HEADER_CREATION_UDP_IPV6", "UDP_IPV6");
    ("OSMO_PFCP_OUTER_HEADER_CREATION_IPV4", "IPV4");
    ("OSMO_PFCP_OUTER_HEADER_CREATION_IPV6", "IPV6");
    ("OSMO_PFCP_OUTER_HEADER_CREATION_C_TAG", "C_TAG");
    ("OSMO_PFCP_OUTER_HEADER_CREATION_S_TAG", "S_TAG");
    ("OSMO_PFCP_OUTER_HEADER_CREATION_N19_INDICATION", "N19_INDICATION");
    ("OSMO_PFCP_OUTER_HEADER_CREATION_N6_INDICATION", "N6_INDICATION") ].

(* osmo_pfcp_outer_header_removal_desc_strs, pfcp_strs.c:437-448 *)
Definition s_outer_header_removal_desc : vstrs :=
  [ ("OSMO_PFCP_OUTER_HEADER_REMOVAL_GTP_U_UDP_IPV4", "GTP_U_UDP_IPV4");
    ("OSMO_PFCP_OUTER_HEADER_REMOVAL_GTP_U_UDP_IPV6", "GTP_U_UDP_IPV6");
    ("OSMO_PFCP_OUTER_HEADER_REMOVAL_UDP_IPV4", "UDP_IPV4");
    ("OSMO_PFCP_OUTER_HEADER_REMOVAL_UDP_IPV6", "UDP_IPV6");
    ("OSMO_PFCP_OUTER_HEADER_REMOVAL_IPV4", "IPV4");
    ("OSMO_PFCP_OUTER_HEADER_REMOVAL_IPV6", "IPV6");
    ("OSMO_PFCP_OUTER_HEADER_REMOVAL_GTP_U_UDP_IP", "GTP_U_UDP_IP");
    ("OSMO_PFCP_OUTER_HEADER_REMOVAL_VLAN_S_TAG", "VLAN_S_TAG");
    ("OSMO_PFCP_OUTER_HEADER_REMOVAL_S_TAG_AND_C_TAG", "S_TAG_AND_C_TAG") ].

(* osmo_pfcp_source_iface_strs, pfcp_strs.c:450-457 *)
Definition s_source_iface : vstrs :=
  [ ("OSMO_PFCP_SOURCE_IFACE_ACCESS", "Access");
    ("OSMO_PFCP_SOURCE_IFACE_CORE", "Core");
    ("OSMO_PFCP_SOURCE_IFACE_SGI_LAN_N6_LAN", "SGi-LAN/N6-LAN");
    ("OSMO_PFCP_SOURCE_IFACE_CP_FUNCTION", "CP-function");
    ("OSMO_PFCP_SOURCE_IFACE_5G_VN_INTERNAL", "5G-VN-Internal") ].

(* osmo_pfcp_dest_iface_strs, pfcp_strs.c:459-467 *)
Definition s_dest_iface : vstrs :=
  [ ("OSMO_PFCP_DEST_IFACE_ACCESS", "Access");
    ("OSMO_PFCP_DEST_IFACE_CORE", "Core");
    ("OSMO_PFCP_DEST_IFACE_SGI_LAN_N6_LAN", "SGi-LAN/N6-LAN");
    ("OSMO_PFCP_DEST_IFACE_CP_FUNCTION", "CP-function");
    ("OSMO_PFCP_DEST_IFACE_LI_FUNCTION", "LI-function");
    ("OSMO_PFCP_DEST_IFACE_5G_VN_INTERNAL", "5G-VN-Internal") ].

(* osmo_pfcp_3gpp_iface_type_strs, pfcp_strs.c:469-492 *)
Definition s_3gpp_iface_type : vstrs :=
  [ ("OSMO_PFCP_3GPP_IFACE_TYPE_S1_U", "S1_U");
    ("OSMO_PFCP_3GPP_IFACE_TYPE_S5_S8_U", "S5_S8_U");
    ("OSMO_PFCP_3GPP_IFACE_TYPE_S4_U", "S4_U");
    ("OSMO_PFCP_3GPP_IFACE_TYPE_S11_U", "S11_U");
    ("OSMO_PFCP_3GPP_IFACE_TYPE_S12_U", "S12_U");
    ("OSMO_PFCP_3GPP_IFACE_TYPE_GN_GP_U", "GN_GP_U");
    ("OSMO_PFCP_3GPP_IFACE_TYPE_S2A_U", "S2A_U");
    ("OSMO_PFCP_3GPP_IFACE_TYPE_S2B_U", "S2B_U");
    ("OSMO_PFCP_3GPP_IFACE_TYPE_ENODEB_GTP_U_INTERFACE_FOR_DL_DATA_FORWARDING", "ENODEB_GTP_U_INTERFACE_FOR_DL_DATA_FORWARDING");
    ("OSMO_PFCP_3GPP_IFACE_TYPE_ENODEB_GTP_U_INTERFACE_FOR_UL_DATA_FORWARDING", "ENODEB_GTP_U_INTERFACE_FOR_UL_DATA_FORWARDING");
    ("OSMO_PFCP_3GPP_IFACE_TYPE_SGW_UPF_GTP_U_INTERFACE_FOR_DL_DATA_FORWARDING", "SGW_UPF_GTP_U_INTERFACE_FOR_DL_DATA_FORWARDING");
    ("OSMO_PFCP_3GPP_IFACE_TYPE_N3_3GPP_ACCESS", "N3_3GPP_ACCESS");
    ("OSMO_PFCP_3GPP_IFACE_TYPE_N3_TRUSTED_NON_3GPP_ACCESS", "N3_TRUSTED_NON_3GPP_ACCESS");
    ("OSMO_PFCP_3GPP_IFACE_TYPE_N3_UNTRUSTED_NON_3GPP_ACCESS", "N3_UNTRUSTED_NON_3GPP_ACCESS");
    ("OSMO_PFCP_3GPP_IFACE_TYPE_N3_FOR_DATA_FORWARDING", "N3_FOR_DATA_FORWARDING");
    ("OSMO_PFCP_3GPP_IFACE_TYPE_N9", "N9");
    ("OSMO_PFCP_3GPP_IFACE_TYPE_SGI", "SGI");
    ("OSMO_PFCP_3GPP_IFACE_TYPE_N6", "N6");
    ("OSMO_PFCP_3GPP_IFACE_TYPE_N19", "N19");
    ("OSMO_PFCP_3GPP_IFACE_TYPE_S8_U", "S8_U");
    ("OSMO_PFCP_3GPP_IFACE_TYPE_GP_U", "GP_U") ].

