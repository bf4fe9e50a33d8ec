(* NamesSpec.v -- what C76 is about: the tables, and the IEs a message can contain *)
From Coq Require Import String Ascii.
From Verif Require Import Base GtlvModel DecEncModel IesModel TablesModel MsgModel StrModel NamesModel.
Open Scope string_scope.
Open Scope list_scope.
Open Scope N_scope.

(* the texts of the library: those of inet_ntop() etc. remain arguments *)
Definition pfcp_texts (sa_text : sa -> list N) (quote : list N -> list N) : texts :=
  mkTexts (name_of e_cause s_cause) (name_of e_iei s_iei) (name_of e_message_type s_message_type) (name_of e_3gpp_iface_type s_3gpp_iface_type)
    (name_of e_source_iface s_source_iface) (name_of e_dest_iface s_dest_iface) (name_of e_outer_header_removal_desc s_outer_header_removal_desc)
    sa_text quote.

(* all enumerations with a table *)
Definition tables : list (enum * vstrs) :=
  [ (e_message_type, s_message_type); (e_iei, s_iei); (e_cause, s_cause); (e_up_feature, s_up_feature); (e_cp_feature, s_cp_feature);
    (e_apply_action, s_apply_action); (e_outer_header_creation, s_outer_header_creation);
    (e_outer_header_removal_desc, s_outer_header_removal_desc); (e_source_iface, s_source_iface); (e_dest_iface, s_dest_iface);
    (e_3gpp_iface_type, s_3gpp_iface_type) ].
(* the two enumerators that stand for "nothing" *)
Definition no_name (nm : string) : bool := String.eqb nm "OSMO_PFCP_MSGT_NONE" || String.eqb nm "OSMO_PFCP_INVALID_IEI".
(* the tables in which the text is the identifier without this prefix *)
Definition prefixed : list (string * vstrs) :=
  [ ("OSMO_PFCP_MSGT_", s_message_type); ("OSMO_PFCP_UP_FEAT_", s_up_feature); ("OSMO_PFCP_CP_FEAT_", s_cp_feature);
    ("OSMO_PFCP_APPLY_ACTION_", s_apply_action); ("OSMO_PFCP_OUTER_HEADER_CREATION_", s_outer_header_creation);
    ("OSMO_PFCP_OUTER_HEADER_REMOVAL_", s_outer_header_removal_desc); ("OSMO_PFCP_3GPP_IFACE_TYPE_", s_3gpp_iface_type) ].

(* the values of 3GPP TS 29.244: 8.2.1 (Cause), 8.2.2, 8.2.24 (interfaces), 8.2.38 (Node ID) *)
Definition numbers : list (string * enum * list (string * N)) :=
  [ ("OSMO_PFCP_CAUSE_", e_cause,
     [ ("RESERVED", 0); ("REQUEST_ACCEPTED", 1); ("MORE_USAGE_REPORT_TO_SEND", 2); ("REQUEST_REJECTED", 64); ("SESSION_CTX_NOT_FOUND", 65);
       ("MANDATORY_IE_MISSING", 66); ("CONDITIONAL_IE_MISSING", 67); ("INVALID_LENGTH", 68); ("MANDATORY_IE_INCORRECT", 69);
       ("INVALID_FORW_POLICY", 70); ("INVALID_F_TEID_ALLOC_OPTION", 71); ("NO_ESTABLISHED_PFCP_ASSOC", 72); ("RULE_CREATION_MOD_FAILURE", 73);
       ("PFCP_ENTITY_IN_CONGESTION", 74); ("NO_RESOURCES_AVAILABLE", 75); ("SERVICE_NOT_SUPPORTED", 76); ("SYSTEM_FAILURE", 77);
       ("REDIRECTION_REQUESTED", 78); ("ALL_DYNAMIC_ADDRESSES_ARE_OCCUPIED", 79) ]);
    ("OSMO_PFCP_SOURCE_IFACE_", e_source_iface,
     [ ("ACCESS", 0); ("CORE", 1); ("SGI_LAN_N6_LAN", 2); ("CP_FUNCTION", 3); ("5G_VN_INTERNAL", 4) ]);
    ("OSMO_PFCP_DEST_IFACE_", e_dest_iface,
     [ ("ACCESS", 0); ("CORE", 1); ("SGI_LAN_N6_LAN", 2); ("CP_FUNCTION", 3); ("LI_FUNCTION", 4); ("5G_VN_INTERNAL", 5) ]);
    ("OSMO_PFCP_NODE_ID_T_", e_node_id_type, [ ("IPV4", 0); ("IPV6", 1); ("FQDN", 2) ]);
    ("OSMO_PFCP_APPLY_ACTION_", e_apply_action,
     [ ("DROP", 0); ("FORW", 1); ("BUFF", 2); ("NOCP", 3); ("DUPL", 4); ("IPMA", 5); ("IPMD", 6); ("DFRT", 7); ("EDRT", 8); ("BDPN", 9); ("DDPN", 10) ]) ].

(* an IE with tag [tg] can occur in this struct, at any depth *)
Inductive uses : list pcoding -> N -> Prop :=
  | uses_leaf ies h k : In (PLeaf h k) ies -> uses ies (ti_tag (h_ti h))
  | uses_nest ies h l : In (PNest h l) ies -> uses ies (ti_tag (h_ti h))
  | uses_deep ies h l tg : In (PNest h l) ies -> uses l tg -> uses ies tg.
