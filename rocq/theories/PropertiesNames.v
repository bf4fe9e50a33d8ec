(* PropertiesNames.v -- the names of message types, IE types, causes etc. (C76). Tables: NamesModel.v; proofs: NamesProofs.v *)
From Coq Require Import String Ascii.
From Verif Require Import Base GtlvModel DecEncModel IesModel TablesModel MsgModel StrModel StrSpec StrProofs NamesModel NamesSpec NamesProofs GenPfcp.
Open Scope string_scope.
Open Scope list_scope.
Open Scope N_scope.

(* ---------------------------------------------------------------- C76 *)
(* [tables]: the eleven enumerations of pfcp_proto.h that have a value_string table. The osmo_pfcp_*_str() functions give different
   values -- any values, with or without enumerator -- different names. *)
Theorem C76_names_differ e t v w : In (e, t) tables -> name_of e t v = name_of e t w -> v = w.
Proof. exact (name_inj e t v w). Qed.
Print Assumptions C76_names_differ.
(* Every enumerator (except the two that stand for "nothing") has exactly one text, and it is the one returned for its value; no
   two enumerators of an enumeration have the same value. *)
Theorem C76_every_enumerator e t nm v : In (e, t) tables -> In (nm, v) (enumerators e) -> nm <> "OSMO_PFCP_MSGT_NONE" -> nm <> "OSMO_PFCP_INVALID_IEI" ->
  (exists s, In (nm, s) t /\ (forall s', In (nm, s') t -> s' = s) /\ name_of e t v = str s) /\ (forall nm', In (nm', v) (enumerators e) -> nm' = nm).
Proof.
  exact (fun Ht Hv H1 H2 => conj
    (name_enumerator e t nm v Ht Hv (eq_trans (f_equal2 orb (proj2 (String.eqb_neq _ _) H1) (proj2 (String.eqb_neq _ _) H2)) eq_refl))
    (fun nm' H => name_values e t nm' nm v Ht H Hv)).
Qed.
Print Assumptions C76_every_enumerator.
(* Every other value is printed as "unknown 0x" and its hexadecimal notation. *)
Theorem C76_other_values e t v : In (e, t) tables -> (forall nm, In (nm, v) (enumerators e) -> nm = "OSMO_PFCP_MSGT_NONE" \/ nm = "OSMO_PFCP_INVALID_IEI") ->
  name_of e t v = str "unknown 0x" ++ pf_x v.
Proof.
  intros Ht Hv. apply (name_unknown e t v Ht). intros nm H. destruct (Hv nm H) as [-> | ->]; reflexivity.
Qed.
Print Assumptions C76_other_values.
(* In the tables of message types, feature bits, apply action, outer header creation / removal and 3GPP interface types the text is
   the identifier without its prefix. *)
Theorem C76_text_is_identifier p t nm s : In (p, t) prefixed -> In (nm, s) t -> nm = (p ++ s)%string.
Proof. exact (prefixed_ok p t nm s). Qed.
Print Assumptions C76_text_is_identifier.
(* Every message type that can be encoded or decoded, and every IE of these messages at any depth, has an enumerator, hence a
   name of its own. *)
Theorem C76_coded_have_names t ies : get_msg_coding t = Some ies ->
  (exists nm, In (nm, t) (enumerators e_message_type) /\ no_name nm = false)
  /\ forall tg, uses ies tg -> exists nm, In (nm, tg) (enumerators e_iei) /\ no_name nm = false.
Proof. exact (coded_named t ies). Qed.
Print Assumptions C76_coded_have_names.
(* The text of a message (C57) identifies its header: version, type, sequence number, message priority and SEID. *)
Theorem C76_text_identifies_header sa_text quote h h' r r' :
  msg_hdr_text (pfcp_texts sa_text quote) h ++ r = msg_hdr_text (pfcp_texts sa_text quote) h' ++ r' -> h = h'.
Proof. exact (fun H => proj1 (hdr_identifies sa_text quote h h' r r' H)). Qed.
Print Assumptions C76_text_identifies_header.

(* The enumerators of these enumerations have the values of the standard, and there are no others. *)
Theorem C76_numbers p e l : In (p, e, l) numbers -> enumerators e = map (fun x => ((p ++ fst x)%string, snd x)) l.
Proof. exact (numbers_ok p e l). Qed.
Print Assumptions C76_numbers.
(* The enumerators the generated tables refer to (C62..C68) and the bit names of C57 are those of these enumerations and tables. *)
Theorem C76_same_enumerators : pfcp_enums = enumerators e_message_type ++ enumerators e_iei
  /\ vs_array e_up_feature s_up_feature = Some up_feature_strs /\ vs_array e_cp_feature s_cp_feature = Some cp_feature_strs
  /\ vs_array e_apply_action s_apply_action = Some apply_action_strs /\ vs_array e_outer_header_creation s_outer_header_creation = Some ohc_strs.
Proof. split; [vm_compute; reflexivity|exact bit_tables]. Qed.
Print Assumptions C76_same_enumerators.

Example C76_example : In (e_message_type, s_message_type) tables /\ In (e_iei, s_iei) tables
  /\ In ("OSMO_PFCP_UP_FEAT_RTTWP", 39) (enumerators e_up_feature)
  /\ name_of e_message_type s_message_type 51 = str "SESSION_EST_RESP" /\ name_of e_message_type s_message_type 0 = str "unknown 0x0"
  /\ name_of e_iei s_iei 84 = str "Outer Header Creation" /\ name_of e_iei s_iei 300 = str "unknown 0x12c"
  /\ name_of e_cause s_cause 0 = str "0" /\ name_of e_up_feature s_up_feature 22 = str "BUNDL"
  /\ In ("OSMO_PFCP_MSGT_", s_message_type) prefixed
  /\ uses ies_session_est_req 21 /\ get_msg_coding 50 = Some ies_session_est_req
  /\ msg_hdr_text (pfcp_texts (fun _ => []) (fun s => s)) (mkHdr 1 50 None (Some 291) 7) = str "PFCPv1 SESSION_EST_REQ hdr={seq=7 SEID=0x123} ies={".
Proof.
  split; [left; reflexivity|]. split; [right; left; reflexivity|]. split; [do 39 right; left; reflexivity|].
  split; [vm_compute; reflexivity|]. split; [vm_compute; reflexivity|]. split; [vm_compute; reflexivity|]. split; [vm_compute; reflexivity|].
  split; [vm_compute; reflexivity|]. split; [vm_compute; reflexivity|]. split; [left; reflexivity|].
  split; [|split; [reflexivity|vm_compute; reflexivity]].
  apply (uses_deep _ (pMULTI iei_create_pdr max_multi 1) ies_create_pdr).
  { unfold ies_session_est_req. repeat (first [left; reflexivity | right]). }
  apply (uses_deep _ (pM iei_pdi) ies_pdi).
  { unfold ies_create_pdr. repeat (first [left; reflexivity | right]). }
  apply (uses_leaf _ (pO iei_f_teid) KFTeid). unfold ies_pdi. repeat (first [left; reflexivity | right]).
Qed.
