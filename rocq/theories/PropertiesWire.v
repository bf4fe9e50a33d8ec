(* PropertiesWire.v -- property theorems C95 and C96: from the application to the octets on the wire, and back. Proofs are in WireProofs.v;
   the vocabulary is in WireSpec.v, EndpointSpec.v, ReadSpec.v (what octets mean) and PutSpec.v (valid contents). *)
From Verif Require Import Base BaseProofs GtlvModel DecEncModel IesModel TablesModel MsgModel MsgSpec EndpointModel EndpointSpec AcceptSpec ReadSpec ReadProofs PutSpec
  WireSpec WireProofs PropertiesEndpoint.

(* ---------------------------------------------------------------- C95 *)
(* Every datagram sent for a message: the application called osmo_pfcp_endpoint_tx() with this message for this address; if it is valid with the
   endpoint's own Node ID in it, the datagram is one message that means just that, with the application's sequence number if it
   is a response, with the number drawn for it if it is a request. *)
Theorem C95_sent_message c time evs s id t to bs : run c (ep_create time) evs = Ok s -> In (OSend (Some id) t to bs) (e_trace s) ->
  exists h ies cb snd k ev nr, In ev evs /\ event_makes ev (CTx to h ies cb snd k) /\ In (OTx id to h ies cb) (e_trace s)
    /\ (if is_response (hd_type h) then nr = hd_seq h else In (OSeq (Some id) nr) (e_trace s) /\ 1 <= nr < 2 ^ 24)
    /\ forall l, In (hd_type h, l) s_messages ->
         let m := mkHdr (hd_version h) (hd_type h) (hd_prio h) (hd_seid h) nr in
         sendable m (with_node (c_node c) l ies) -> means bs m (with_node (c_node c) l ies).
Proof. exact (wire_sent_message c time evs s id t to bs). Qed.
Print Assumptions C95_sent_message.
(* Every other datagram is sent by osmo_pfcp_endpoint_tx_data(), or is a Heartbeat Request that the application asked for, or answers a
   Heartbeat Request received from that address; both say when the endpoint was created. *)
Theorem C95_sent_unqueued c time evs s t to bs : run c (ep_create time) evs = Ok s -> octets_only evs -> In (OSend None t to bs) (e_trace s) ->
  let recov := (25567 * 86400 + time) mod 2 ^ 32 in
  exists ev, In ev evs /\
  ((exists h ies snd, event_makes ev (CTxData to h ies snd) /\ (sendable h ies -> means bs h ies))
   \/ (exists snd nr, event_makes ev (CHeartbeat to snd) /\ 1 <= nr < 2 ^ 24 /\ means bs (mkHdr 1 1 None None nr) [[VLeaf (IvNum recov)]])
   \/ (exists d vs p h ies, ev = ERx to d vs /\ message_in d p /\ message_means p (RxMsg h ies) /\ hd_type h = 1
        /\ means bs (mkHdr 1 2 None None (hd_seq h)) [[VLeaf (IvNum recov)]])).
Proof. exact (wire_sent_unqueued c time evs s t to bs). Qed.
Print Assumptions C95_sent_unqueued.
Definition C95_bs : list N := [32; 5; 0; 21; 0; 0; 1; 0; 0; 60; 0; 5; 0; 127; 0; 0; 1; 0; 96; 0; 4; 0; 0; 0; 7].
Definition C95_l : list ie := match find (fun x => fst x =? 5) s_messages with Some x => snd x | None => [] end.
(* the application's Node ID 9.9.9.9 is replaced by the endpoint's 127.0.0.1 *)
Example C95_example : In (OSend (Some 0) 0 ex_A C95_bs) (e_trace (ex_st ex_two)) /\ In (5, C95_l) s_messages
  /\ with_node (c_node ex_c) C95_l ex_req_ies = [[VLeaf (IvNode (NodeV4 (Sa4 [127; 0; 0; 1] 0)))]; [VLeaf (IvNum 7)]; []; []]
  /\ sendable (mkHdr 1 5 None None 1) (with_node (c_node ex_c) C95_l ex_req_ies)
  /\ means C95_bs (mkHdr 1 5 None None 1) (with_node (c_node ex_c) C95_l ex_req_ies).
Proof.
  assert (Hl : In (5, C95_l) s_messages) by (vm_compute; tauto).
  assert (S : sendable (mkHdr 1 5 None None 1) (with_node (c_node ex_c) C95_l ex_req_ies)).
  { exists C95_l. split; [exact Hl|]. split; [repeat split|]. split; [|vm_compute; discriminate].
    assert (E : C95_l = [Ie 60 Once KNodeId; Ie 96 Once K32; Ie 43 Optional KUpFF; Ie 89 Optional KCpFF]) by (vm_compute; reflexivity). rewrite E.
    unfold valid_body. cbn [with_node ex_req_ies iei_of]. cbn [valid_slots]. repeat split; repeat constructor; [|vm_compute; discriminate|vm_compute; discriminate].
    exists [127; 0; 0; 1]. split; [reflexivity|]. split; [reflexivity|repeat constructor]. }
  split; [vm_compute; tauto|]. split; [exact Hl|]. split; [vm_compute; reflexivity|]. split; [exact S|]. apply encode_means; [exact S|vm_compute; reflexivity].
Qed.
Example C95_unqueued_example : exists s', run ex_c (ep_create 1000) (ex_two ++ [ERx ex_B (ex_hb 1 ++ ex_hb 2) (fun _ => ex_env [] [])]) = Ok s'
  /\ In (OSend None 100 ex_B [32; 2; 0; 12; 0; 0; 2; 0; 0; 96; 0; 4; 131; 170; 130; 104]) (e_trace s')
  /\ octets_only (ex_two ++ [ERx ex_B (ex_hb 1 ++ ex_hb 2) (fun _ => ex_env [] [])]).
Proof. eexists. split; [vm_compute; reflexivity|]. split; [vm_compute; tauto|]. repeat constructor. Qed.

(* ---------------------------------------------------------------- C96 *)
(* Everything that the receive callback gets was received, in a datagram from that address, as a complete message that means just that. *)
Theorem C96_received c time evs s from h ies r : run c (ep_create time) evs = Ok s -> octets_only evs -> In (ODispatch from h ies r) (e_trace s) ->
  exists d vs p, In (ERx from d vs) evs /\ message_in d p /\ message_means p (RxMsg h ies).
Proof. exact (wire_dispatched c time evs s from h ies r). Qed.
Print Assumptions C96_received.
(* So is everything a response callback gets, but it may come from any address (C36, C37). *)
Theorem C96_response_received c time evs s id h ies : run c (ep_create time) evs = Ok s -> octets_only evs -> In (OResp id (Some (h, ies))) (e_trace s) ->
  exists from d vs p, In (ERx from d vs) evs /\ message_in d p /\ message_means p (RxMsg h ies).
Proof. exact (wire_response c time evs s id h ies). Qed.
Print Assumptions C96_response_received.
Definition C96_resp : event := ERx ex_B [32; 6; 0; 26; 0; 0; 1; 0; 0; 60; 0; 5; 0; 9; 9; 9; 9; 0; 19; 0; 1; 1; 0; 96; 0; 4; 0; 0; 0; 7] (fun _ => ex_env [] []).
Example C96_example : octets_only ex_server /\ (exists r, In (ODispatch ex_A (mkHdr 1 5 None None 5) ex_req_ies r) (e_trace (ex_st ex_server)))
  /\ octets_only (ex_two ++ [C96_resp]) /\ In (OResp 0 (Some (ex_resp 1, ex_resp_ies))) (e_trace (ex_st (ex_two ++ [C96_resp]))).
Proof.
  split; [repeat constructor|]. split; [exists None; vm_compute; tauto|]. split; [repeat constructor|]. vm_compute. tauto.
Qed.
