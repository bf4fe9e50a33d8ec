(* PropertiesNet.v -- the property theorems C69 .. C75, C80, C83: several endpoints that exchange datagrams. Proofs are in NetProofs.v,
   NetFinal.v, NetProps.v, NetLive.v, NetAssoc.v and NetTrip.v. The vocabulary of the statements is in NetModel.v. [wexec nw delay late l w]: the nodes [nw] are
   in the states [w] after the history [l] (newest event first); the network may lose, delay, duplicate and reorder
   datagrams. Node [i] has the address [n_addr (nw i)]. [e_trace (w i)] is what could be observed at node [i], newest first. *)
From Verif Require Import Base BaseProofs GtlvModel DecEncModel IesModel TablesModel MsgModel MsgSpec EndpointModel EndpointSpec CpPeerModel CpPeerSpec NetModel
  NetFinal NetProps NetLive NetAssoc NetTrip NetTest.

(* ---------------------------------------------------------------- C69 *)
(* A message that is given to the receive callback as coming from [from] was sent to this node by the node at [from] -- by its
   application, in all fields, or it is a heartbeat of the endpoint there. *)
Theorem C69_dispatch_integrity nw delay late l w j from h ies r : wexec nw delay late l w -> In (ODispatch from h ies r) (e_trace (w j)) ->
  exists i x t d, n_addr (nw i) = from /\ In (OSend x t (n_addr (nw j)) d) (e_trace (w i)) /\ encode_msg h ies = Ok d
    /\ sent_msg (n_cfg (nw i)) (w i) (n_addr (nw j)) h ies.
Proof. exact (dispatch_integrity nw delay late l w j from h ies r). Qed.
Print Assumptions C69_dispatch_integrity.
(* So does every message given to a response callback. *)
Theorem C69_response_integrity nw delay late l w j id h ies : wexec nw delay late l w -> In (OResp id (Some (h, ies))) (e_trace (w j)) ->
  exists i x t d, In (OSend x t (n_addr (nw j)) d) (e_trace (w i)) /\ encode_msg h ies = Ok d
    /\ sent_msg (n_cfg (nw i)) (w i) (n_addr (nw j)) h ies.
Proof. exact (response_integrity nw delay late l w j id h ies). Qed.
Print Assumptions C69_response_integrity.
Example C69_example : wexec nt_nw (Some 100) (Some 50) (nt_once ++ nt_start) (play nt_nw (nt_once ++ nt_start))
  /\ In (ODispatch (nt_addr 1) (mkHdr 1 5 None None 1) nt_req_ies None) (e_trace (play nt_nw (nt_once ++ nt_start) 0%nat))
  /\ In (OResp 0 (Some (nt_resp 1, nt_resp_ies))) (e_trace (play nt_nw (nt_once ++ nt_start) 1%nat)).
Proof. split; [apply play_exec, nt_once_ok|]. split; vm_compute; tauto. Qed.

(* ---------------------------------------------------------------- C70 *)
(* In such a system nothing ever goes wrong: whatever may happen next at any node is executed without undefined behaviour
   and without a failing assertion. *)
Theorem C70_no_undefined_behaviour nw delay late l w j ev : wexec nw delay late l w -> good_event (n_cfg (nw j)) ev ->
  match ev with ERx from d _ => in_flight nw delay w from (n_addr (nw j)) d | _ => True end ->
  exists s, step (n_cfg (nw j)) (w j) ev = Ok s.
Proof. exact (system_safe nw delay late l w j ev). Qed.
Print Assumptions C70_no_undefined_behaviour.
(* Every datagram on its way to a node is accepted there: it decodes to exactly one message, the one that was encoded. *)
Theorem C70_every_datagram_decodes nw delay late l w j from d : wexec nw delay late l w -> in_flight nw delay w from (n_addr (nw j)) d ->
  exists h ies, rx_datagram d = [RxMsg h ies] /\ encode_msg h ies = Ok d.
Proof. exact (datagram_is_message nw delay late l w j from d). Qed.
Print Assumptions C70_every_datagram_decodes.
Example C70_example : wexec nt_nw (Some 100) (Some 50) (nt_tx 1 :: nt_start) (play nt_nw (nt_tx 1 :: nt_start))
  /\ in_flight nt_nw (Some 100) (play nt_nw (nt_tx 1 :: nt_start)) (nt_addr 1) (n_addr (nt_nw 0)) (nt_req_bytes 1)
  /\ match nt_serve 1 1 with WNode _ ev => good_event (nt_cfg 0) ev | _ => False end.
Proof.
  split; [apply play_exec, nt_all; [repeat constructor|vm_compute; reflexivity]|]. split; [apply nt_fly_ok; vm_compute; reflexivity|].
  intros k. cbn. repeat split. exact (nt_resp_good 1 0 eq_refl).
Qed.

(* ---------------------------------------------------------------- C71 *)
(* Requests are given to the receive callback at most once, however often they are retransmitted or duplicated on the way:
   if the callback answers at once, responses are kept long enough (for N1 retransmissions at all peers, [T1] + [L] apart,
   and a delay of [D]), nobody sets the sequence number state, and at most 2^24 - 1 sequence numbers are drawn at each node. *)
Theorem C71_at_most_once nw D L j l1 w1 l2 w : (forall i k, n_addr (nw i) = n_addr (nw k) -> i = k) ->
  c_n1 (n_cfg (nw j)) <> 0 -> c_t1 (n_cfg (nw j)) <> 0 ->
  (forall i, c_n1 (n_cfg (nw i)) * (c_t1 (n_cfg (nw i)) + L) + D < c_keep (n_cfg (nw j))) ->
  wexec nw (Some D) (Some L) l1 w1 -> dispatched (e_trace (w1 j)) = [] -> wruns nw (Some D) (Some L) w1 l2 w -> never is_close j l2 ->
  (forall e ev, In e l2 -> In ev (node_event j e) -> answers ev) -> (forall i, never is_set_seq i (l2 ++ l1)) ->
  (forall i, N.of_nat (length (draws (e_trace (w i)))) <= 2 ^ 24 - 1) ->
  NoDup (dispatched (e_trace (w j))).
Proof. intros Hd Hn Ht Hk. exact (at_most_once nw D L Hd j Hn Ht Hk l1 w1 l2 w). Qed.
Print Assumptions C71_at_most_once.
Example C71_example : wexec nt_nw (Some 100) (Some 50) nt_start (play nt_nw nt_start) /\ dispatched (e_trace (play nt_nw nt_start 0%nat)) = []
  /\ wruns nt_nw (Some 100) (Some 50) (play nt_nw nt_start) nt_once (play nt_nw (nt_once ++ nt_start)) /\ never is_close 0 nt_once
  /\ (forall e ev, In e nt_once -> In ev (node_event 0 e) -> answers ev) /\ (forall i, never is_set_seq i (nt_once ++ nt_start))
  /\ (forall i, c_n1 (n_cfg (nt_nw i)) * (c_t1 (n_cfg (nt_nw i)) + 50) + 100 < c_keep (n_cfg (nt_nw 0)))
  /\ (forall i, N.of_nat (length (draws (e_trace (play nt_nw (nt_once ++ nt_start) i)))) <= 2 ^ 24 - 1)
  /\ dispatched (e_trace (play nt_nw (nt_once ++ nt_start) 0%nat)) = [(nt_addr 1, 1)]
  /\ count (fun o => match o with OSend _ _ _ _ => true | _ => false end) (e_trace (play nt_nw (nt_once ++ nt_start) 0%nat)) = 3.
Proof.
  split; [apply play_exec, nt_all; [repeat constructor|vm_compute; reflexivity]|]. split; [vm_compute; reflexivity|].
  split; [apply play_runs, nt_once_ok|]. split; [|split; [|split; [|split; [|split; [|split]]]]].
  - apply nt_never. repeat constructor; intros; reflexivity.
  - intros e ev H1 H2. assert (X : Forall (fun e => Forall answers (node_event 0 e)) nt_once).
    { unfold nt_once. cbn [rev app]. repeat (constructor; [first [constructor; [apply nt_serve_answers|constructor]|repeat constructor]|]). constructor. }
    rewrite Forall_forall in X. specialize (X e H1). rewrite Forall_forall in X. exact (X ev H2).
  - intros i. apply nt_never. destruct i as [|[|[|i]]]; repeat constructor; intros; reflexivity.
  - intros i. vm_compute. reflexivity.
  - intros i. destruct i as [|[|[|i]]]; vm_compute; discriminate.
  - vm_compute. reflexivity.
  - vm_compute. reflexivity.
Qed.
(* The callback has to answer at once: a request whose answer is still being worked on is given to it again when a
   retransmission arrives. *)
Theorem C71_slow_answer_refuted : exists nw D L l w j, (forall i k, n_addr (nw i) = n_addr (nw k) -> i = k) /\ wexec nw (Some D) (Some L) l w
  /\ (forall i, c_n1 (n_cfg (nw i)) * (c_t1 (n_cfg (nw i)) + L) + D < c_keep (n_cfg (nw j))) /\ ~ NoDup (dispatched (e_trace (w j))).
Proof.
  exists nt_nw, 100, 50, (nt_twice ++ nt_start), (play nt_nw (nt_twice ++ nt_start)), 0%nat. split; [exact nt_distinct|].
  split; [apply play_exec, nt_twice_ok|]. split; [intros i; vm_compute; reflexivity|]. vm_compute. intros H. inversion H as [|? ? N _]. apply N. left. reflexivity.
Qed.
Print Assumptions C71_slow_answer_refuted.

(* ---------------------------------------------------------------- C72 *)
(* The response given to a request's callback comes from the node the request was addressed to, which sent it to this node
   after it had been given this very request: if applications respond only to requests they were given, nobody sets the
   sequence number state of the requesting node, and it draws at most 2^24 - 1 sequence numbers. *)
Theorem C72_answer_origin nw delay late l w i id to h0 ies0 cb h ies : (forall i k, n_addr (nw i) = n_addr (nw k) -> i = k) ->
  wexec nw delay late l w -> (forall j, only_answers (w j)) -> never is_set_seq i l -> N.of_nat (length (draws (e_trace (w i)))) <= 2 ^ 24 - 1 ->
  In (OTx id to h0 ies0 cb) (e_trace (w i)) -> In (OResp id (Some (h, ies))) (e_trace (w i)) ->
  exists j, n_addr (nw j) = to /\ In (OSeq (Some id) (hd_seq h)) (e_trace (w i)) /\ is_response (hd_type h) = true
    /\ ((exists k rh ries rcb r, In (OTx k (n_addr (nw i)) rh ries rcb) (e_trace (w j)) /\ (h, ies) = filled (n_cfg (nw j)) rh ries (hd_seq h) /\ hd_seq rh = hd_seq h
           /\ let q := filled (n_cfg (nw i)) h0 ies0 (hd_seq h) in In (ODispatch (n_addr (nw i)) (fst q) (snd q) r) (e_trace (w j)))
        \/ (hd_type h = 2 /\ hd_type h0 = 1)).
Proof. intros Hd. exact (answer_origin nw delay late Hd l w i id to h0 ies0 cb h ies). Qed.
Print Assumptions C72_answer_origin.
Example C72_example : let w := play nt_nw (nt_once ++ nt_start) in
  (forall i k, n_addr (nt_nw i) = n_addr (nt_nw k) -> i = k) /\ wexec nt_nw (Some 100) (Some 50) (nt_once ++ nt_start) w /\ (forall j, only_answers (w j)) /\ never is_set_seq 1 (nt_once ++ nt_start)
  /\ In (OTx 0 (nt_addr 0) nt_req nt_req_ies true) (e_trace (w 1%nat)) /\ In (OResp 0 (Some (nt_resp 1, nt_resp_ies))) (e_trace (w 1%nat)).
Proof.
  split; [exact nt_distinct|]. split; [apply play_exec, nt_once_ok|]. split; [|split; [|split; vm_compute; tauto]].
  - intros j. apply only_answers_ok. destruct j as [|[|[|j]]]; vm_compute; reflexivity.
  - apply nt_never. repeat constructor; intros; reflexivity.
Qed.

(* ---------------------------------------------------------------- C73 *)
(* the datagrams received from address [a] in an event *)
Definition received_from (a : sa) (ev : event) : list (list N) :=
  match ev with ERx f d _ => if sa_eq_dec f a then [d] else [] | _ => [] end.
(* One would like: a request that reaches a peer which answers every request at once is given to that peer's application.
   But sent responses are found by sequence number alone, and every endpoint counts from 1: the request of a second client
   with the same number as an earlier one of another client is answered by sending that client's response to that client
   again. Here the server receives all three transmissions of client 2's request and answers every request it is given at
   once, but is never given this one; nothing is ever sent to client 2, and its request fails. *)
Theorem C73_two_clients_refuted : exists nw D L l w, (forall i k, n_addr (nw i) = n_addr (nw k) -> i = k) /\ wexec nw (Some D) (Some L) l w
  /\ (forall e ev, In e l -> In ev (node_event 0 e) -> answers ev) /\ (forall i, never is_set_seq i l)
  /\ In (OTx 0 (n_addr (nw 0%nat)) nt_req nt_req_ies true) (e_trace (w 2%nat)) /\ count (is_send 0) (e_trace (w 2%nat)) = 3
  /\ length (flat_map (received_from (n_addr (nw 2%nat))) (flat_map (node_event 0) l)) = 3%nat
  /\ In (OResp 0 None) (e_trace (w 2%nat))
  /\ (forall h ies r, ~ In (ODispatch (n_addr (nw 2%nat)) h ies r) (e_trace (w 0%nat)))
  /\ (forall x t d, ~ In (OSend x t (n_addr (nw 2%nat)) d) (e_trace (w 0%nat))).
Proof.
  exists nt_nw, 100, 50, (nt_collide ++ nt_start), (play nt_nw (nt_collide ++ nt_start)). split; [exact nt_distinct|].
  split; [apply play_exec, nt_collide_ok|]. split; [|split; [|split; [|split; [|split; [|split; [|split]]]]]].
  - intros e ev H1 H2. assert (X : Forall (fun e => Forall answers (node_event 0 e)) (nt_collide ++ nt_start)).
    { unfold nt_collide. cbn [rev app]. repeat (constructor; [first [constructor; [apply nt_serve_answers|constructor]|repeat constructor]|]). constructor. }
    rewrite Forall_forall in X. specialize (X e H1). rewrite Forall_forall in X. exact (X ev H2).
  - intros i. apply nt_never. destruct i as [|[|[|i]]]; repeat constructor; intros; reflexivity.
  - vm_compute. tauto.
  - vm_compute. reflexivity.
  - vm_compute. reflexivity.
  - vm_compute. tauto.
  - intros h ies r H. refine (nt_nothing_for (nt_collide ++ nt_start) 0 2 _ _ H eq_refl); vm_compute; reflexivity.
  - intros x t d H. refine (nt_nothing_for (nt_collide ++ nt_start) 0 2 _ _ H eq_refl); vm_compute; reflexivity.
Qed.
Print Assumptions C73_two_clients_refuted.
(* What holds: a request that reaches a node is given to the receive callback there, unchanged, now or earlier, unless a request
   of another node with the same sequence number has been. *)
Theorem C73_request_delivered_partial nw delay late l w i j d vs s h ies : (forall i k, n_addr (nw i) = n_addr (nw k) -> i = k) ->
  wexec nw delay late l w -> only_answers (w j) -> never is_set_seq i l -> N.of_nat (length (draws (e_trace (w i)))) <= 2 ^ 24 - 1 ->
  c_n1 (n_cfg (nw j)) <> 0 -> c_t1 (n_cfg (nw j)) <> 0 -> e_open (w j) = true ->
  in_flight nw delay w (n_addr (nw i)) (n_addr (nw j)) d -> rx_datagram d = [RxMsg h ies] -> is_response (hd_type h) = false -> hd_type h <> 1 ->
  (forall f h' ies' r, In (ODispatch f h' ies' r) (e_trace (w j)) -> is_response (hd_type h') = false -> hd_seq h' = hd_seq h -> f = n_addr (nw i)) ->
  good_event (n_cfg (nw j)) (ERx (n_addr (nw i)) d vs) -> step (n_cfg (nw j)) (w j) (ERx (n_addr (nw i)) d vs) = Ok s ->
  exists r, In (ODispatch (n_addr (nw i)) h ies r) (e_trace s).
Proof. intros Hd. exact (request_delivered nw delay late Hd l w i j d vs s h ies). Qed.
Print Assumptions C73_request_delivered_partial.
Example C73_example : let l := WTick 50 :: nt_tx 1 :: nt_start in let w := play nt_nw l in
  wexec nt_nw (Some 100) (Some 50) l w /\ only_answers (w 0%nat) /\ never is_set_seq 1 l /\ e_open (w 0%nat) = true
  /\ in_flight nt_nw (Some 100) w (n_addr (nt_nw 1)) (n_addr (nt_nw 0)) (nt_req_bytes 1)
  /\ rx_datagram (nt_req_bytes 1) = [RxMsg (mkHdr 1 5 None None 1) nt_req_ies]
  /\ (forall f h r k, ~ In (ODispatch f h r k) (e_trace (w 0%nat)))
  /\ exists s, match nt_serve 1 1 with WNode j ev => good_event (nt_cfg j) ev /\ step (nt_cfg j) (w j) ev = Ok s | _ => False end.
Proof.
  split; [apply play_exec, nt_all; [repeat constructor|vm_compute; reflexivity]|]. split; [apply only_answers_ok; vm_compute; reflexivity|].
  split; [apply nt_never; repeat constructor|]. split; [vm_compute; reflexivity|]. split; [apply nt_fly_ok with (i := 1%nat); vm_compute; reflexivity|].
  split; [vm_compute; reflexivity|]. split; [intros f h r k H; vm_compute in H; exact H|]. eexists. split; [|vm_compute; reflexivity].
  intros k. cbn. repeat split. exact (nt_resp_good 1 0 eq_refl).
Qed.

(* ---------------------------------------------------------------- C74 *)
(* A response that arrives while its request has not been released completes it: it is given to the request's callback --
   to the receive callback if it has none -- and the request is released. *)
Theorem C74_answer_delivered nw delay late l w i id to h0 ies0 cb from d vs s h ies : wexec nw delay late l w ->
  never is_set_seq i l -> N.of_nat (length (draws (e_trace (w i)))) <= 2 ^ 24 - 1 -> c_n1 (n_cfg (nw i)) <> 0 -> c_t1 (n_cfg (nw i)) <> 0 -> e_open (w i) = true ->
  In (OTx id to h0 ies0 cb) (e_trace (w i)) -> is_response (hd_type h0) = false -> In (OSeq (Some id) (hd_seq h)) (e_trace (w i)) -> count (is_free id) (e_trace (w i)) = 0 ->
  in_flight nw delay w from (n_addr (nw i)) d -> rx_datagram d = [RxMsg h ies] -> is_response (hd_type h) = true ->
  good_event (n_cfg (nw i)) (ERx from d vs) -> step (n_cfg (nw i)) (w i) (ERx from d vs) = Ok s ->
  (cb = true -> In (OResp id (Some (h, ies))) (e_trace s)) /\ (cb = false -> In (ODispatch from h ies (Some id)) (e_trace s)) /\ count (is_free id) (e_trace s) = 1.
Proof. exact (answer_delivered nw delay late l w i id to h0 ies0 cb from d vs s h ies). Qed.
Print Assumptions C74_answer_delivered.
Example C74_example : let l := nt_serve 1 1 :: WTick 50 :: nt_tx 1 :: nt_start in let w := play nt_nw l in
  wexec nt_nw (Some 100) (Some 50) l w /\ never is_set_seq 1 l /\ e_open (w 1%nat) = true /\ In (OTx 0 (nt_addr 0) nt_req nt_req_ies true) (e_trace (w 1%nat))
  /\ In (OSeq (Some 0) (hd_seq (nt_resp 1))) (e_trace (w 1%nat)) /\ count (is_free 0) (e_trace (w 1%nat)) = 0
  /\ in_flight nt_nw (Some 100) w (nt_addr 0) (n_addr (nt_nw 1)) (nt_resp_bytes 1) /\ rx_datagram (nt_resp_bytes 1) = [RxMsg (nt_resp 1) nt_resp_ies]
  /\ exists s, match nt_recv 1 1 with WNode j ev => good_event (nt_cfg j) ev /\ step (nt_cfg j) (w j) ev = Ok s | _ => False end.
Proof.
  split; [apply play_exec, nt_all; [repeat constructor|vm_compute; reflexivity]|]. split; [apply nt_never; repeat constructor|].
  split; [vm_compute; reflexivity|]. split; [vm_compute; tauto|]. split; [vm_compute; tauto|]. split; [vm_compute; reflexivity|].
  split; [apply nt_fly_ok with (i := 0%nat) (j := 1%nat); vm_compute; reflexivity|]. split; [vm_compute; reflexivity|]. eexists. split; [|vm_compute; reflexivity].
  intros k. cbn. repeat split.
Qed.

(* ---------------------------------------------------------------- C75 *)
(* Node [i] has a CP peer [p] (its log [l]: PropertiesPeer.v) for remote address [k_remote k]. If it is associated, then the
   application of the node at this address has been given an Association Setup Request of node [i], with its Node ID, recovery
   time stamp and the feature BUNDL, and has sent it a response with Cause "Request accepted". *)
Theorem C75_association_is_mutual nw delay late lw w i k l p : (forall i k, n_addr (nw i) = n_addr (nw k) -> i = k) ->
  wexec nw delay late lw w -> (forall j, only_answers (w j)) -> never is_set_seq i lw -> N.of_nat (length (draws (e_trace (w i)))) <= 2 ^ 24 - 1 ->
  ep_obs k l = rev (e_trace (w i)) -> p_run k peer_alloc l = POk p -> is_associated p = true ->
  exists j nr r, n_addr (nw j) = k_remote k
    /\ In (ODispatch (n_addr (nw i)) (mkHdr 1 5 None None nr) [[VLeaf (c_node (n_cfg (nw i)))]; [VLeaf (IvNum (k_recov k))]; []; [VLeaf (IvBits [16])]] r) (e_trace (w j))
    /\ exists rid rh ries rcb, In (OTx rid (n_addr (nw i)) rh ries rcb) (e_trace (w j)) /\ is_response (hd_type rh) = true /\ hd_seq rh = nr
       /\ accepts (Some (filled (n_cfg (nw j)) rh ries nr)) = true.
Proof. intros Hd. exact (association_mutual nw delay late Hd lw w i k l p). Qed.
Print Assumptions C75_association_is_mutual.
Example C75_example : let lw := nt_associate ++ nt_start in let w := play nt_nw lw in
  wexec nt_nw (Some 100) (Some 50) lw w /\ (forall j, only_answers (w j)) /\ never is_set_seq 1 lw
  /\ ep_obs nt_peer_cfg nt_peer_log = rev (e_trace (w 1%nat))
  /\ exists p, p_run nt_peer_cfg peer_alloc nt_peer_log = POk p /\ is_associated p = true.
Proof.
  split; [apply play_exec, nt_associate_ok|]. split; [intros j; apply only_answers_ok; destruct j as [|[|[|j]]]; vm_compute; reflexivity|].
  split; [apply nt_never; repeat constructor|]. split; [vm_compute; reflexivity|]. eexists. split; vm_compute; reflexivity.
Qed.

(* ---------------------------------------------------------------- C80 *)
(* A CP peer of node [i] that waits for an answer has a request pending that it sent to its remote address; and when a response
   to this request that says "Request accepted" arrives -- at any time, however often the request was retransmitted --, the peer
   is associated afterwards, whatever the application did in the callbacks. The endpoint has not been closed since the peer's
   first request: [w0], [la] are the system and the peer's log before it. *)
Theorem C80_association_completes nw delay late l1 w0 l2 w i k la l p : wexec nw delay late l1 w0 -> wruns nw delay late w0 l2 w ->
  never is_set_seq i (l2 ++ l1) -> never is_close i l2 -> N.of_nat (length (draws (e_trace (w i)))) <= 2 ^ 24 - 1 ->
  c_n1 (n_cfg (nw i)) <> 0 -> c_t1 (n_cfg (nw i)) <> 0 -> e_open (w i) = true -> ep_obs k la = rev (e_trace (w0 i)) -> (forall id, ~ In (VOwnTx id) la) ->
  ep_obs k (la ++ l) = rev (e_trace (w i)) -> p_run k peer_alloc (la ++ l) = POk p -> p_pc p = PcIdle -> p_state p = PsWaitAssoc ->
  exists id nr, In (VOwnTx id) l /\ In (OTx id (k_remote k) assoc_hdr (assoc_ies k) true) (e_trace (w i)) /\ In (OSeq (Some id) nr) (e_trace (w i))
    /\ has_id id (e_reqs (w i)) = true
    /\ forall from d vs s h ies lb p', in_flight nw delay w from (n_addr (nw i)) d -> rx_datagram d = [RxMsg h ies] -> is_response (hd_type h) = true -> hd_seq h = nr ->
       accepts (Some (h, ies)) = true -> good_event (n_cfg (nw i)) (ERx from d vs) -> step (n_cfg (nw i)) (w i) (ERx from d vs) = Ok s ->
       ep_obs k (la ++ l ++ lb) = rev (e_trace s) -> p_run k peer_alloc (la ++ l ++ lb) = POk p' -> is_associated p' = true.
Proof. exact (association_completes nw delay late l1 w0 l2 w i k la l p). Qed.
Print Assumptions C80_association_completes.
Example C80_example : let l2 := tl nt_associate in let w := play nt_nw (l2 ++ nt_start) in let k := nt_peer_cfg in
  let l := VSetCb true :: VAssociate :: [VAlloc 0 false; VSetCtx 0; VGive 0; VOwnTx 0] ++ map VEp (tl (rev (e_trace (w 1%nat)))) in
  wexec nt_nw (Some 100) (Some 50) nt_start (play nt_nw nt_start) /\ wruns nt_nw (Some 100) (Some 50) (play nt_nw nt_start) l2 w
  /\ never is_set_seq 1 (l2 ++ nt_start) /\ never is_close 1 l2 /\ e_open (w 1%nat) = true
  /\ ep_obs k [] = rev (e_trace (play nt_nw nt_start 1%nat)) /\ ep_obs k l = rev (e_trace (w 1%nat))
  /\ (exists p, p_run k peer_alloc l = POk p /\ p_pc p = PcIdle /\ p_state p = PsWaitAssoc)
  /\ in_flight nt_nw (Some 100) w (nt_addr 0) (n_addr (nt_nw 1)) (nt_resp_bytes 1) /\ rx_datagram (nt_resp_bytes 1) = [RxMsg (nt_resp 1) nt_resp_ies]
  /\ In (OSeq (Some 0) (hd_seq (nt_resp 1))) (e_trace (w 1%nat)) /\ accepts (Some (nt_resp 1, nt_resp_ies)) = true
  /\ exists s lb p', match nt_recv 1 1 with WNode j ev => good_event (nt_cfg j) ev /\ step (nt_cfg j) (w j) ev = Ok s | _ => False end
     /\ ep_obs k (l ++ lb) = rev (e_trace s) /\ p_run k peer_alloc (l ++ lb) = POk p'.
Proof.
  cbv zeta. split; [apply play_exec, nt_all; [repeat constructor|vm_compute; reflexivity]|].
  split; [apply play_runs, nt_all; [repeat constructor|vm_compute; reflexivity]|]. split; [apply nt_never; repeat constructor|].
  split; [apply nt_never; repeat constructor|]. split; [vm_compute; reflexivity|]. split; [vm_compute; reflexivity|]. split; [vm_compute; reflexivity|].
  split; [eexists; split; [vm_compute; reflexivity|split; reflexivity]|].
  split; [apply nt_fly_ok with (i := 0%nat) (j := 1%nat); vm_compute; reflexivity|]. split; [vm_compute; reflexivity|]. split; [vm_compute; tauto|].
  split; [vm_compute; reflexivity|].
  eexists. exists (map VEp [OResp 0 (Some (nt_resp 1, nt_resp_ies)); OFree 0]). eexists. split; [split; [intros k; cbn; repeat split|vm_compute; reflexivity]|].
  split; vm_compute; reflexivity.
Qed.

(* ---------------------------------------------------------------- C83 *)
(* One round trip is enough, whichever transmission of a request it is that arrives. Node [i] has sent request [id] to node [j]; one of
   its transmissions, [d], arrives at [j], where the application answers at once and sendto() succeeds; no other node's request
   with the same sequence number has been given to [j]'s application before (C73_two_clients_refuted: this is needed). Then [j] sends
   node [i] a datagram [d'] now; and whenever [d'] arrives at node [i] while the request has not been released, whatever happened meanwhile,
   the request is completed by the response [d'] carries. *)
Theorem C83_round_trip nw delay late l w i j id h0 ies0 cb t d vs s : wexec nw delay late l w -> only_answers (w j) ->
  c_n1 (n_cfg (nw j)) <> 0 -> c_t1 (n_cfg (nw j)) <> 0 -> e_open (w j) = true ->
  In (OTx id (n_addr (nw j)) h0 ies0 cb) (e_trace (w i)) -> is_response (hd_type h0) = false -> hd_type h0 <> 1 -> In (OSend (Some id) t (n_addr (nw j)) d) (e_trace (w i)) ->
  match delay with Some D => e_now (w i) <= t + D | None => True end ->
  (forall nr f h' ies' r, In (OSeq (Some id) nr) (e_trace (w i)) -> In (ODispatch f h' ies' r) (e_trace (w j)) -> is_response (hd_type h') = false -> hd_seq h' = nr -> f = n_addr (nw i)) ->
  good_event (n_cfg (nw j)) (ERx (n_addr (nw i)) d vs) -> answers (ERx (n_addr (nw i)) d vs) -> v_resend (vs 0%nat) = true ->
  step (n_cfg (nw j)) (w j) (ERx (n_addr (nw i)) d vs) = Ok s ->
  exists x d' m, In (OSend x (e_now (w j)) (n_addr (nw i)) d') (e_trace s) /\ is_response (hd_type (fst m)) = true /\
    forall l2 w2 vs' s', wruns nw delay late (upd j s w) l2 w2 -> never is_set_seq i (l2 ++ WNode j (ERx (n_addr (nw i)) d vs) :: l) ->
      N.of_nat (length (draws (e_trace (w2 i)))) <= 2 ^ 24 - 1 -> c_n1 (n_cfg (nw i)) <> 0 -> c_t1 (n_cfg (nw i)) <> 0 -> e_open (w2 i) = true ->
      count (is_free id) (e_trace (w2 i)) = 0 -> in_flight nw delay w2 (n_addr (nw j)) (n_addr (nw i)) d' ->
      good_event (n_cfg (nw i)) (ERx (n_addr (nw j)) d' vs') -> step (n_cfg (nw i)) (w2 i) (ERx (n_addr (nw j)) d' vs') = Ok s' ->
      (cb = true -> In (OResp id (Some m)) (e_trace s')) /\ (cb = false -> In (ODispatch (n_addr (nw j)) (fst m) (snd m) (Some id)) (e_trace s'))
      /\ count (is_free id) (e_trace s') = 1.
Proof. exact (round_trip nw delay late l w i j id h0 ies0 cb t d vs s). Qed.
Print Assumptions C83_round_trip.
Example C83_example : let l := WTick 50 :: nt_tx 1 :: nt_start in let w := play nt_nw l in let l2 := [WTick 40] in let w2 := play nt_nw (l2 ++ nt_serve 1 1 :: l) in
  wexec nt_nw (Some 100) (Some 50) l w /\ only_answers (w 0%nat) /\ e_open (w 0%nat) = true
  /\ In (OTx 0 (nt_addr 0) nt_req nt_req_ies true) (e_trace (w 1%nat)) /\ In (OSend (Some 0) 0 (nt_addr 0) (nt_req_bytes 1)) (e_trace (w 1%nat))
  /\ e_now (w 1%nat) <= 0 + 100 /\ (forall f h r k, ~ In (ODispatch f h r k) (e_trace (w 0%nat)))
  /\ match nt_serve 1 1 with WNode j ev => answers ev | _ => False end
  /\ wruns nt_nw (Some 100) (Some 50) (play nt_nw (nt_serve 1 1 :: l)) l2 w2 /\ never is_set_seq 1 (l2 ++ nt_serve 1 1 :: l) /\ e_open (w2 1%nat) = true
  /\ count (is_free 0) (e_trace (w2 1%nat)) = 0 /\ in_flight nt_nw (Some 100) w2 (nt_addr 0) (nt_addr 1) (nt_resp_bytes 1)
  /\ exists s, match nt_recv 1 1 with WNode j ev => good_event (nt_cfg j) ev /\ step (nt_cfg j) (w2 j) ev = Ok s | _ => False end.
Proof.
  cbv zeta. split; [apply play_exec, nt_all; [repeat constructor|vm_compute; reflexivity]|]. split; [apply only_answers_ok; vm_compute; reflexivity|].
  split; [vm_compute; reflexivity|]. split; [vm_compute; tauto|]. split; [vm_compute; tauto|]. split; [vm_compute; discriminate|].
  split; [intros f h r k H; vm_compute in H; exact H|]. split; [apply nt_serve_answers|].
  split; [apply play_runs, nt_all; [repeat constructor|vm_compute; reflexivity]|]. split; [apply nt_never; repeat constructor|]. split; [vm_compute; reflexivity|].
  split; [vm_compute; reflexivity|]. split; [apply nt_fly_ok with (i := 0%nat) (j := 1%nat); vm_compute; reflexivity|].
  eexists. split; [intros k; cbn; repeat split|vm_compute; reflexivity].
Qed.
