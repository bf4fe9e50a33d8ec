(* PropertiesPeer.v -- the property theorems C42 .. C45 (association with a UPF, peer use counts). Proofs are in CpPeerProofs.v,
   CpPeerProps.v and UseCountProofs.v; the vocabulary of the statements is in CpPeerModel.v and CpPeerSpec.v.
   [execution c k s l p]: [l] is everything that happened, in order, in some execution of a peer configured as [k], an
   endpoint configured as [c], the network and an application; [s] and [p] are the states it leads to. *)
From Verif Require Import Base BaseProofs GtlvModel DecEncModel IesModel TablesModel MsgModel EndpointModel EndpointSpec
  EndpointProps EndpointProps2 EndpointProps3 PropertiesEndpoint CpPeerModel CpPeerSpec CpPeerProofs CpPeerProps UseCountProofs.

(* ---------------------------------------------------------------- executions for the examples *)
Definition pe_k : peer_cfg := mkPeerCfg ex_A 1000 15.
Definition pe_tx (ok : bool) : event := ECall (CTx ex_A assoc_hdr (assoc_ies pe_k) true ok []).
(* an Association Setup Response with Cause [c] *)
Definition pe_resp (nr c : N) : event :=
  ERx ex_A ([32; 6; 0; 26] ++ be_put 3 nr ++ [0; 0; 60; 0; 5; 0; 9; 9; 9; 9; 0; 19; 0; 1; c; 0; 96; 0; 4; 0; 0; 0; 7]) (fun _ => ex_env [] []).
Definition pe_sent : list event := [ECall (CBind true); pe_tx true].
Definition pe_ok : list event := pe_sent ++ [ETick 10; pe_resp 1 1].
(* rejected; then a retry, which is accepted *)
Definition pe_retry : list event := pe_sent ++ [ETick 10; pe_resp 1 64; ETick 15000; pe_tx true; pe_resp 2 1].
Definition pe_timeout : list event := pe_sent ++ [ETick 500; ETimer 0 true []; ETick 500; ETimer 0 true []; ETick 500; ETimer 0 true []].
Definition pe_noroute : list event := [ECall (CBind true); pe_tx false].
(* what the peer does to send request number [m] *)
Definition pe_send (m : N) : list pentry := [VAlloc m false; VSetCtx m; VGive m; VOwnTx m].
(* the log, if the peer's first request is the first message given to the endpoint; [at_] entries later comes [v] *)
Definition pe_log (l : list event) : list pentry := VSetCb true :: VAssociate :: pe_send 0 ++ map VEp (tl (rev (e_trace (ex_st l)))).
Definition pe_insert (n : nat) (v : list pentry) (l : list pentry) : list pentry := firstn n l ++ v ++ skipn n l.
(* the second request is number 1: its OTx is the peer's own *)
Definition pe_own (v : pentry) : list pentry := match v with VEp (OTx 1 _ _ _ _) => VTimer :: pe_send 1 | _ => [v] end.
Definition pe_peer (l : list pentry) : peer := match p_run pe_k peer_alloc l with POk p => p | _ => peer_alloc end.

Lemma pe_exec evs l : run ex_c (ep_create 1000) evs = Ok (ex_st evs) -> ep_obs pe_k l = rev (e_trace (ex_st evs)) ->
  p_run pe_k peer_alloc l = POk (pe_peer l) -> execution ex_c pe_k (ex_st evs) l (pe_peer l).
Proof. intros A B C. split; [exists 1000, evs; exact A|]. split; [exact B|exact C]. Qed.
Lemma pe_exec_ok : execution ex_c pe_k (ex_st pe_ok) (pe_log pe_ok) (pe_peer (pe_log pe_ok)).
Proof. apply pe_exec; vm_compute; reflexivity. Qed.
Definition pe_retry_log : list pentry := flat_map pe_own (pe_log pe_retry).
Lemma pe_exec_retry : execution ex_c pe_k (ex_st pe_retry) pe_retry_log (pe_peer pe_retry_log).
Proof. apply pe_exec; vm_compute; reflexivity. Qed.
Lemma pe_exec_sent : execution ex_c pe_k (ex_st pe_sent) (pe_log pe_sent) (pe_peer (pe_log pe_sent)).
Proof. apply pe_exec; vm_compute; reflexivity. Qed.

(* ---------------------------------------------------------------- C42 *)
(* Only state changes of the association procedure are ever made (and these are permitted by the FSM's table); the state
   reported is the one they lead to; no event is refused, the peer never terminates, and the FSM layer refuses a state change
   only from WAIT_RETRY to WAIT_RETRY after osmo_pfcp_endpoint_tx() has failed. *)
Theorem C42_transitions_partial c k s l p : execution c k s l p ->
  leads_to (p_obs p) (p_state p)
  /\ (forall a b, In (PoState a b) (p_obs p) -> In (a, b) procedure)
  /\ (forall a b, In (PoRefused a b) (p_obs p) -> a = PsWaitRetry /\ b = PsWaitRetry /\ exists id, In (VOwnTx id) l /\ In (VEp (ORet id false)) l)
  /\ (forall st e, ~ In (PoEvRefused st e) (p_obs p)) /\ (forall e, ~ In (PoErr e) (p_obs p)) /\ ~ In PoTerm (p_obs p)
  /\ In (p_state p) [PsDisabled; PsWaitAssoc; PsWaitRetry; PsAssociated].
Proof. exact (peer_transitions c k s l p). Qed.
Print Assumptions C42_transitions_partial.
Theorem C42_procedure_permitted a b : In (a, b) procedure -> out_ok a b = true.
Proof. cbn. intros [[= <- <-]|[[= <- <-]|[[= <- <-]|[[= <- <-]|[]]]]]; reflexivity. Qed.
Print Assumptions C42_procedure_permitted.
(* osmo_pfcp_cp_peer_is_associated() is true exactly if one of the peer's requests has been answered by a message with a
   Cause IE "Request accepted". *)
Theorem C42_is_associated c k s l p : execution c k s l p -> is_associated p = true <-> exists id r, answered l id r /\ accepts r = true.
Proof. exact (associated_iff c k s l p). Qed.
Print Assumptions C42_is_associated.
(* The peer never dereferences a null pointer or fails an assertion, unless its context was removed from its requests by
   osmo_pfcp_endpoint_invalidate_ctx(). *)
Theorem C42_no_undefined_behaviour k l : ~ In VInvalidate l -> forall u, p_run k peer_alloc l <> PUB u.
Proof. exact (peer_no_ub k l). Qed.
Print Assumptions C42_no_undefined_behaviour.
(* "never gets an action that the FSM layer rejects" is false: osmo_pfcp_endpoint_tx() fails. *)
Theorem C42_never_refused_refuted : exists c k s l p, execution c k s l p /\ In (PoRefused PsWaitRetry PsWaitRetry) (p_obs p).
Proof.
  exists ex_c, pe_k, (ex_st pe_noroute), (pe_log pe_noroute), (pe_peer (pe_log pe_noroute)). split; [apply pe_exec; vm_compute; reflexivity|]. vm_compute. tauto.
Qed.
Print Assumptions C42_never_refused_refuted.
(* osmo_pfcp_endpoint_invalidate_ctx() while a request is pending, which then times out *)
Theorem C42_invalidate_refuted : exists c k s l, reachable c s /\ ep_obs k l = rev (e_trace s) /\ p_run k peer_alloc l = PUB NullDeref.
Proof.
  exists ex_c, pe_k, (ex_st pe_timeout), (pe_insert 9 [VInvalidate] (pe_log pe_timeout)). split; [apply ex_reach; vm_compute; reflexivity|].
  split; vm_compute; reflexivity.
Qed.
Print Assumptions C42_invalidate_refuted.
Example C42_example : p_obs (pe_peer pe_retry_log) =
    [PoAssoc true; PoState PsWaitAssoc PsAssociated; PoState PsWaitRetry PsWaitAssoc; PoState PsWaitAssoc PsWaitRetry; PoState PsDisabled PsWaitAssoc]
  /\ execution ex_c pe_k (ex_st pe_retry) pe_retry_log (pe_peer pe_retry_log) /\ is_associated (pe_peer pe_retry_log) = true /\ ~ In VInvalidate pe_retry_log.
Proof. split; [vm_compute; reflexivity|]. split; [exact pe_exec_retry|]. split; [vm_compute; reflexivity|]. vm_compute. intuition discriminate. Qed.

(* ---------------------------------------------------------------- C43 *)
(* The callback, set once at the beginning, has been called exactly once, with true, if the peer is associated, and otherwise
   not at all. *)
Theorem C43_callback c k s l p : execution c k s (VSetCb true :: l) p -> forallb (fun v => negb (is_set_cb v)) l = true ->
  assoc_calls (p_obs p) = if is_associated p then [true] else [].
Proof. exact (assoc_cb_calls c k s l p). Qed.
Print Assumptions C43_callback.
(* However the callback is changed or removed: as long as the peer is not associated, none has been called; if it is, the one that
   was registered at that moment was called, once, with true. None is called if none was registered. *)
Theorem C43_callback_any c k s l p : execution c k s l p ->
  is_associated p = false /\ assoc_calls (p_obs p) = []
  \/ is_associated p = true /\ exists l1 id r l2 p1, l = l1 ++ VEp (OResp id r) :: l2 /\ In (VOwnTx id) l1 /\ accepts r = true
     /\ p_run k peer_alloc l1 = POk p1 /\ is_associated p1 = false /\ assoc_calls (p_obs p) = if callback_set l1 then [true] else [].
Proof. exact (assoc_cb_any c k s l p). Qed.
Print Assumptions C43_callback_any.
(* Once associated, a peer stays associated for ever and the callback is never called again (in particular never with false,
   whatever the UPF does). *)
Theorem C43_associated_for_ever c k s l p : execution c k s l p -> is_associated p = true -> forall l' p', p_run k p l' = POk p' ->
  is_associated p' = true /\ assoc_calls (p_obs p') = assoc_calls (p_obs p).
Proof. exact (associated_for_ever c k s l p). Qed.
Print Assumptions C43_associated_for_ever.
Example C43_example : execution ex_c pe_k (ex_st pe_retry) (VSetCb true :: tl pe_retry_log) (pe_peer pe_retry_log)
  /\ forallb (fun v => negb (is_set_cb v)) (tl pe_retry_log) = true /\ assoc_calls (p_obs (pe_peer pe_retry_log)) = [true]
  /\ assoc_calls (p_obs (pe_peer (pe_log pe_sent))) = [].
Proof. split; [exact pe_exec_retry|]. split; [vm_compute; reflexivity|]. split; vm_compute; reflexivity. Qed.

(* the same execution, without a callback; and with one that is removed before the answer comes *)
Example C43_any_example : let l := tl pe_retry_log in execution ex_c pe_k (ex_st pe_retry) l (pe_peer l)
  /\ is_associated (pe_peer l) = true /\ assoc_calls (p_obs (pe_peer l)) = []
  /\ execution ex_c pe_k (ex_st pe_retry) (VSetCb true :: VSetCb false :: l) (pe_peer (VSetCb true :: VSetCb false :: l))
  /\ assoc_calls (p_obs (pe_peer (VSetCb true :: VSetCb false :: l))) = [].
Proof.
  cbv zeta. destruct pe_exec_retry as (R & E & H).
  split; [split; [exact R|split; vm_compute; reflexivity]|]. split; [vm_compute; reflexivity|]. split; [vm_compute; reflexivity|].
  split; [split; [exact R|split; vm_compute; reflexivity]|vm_compute; reflexivity].
Qed.

(* ---------------------------------------------------------------- C44 *)
(* After osmo_pfcp_cp_peer_associate(), between two actions of the peer: it is associated, or waits for the retry timer, or has
   given the endpoint a request whose callback has not been called. *)
Theorem C44_always_trying c k s l p : execution c k s l p -> p_pc p = PcIdle -> In VAssociate l ->
  is_associated p = true
  \/ p_state p = PsWaitRetry /\ p_timer p = (if k_retry k =? 0 then None else Some (k_retry k))
  \/ p_state p = PsWaitAssoc /\ exists id, In (VOwnTx id) l /\ count (is_resp_cb id) (e_trace s) = 0.
Proof. exact (always_trying c k s l p). Qed.
Print Assumptions C44_always_trying.
(* That request is pending in the endpoint (so C32 applies: it is answered or times out), if the endpoint is not closed after the
   peer's first request. [s0], [l0]: before it. *)
Theorem C44_request_pending_partial c k s0 l0 evs s l p : reachable c s0 -> ep_obs k l0 = rev (e_trace s0) -> (forall id, ~ In (VOwnTx id) l0) ->
  run c s0 evs = Ok s -> Forall (event_free is_close) evs -> c_n1 c <> 0 -> c_t1 c <> 0 ->
  execution c k s (l0 ++ l) p -> p_pc p = PcIdle -> p_state p = PsWaitAssoc ->
  exists id, In (VOwnTx id) l /\ has_id id (e_reqs s) = true.
Proof. exact (request_pending c k s0 l0 evs s l p). Qed.
Print Assumptions C44_request_pending_partial.
(* If the endpoint's timers are handled when due, it was first sent at most (N1 + 1) * T1 ago. *)
Theorem C44_waiting_is_bounded_partial c k time evs0 s0 l0 evs s l p : run c (ep_create time) evs0 = Ok s0 -> run c s0 evs = Ok s ->
  prompt c (ep_create time) (evs0 ++ evs) ->
  Forall (event_free is_close) evs -> c_n1 c <> 0 -> c_t1 c <> 0 -> ep_obs k l0 = rev (e_trace s0) -> (forall id, ~ In (VOwnTx id) l0) ->
  execution c k s (l0 ++ l) p -> p_pc p = PcIdle -> p_state p = PsWaitAssoc ->
  exists id t0, In (VOwnTx id) l /\ has_id id (e_reqs s) = true /\ first_send id (e_trace s) t0 /\ e_now s <= t0 + (c_n1 c + 1) * c_t1 c.
Proof. exact (request_in_time c k time evs0 s0 l0 evs s l p). Qed.
Print Assumptions C44_waiting_is_bounded_partial.
(* Each attempt -- by osmo_pfcp_cp_peer_associate() or the retry timer -- gives the endpoint a new request with the peer as
   its context. *)
Theorem C44_attempt_sends k p v l' p' : p_pc p = PcIdle ->
  v = VAssociate /\ (p_state p = PsDisabled \/ p_state p = PsWaitRetry) \/ v = VTimer /\ p_state p = PsWaitRetry ->
  p_run k p (v :: l') = POk p' -> p_pc p' = PcIdle ->
  exists m id l'', l' = VAlloc m false :: VSetCtx m :: VGive m :: VOwnTx id :: l''.
Proof. exact (attempt_sends k p v l' p'). Qed.
Print Assumptions C44_attempt_sends.
(* These requests on the wire, for an endpoint with an IPv4 Node ID. *)
Theorem C44_request_bytes cf k s l p a b c d port id t to bs : execution cf k s l p -> c_node cf = IvNode (NodeV4 (Sa4 [a; b; c; d] port)) ->
  In (VOwnTx id) l -> In (VEp (OSend (Some id) t to bs)) l ->
  to = k_remote k /\ exists nr, In (VEp (OSeq (Some id) nr)) l /\ bs = assoc_req_bytes [a; b; c; d] nr (k_recov k).
Proof. exact (request_bytes cf k s l p a b c d port id t to bs). Qed.
Print Assumptions C44_request_bytes.
(* The full claim is false: a peer whose request was dropped by osmo_pfcp_endpoint_close() waits for ever, whatever happens
   afterwards and however often osmo_pfcp_cp_peer_associate() is called. *)
Theorem C44_close_refuted : exists c k s l p, execution c k s l p /\ c_n1 c <> 0 /\ c_t1 c <> 0 /\ k_retry k <> 0 /\ In VAssociate l /\ ~ In VInvalidate l
  /\ is_associated p = false /\ p_timer p = None /\ e_reqs s = []
  /\ forall evs s' l' p', run c s evs = Ok s' -> execution c k s' (l ++ l') p' -> p_run k p l' = POk p' ->
       is_associated p' = false /\ (forall id, In (VOwnTx id) (l ++ l') -> In (VOwnTx id) l).
Proof.
  exists ex_c, pe_k, (ex_st (pe_sent ++ [ECall CClose])), (pe_log (pe_sent ++ [ECall CClose])), (pe_peer (pe_log (pe_sent ++ [ECall CClose]))).
  assert (X : execution ex_c pe_k (ex_st (pe_sent ++ [ECall CClose])) (pe_log (pe_sent ++ [ECall CClose])) (pe_peer (pe_log (pe_sent ++ [ECall CClose])))) by (apply pe_exec; vm_compute; reflexivity).
  split; [exact X|]. split; [discriminate|]. split; [discriminate|]. split; [discriminate|]. split; [vm_compute; tauto|]. split; [vm_compute; intuition discriminate|].
  split; [vm_compute; reflexivity|]. split; [vm_compute; reflexivity|]. split; [vm_compute; reflexivity|].
  intros evs s' l' p'. apply (stuck_silent _ _ _ _ _ 0 X); vm_compute; reflexivity.
Qed.
Print Assumptions C44_close_refuted.
Example C44_example : execution ex_c pe_k (ex_st pe_sent) ([VSetCb true] ++ tl (pe_log pe_sent)) (pe_peer (pe_log pe_sent))
  /\ reachable ex_c (ex_st [ECall (CBind true)]) /\ ep_obs pe_k [VSetCb true] = rev (e_trace (ex_st [ECall (CBind true)]))
  /\ run ex_c (ex_st [ECall (CBind true)]) [pe_tx true] = Ok (ex_st pe_sent) /\ Forall (event_free is_close) [pe_tx true]
  /\ p_pc (pe_peer (pe_log pe_sent)) = PcIdle /\ p_state (pe_peer (pe_log pe_sent)) = PsWaitAssoc
  /\ In (VEp (OSend (Some 0) 0 ex_A (assoc_req_bytes [127; 0; 0; 1] 1 1000))) (pe_log pe_sent)
  /\ In (VOwnTx 1) pe_retry_log.
Proof.
  split; [exact pe_exec_sent|]. split; [apply ex_reach; vm_compute; reflexivity|]. split; [reflexivity|]. split; [vm_compute; reflexivity|].
  split; [repeat constructor|]. split; [vm_compute; reflexivity|]. split; [vm_compute; reflexivity|]. split; vm_compute; tauto.
Qed.

(* ---------------------------------------------------------------- C45 *)
(* The peer's use counts for received and sent messages are the numbers of messages, allocated for reception resp. sending,
   whose context was first set to this peer and that have not been freed. *)
Theorem C45_use_counts_partial c k s l u : reachable c s -> ep_obs k l = rev (e_trace s) -> ~ In VInvalidate l -> u_run ucount0 l = POk u ->
  u_rx u = Z.of_N (holding true l) /\ u_tx u = Z.of_N (holding false l).
Proof. exact (fun R E => use_counts c k s l R E u). Qed.
Print Assumptions C45_use_counts_partial.
(* They never become negative (the assertion in the destructor never fails), no message is freed twice. *)
Theorem C45_no_abort c k s l e : reachable c s -> ep_obs k l = rev (e_trace s) -> ~ In VInvalidate l -> u_run ucount0 l <> PUB e.
Proof. exact (fun R E => use_no_abort c k s l R E e). Qed.
Print Assumptions C45_no_abort.
(* When the endpoint has been closed and all messages not given to it have been freed, they are zero. *)
Theorem C45_zero_after_close c k s l u : reachable c s -> ep_obs k l = rev (e_trace (ep_close s)) -> ~ In VInvalidate l -> u_run ucount0 l = POk u ->
  c_n1 c <> 0 -> c_t1 c <> 0 ->
  (forall m rx, In (m, rx) (allocated l) -> In (VDealloc m) l \/ exists id, In (m, id) (gave None l)) -> u_rx u = 0%Z /\ u_tx u = 0%Z.
Proof. exact (use_zero_after_close c k s l u). Qed.
Print Assumptions C45_zero_after_close.
(* With osmo_pfcp_endpoint_invalidate_ctx() the count is wrong: no message is left, but it is 1. *)
Theorem C45_invalidate_refuted : exists c k s l p u, execution c k s l p /\ u_run ucount0 l = POk u /\ holding false l = 0
  /\ (forall m rx, In (m, rx) (allocated l) -> released l m = true) /\ u_tx u = 1%Z.
Proof.
  exists ex_c, pe_k, (ex_st (pe_sent ++ [ECall CClose])), (pe_insert 9 [VInvalidate] (pe_log (pe_sent ++ [ECall CClose]))).
  eexists. eexists. split; [split; [apply ex_reach; vm_compute; reflexivity|split; vm_compute; reflexivity]|]. split; [vm_compute; reflexivity|]. split; [vm_compute; reflexivity|].
  split; [|vm_compute; reflexivity]. intros m rx H. vm_compute in H. destruct H as [[= <- <-]|[]]. vm_compute. reflexivity.
Qed.
Print Assumptions C45_invalidate_refuted.
(* received message 5 is attached to the peer and freed, 6 is attached and kept *)
Definition pe_use : list pentry := [VAlloc 5 true; VSetCtx 5; VAlloc 6 true; VSetCtx 6; VSetCtx 6; VDealloc 5] ++ pe_retry_log.
Example C45_example : ep_obs pe_k pe_use = rev (e_trace (ex_st pe_retry)) /\ ~ In VInvalidate pe_use /\ holding true pe_use = 1 /\ holding false (pe_log pe_sent) = 1
  /\ exists u, u_run ucount0 pe_use = POk u /\ u_rx u = 1%Z /\ u_tx u = 0%Z.
Proof.
  split; [vm_compute; reflexivity|]. split; [vm_compute; intuition discriminate|]. split; [vm_compute; reflexivity|]. split; [vm_compute; reflexivity|].
  eexists. split; [vm_compute; reflexivity|]. split; reflexivity.
Qed.
