(* PropertiesEndpoint.v -- the property theorems C30 .. C41, C52 and C53 (PFCP endpoint). Proofs are in EndpointProofs.v,
   EndpointRun.v, EndpointLife.v, EndpointFinal.v, EndpointExt.v and EndpointProps*.v. The vocabulary of the statements is in
   EndpointModel.v (the code, and what can be observed of it) and EndpointSpec.v. [reachable c s]: the endpoint, configured
   as [c], is in state [s] after some history; the theorems hold for all histories, with whatever callbacks do. *)
From Verif Require Import Base BaseProofs GtlvModel DecEncModel IesModel TablesModel MsgModel EndpointModel EndpointSpec
  EndpointProofs EndpointRun EndpointLife EndpointFinal EndpointProps EndpointExt EndpointProps2 EndpointProps3.

(* ---------------------------------------------------------------- histories for the examples *)
Definition ex_A : sa := Sa4 [127; 0; 0; 2] 8805.
Definition ex_B : sa := Sa4 [127; 0; 0; 3] 8805.
Definition ex_c : ep_cfg := mkEpCfg 2 500 3000 (IvNode (NodeV4 (Sa4 [127; 0; 0; 1] 0))).
Definition ex_node : slot iev := [VLeaf (IvNode (NodeV4 (Sa4 [9; 9; 9; 9] 0)))].
(* an Association Setup Request / Response *)
Definition ex_req : hdr := mkHdr 1 5 None None 0.
Definition ex_req_ies : list (slot iev) := [ex_node; [VLeaf (IvNum 7)]; []; []].
Definition ex_resp (nr : N) : hdr := mkHdr 1 6 None None nr.
Definition ex_resp_ies : list (slot iev) := [ex_node; [VLeaf (IvNum 1)]; [VLeaf (IvNum 7)]; []; []].
Definition ex_env (resp rx : list call) : env := mkEnv true true [] resp false rx.
Definition ex_tx (cb : bool) : event := ECall (CTx ex_A ex_req ex_req_ies cb true []).
Definition ex_st (l : list event) : ep := match run ex_c (ep_create 1000) l with Ok s => s | _ => ep_create 0 end.
(* a request is sent three times, then times out *)
Definition ex_timeout : list event :=
  [ECall (CBind true); ex_tx true; ETick 500; ETimer 0 true []; ETick 500; ETimer 0 true []; ETick 500; ETimer 0 true []].
(* two requests are pending *)
Definition ex_two : list event := [ECall (CBind true); ex_tx true; ex_tx false; ETick 100].
Definition ex_sent1 : list event := [ECall (CBind true); ex_tx true].
(* a request arrives, the application responds from the receive callback *)
Definition ex_req_bytes (nr : N) : list N := [32; 5; 0; 21] ++ be_put 3 nr ++ [0; 0; 60; 0; 5; 0; 9; 9; 9; 9; 0; 96; 0; 4; 0; 0; 0; 7].
Definition ex_answer (from : sa) (nr : N) : event :=
  ERx from (ex_req_bytes nr) (fun _ => ex_env [] [CTx from (ex_resp nr) ex_resp_ies false true []]).
Definition ex_server : list event := [ECall (CBind true); ex_answer ex_A 5; ETick 100].
Lemma ex_reach l : run ex_c (ep_create 1000) l = Ok (ex_st l) -> reachable ex_c (ex_st l).
Proof. intros E. exists 1000, l. exact E. Qed.

(* ---------------------------------------------------------------- C30 *)
(* A request is sent at most 1 + N1 times, at times at least T1 apart, always the same bytes to the same address. *)
Theorem C30_bounded_retransmission c s id to h ies cb : reachable c s -> In (OTx id to h ies cb) (e_trace s) -> is_response (hd_type h) = false ->
  count (is_send id) (e_trace s) <= 1 + c_n1 c
  /\ spaced N.le (c_t1 c) (send_times id (e_trace s))
  /\ exists bs, forall t to' bs', In (OSend (Some id) t to' bs') (e_trace s) -> to' = to /\ bs' = bs.
Proof. exact (bounded_retransmission c s id to h ies cb). Qed.
Print Assumptions C30_bounded_retransmission.
(* If every timer is handled when it is due, exactly T1 apart. *)
Theorem C30_exact_spacing c time evs s id to h ies cb : run c (ep_create time) evs = Ok s -> prompt c (ep_create time) evs ->
  In (OTx id to h ies cb) (e_trace s) -> is_response (hd_type h) = false ->
  spaced (fun a b => b = a) (c_t1 c) (send_times id (e_trace s)).
Proof. exact (exact_retransmission c time evs s id to h ies cb). Qed.
Print Assumptions C30_exact_spacing.
(* Failure is reported only if sending failed or after all 1 + N1 transmissions and N1 + 1 timeouts; and it is reported then,
   exactly once, and the request is released. *)
Theorem C30_failure_callback c s id to h ies cb : reachable c s -> In (OTx id to h ies cb) (e_trace s) -> is_response (hd_type h) = false ->
  c_n1 c <> 0 -> c_t1 c <> 0 ->
  (count (is_resp_fail id) (e_trace s) <> 0 ->
     count (is_resp_fail id) (e_trace s) = 1 /\ count (is_resp_ok id) (e_trace s) = 0
     /\ (count (is_senderr id) (e_trace s) = 1
         \/ count (is_send id) (e_trace s) = 1 + c_n1 c /\ count (is_timer id) (e_trace s) = c_n1 c + 1))
  /\ (count (is_timer id) (e_trace s) = c_n1 c + 1 ->
     count (is_resp_fail id) (e_trace s) = (if cb then 1 else 0) /\ count (is_resp_ok id) (e_trace s) = 0
     /\ count (is_free id) (e_trace s) = 1 /\ has_id id (e_reqs s) = false).
Proof. exact (failure_callback c s id to h ies cb). Qed.
Print Assumptions C30_failure_callback.
Example C30_example : reachable ex_c (ex_st ex_timeout) /\ prompt ex_c (ep_create 1000) ex_timeout
  /\ In (OTx 0 ex_A ex_req ex_req_ies true) (e_trace (ex_st ex_timeout))
  /\ send_times 0 (e_trace (ex_st ex_timeout)) = [1000; 500; 0] /\ count (is_timer 0) (e_trace (ex_st ex_timeout)) = 3
  /\ count (is_resp_fail 0) (e_trace (ex_st ex_timeout)) = 1.
Proof.
  split; [apply ex_reach; vm_compute; reflexivity|]. split.
  - vm_compute. repeat split; intros q [<-|[]] || intros q []; vm_compute; discriminate.
  - split; [vm_compute; tauto|]. split; [vm_compute; reflexivity|]. split; vm_compute; reflexivity.
Qed.

(* ---------------------------------------------------------------- C31 *)
Theorem C31_response_callback_once c s id : reachable c s -> count (is_resp_cb id) (e_trace s) <= 1.
Proof. exact (resp_cb_once c s id). Qed.
Print Assumptions C31_response_callback_once.
(* a callback that transmits another request, which is answered *)
Definition ex_reentrant : list event :=
  [ECall (CBind true); ex_tx true; ETick 500; ETimer 0 true []; ETick 500; ETimer 0 true []; ETick 500;
   ETimer 0 true [CTx ex_B ex_req ex_req_ies true true []];
   ERx ex_B [32; 2; 0; 12; 0; 0; 2; 0; 0; 96; 0; 4; 0; 0; 0; 7] (fun _ => ex_env [CTx ex_B ex_req ex_req_ies true true []] [])].
Example C31_example : reachable ex_c (ex_st ex_reentrant) /\ count (is_resp_fail 0) (e_trace (ex_st ex_reentrant)) = 1
  /\ count (is_resp_ok 1) (e_trace (ex_st ex_reentrant)) = 1 /\ map q_id (e_reqs (ex_st ex_reentrant)) = [2].
Proof. split; [apply ex_reach; vm_compute; reflexivity|]. repeat split; vm_compute; reflexivity. Qed.

(* ---------------------------------------------------------------- C32 *)
(* Along any history without close: a request not released before is either pending with no callback made, or released
   with exactly one callback made (none if it has none). *)
Theorem C32_pending_or_resolved c s evs s' id to h ies cb : reachable c s -> run c s evs = Ok s' -> Forall (event_free is_close) evs ->
  c_n1 c <> 0 -> c_t1 c <> 0 -> count (is_free id) (e_trace s) = 0 -> In (OTx id to h ies cb) (e_trace s') -> is_response (hd_type h) = false ->
  has_id id (e_reqs s') = true /\ count (is_free id) (e_trace s') = 0 /\ count (is_resp_cb id) (e_trace s') = 0
  \/ has_id id (e_reqs s') = false /\ count (is_free id) (e_trace s') = 1 /\ count (is_resp_cb id) (e_trace s') = if cb then 1 else 0.
Proof. exact (pending_or_resolved c s evs s' id to h ies cb). Qed.
Print Assumptions C32_pending_or_resolved.
(* A pending request always has a running timer, due T1 after it was last sent, and the timer expires at most N1 + 1 times, the
   last time (C30) ending it. *)
Theorem C32_timer_runs c s id to h ies cb : reachable c s -> In (OTx id to h ies cb) (e_trace s) -> is_response (hd_type h) = false ->
  count (is_timer id) (e_trace s) <= c_n1 c + 1
  /\ (has_id id (e_reqs s) = true -> count (is_timer id) (e_trace s) <= c_n1 c
       /\ exists q t l, In q (e_reqs s) /\ q_id q = id /\ send_times id (e_trace s) = t :: l /\ q_dl q = t + c_t1 c).
Proof. exact (timer_bound c s id to h ies cb). Qed.
Print Assumptions C32_timer_runs.
(* If timers are handled when due, no request is pending later than (N1 + 1) * T1 after it was first sent. *)
Theorem C32_resolved_in_time c time evs s id to h ies cb : run c (ep_create time) evs = Ok s -> prompt c (ep_create time) evs ->
  In (OTx id to h ies cb) (e_trace s) -> is_response (hd_type h) = false -> has_id id (e_reqs s) = true ->
  exists t0, first_send id (e_trace s) t0 /\ e_now s <= t0 + (c_n1 c + 1) * c_t1 c.
Proof.
  intros E P Ht R Hh. destruct (resolved_in_time c time evs s id to h ies cb E P Ht R Hh) as (t0 & l & A & B).
  exists t0. split; [exists l; exact A|exact B].
Qed.
Print Assumptions C32_resolved_in_time.
(* after a close: dropped, with no callback and nothing more ever happening (C40) *)
Example C32_example : reachable ex_c (ex_st ex_two) /\ In (OTx 0 ex_A ex_req ex_req_ies true) (e_trace (ex_st ex_two))
  /\ count (is_free 0) (e_trace (ex_st ex_two)) = 0 /\ has_id 0 (e_reqs (ex_st ex_two)) = true
  /\ Forall (event_free is_close) [ETick 400; ETimer 0 false []]
  /\ exists s', run ex_c (ex_st ex_two) [ETick 400; ETimer 0 false []] = Ok s' /\ count (is_resp_cb 0) (e_trace s') = 1.
Proof.
  split; [apply ex_reach; vm_compute; reflexivity|]. split; [vm_compute; tauto|]. split; [vm_compute; reflexivity|]. split; [vm_compute; reflexivity|].
  split; [repeat constructor|]. eexists. split; [vm_compute; reflexivity|vm_compute; reflexivity].
Qed.

(* ---------------------------------------------------------------- C33 *)
(* A request arrives whose sequence number is that of a kept response: the receive callback is not called; a kept response
   with that sequence number (the kept response, if there is only one) is sent again, same bytes, same address. *)
Theorem C33_answered_from_cache c s from h ies v s' id : reachable c s -> c_n1 c <> 0 -> c_t1 c <> 0 ->
  is_response (hd_type h) = false -> kept_response s id (hd_seq h) -> handle_rx c s from h ies v = Ok s' ->
  count is_dispatch (e_trace s') = count is_dispatch (e_trace s)
  /\ (e_open s = true -> v_resend v = true -> calls_have is_close (v_ctx v) = false ->
      exists id1 t to bs rest, e_trace s' = OSend (Some id1) (e_now s) to bs :: rest /\ In (OSend (Some id1) t to bs) (e_trace s)
        /\ kept_response s id1 (hd_seq h) /\ ((forall i, kept_response s i (hd_seq h) -> i = id) -> id1 = id)).
Proof. exact (answered_from_cache c s from h ies v s' id). Qed.
Print Assumptions C33_answered_from_cache.
(* Any other request is given to the receive callback, exactly once. *)
Theorem C33_new_request_dispatched c s from h ies v s' : reachable c s -> c_n1 c <> 0 -> c_t1 c <> 0 -> env_has is_close v = false -> is_response (hd_type h) = false ->
  (forall id, ~ kept_response s id (hd_seq h)) -> handle_rx c s from h ies v = Ok s' ->
  exists a b, e_trace s' = a ++ ODispatch from h ies None :: b ++ e_trace s /\ count is_dispatch (a ++ b) = 0.
Proof. exact (new_request_dispatched c s from h ies v s'). Qed.
Print Assumptions C33_new_request_dispatched.
Example C33_example : reachable ex_c (ex_st ex_server) /\ kept_response (ex_st ex_server) 0 5
  /\ (exists s', step ex_c (ex_st ex_server) (ex_answer ex_A 5) = Ok s' /\ count is_dispatch (e_trace s') = 1
        /\ send_times 0 (e_trace s') = [100; 0])
  /\ (exists s', step ex_c (ex_st ex_server) (ex_answer ex_A 6) = Ok s' /\ count is_dispatch (e_trace s') = 2).
Proof.
  split; [apply ex_reach; vm_compute; reflexivity|]. split.
  - exists ex_A, (ex_resp 5), ex_resp_ies, false. split; [vm_compute; tauto|]. repeat split; vm_compute; reflexivity.
  - split; (eexists; split; [vm_compute; reflexivity|]; repeat split; vm_compute; reflexivity).
Qed.

(* ---------------------------------------------------------------- C34 *)
(* Without close, a response is kept for the configured time after it was first sent ... *)
Theorem C34_response_kept c s evs s' id to h ies cb t0 : reachable c s -> run c s evs = Ok s' -> Forall (event_free is_close) evs ->
  c_n1 c <> 0 -> c_t1 c <> 0 -> In (OTx id to h ies cb) (e_trace s) -> is_response (hd_type h) = true -> count (is_free id) (e_trace s) = 0 ->
  first_send id (e_trace s) t0 -> e_now s' < t0 + c_keep c -> count (is_free id) (e_trace s') = 0 /\ has_id id (e_resps s') = true.
Proof. exact (response_kept c s evs s' id to h ies cb t0). Qed.
Print Assumptions C34_response_kept.
(* ... its timer has no effect before that and releases it from then on ... *)
Theorem C34_response_dropped c s id to h ies cb t0 snd k : reachable c s -> c_n1 c <> 0 -> c_t1 c <> 0 -> In (OTx id to h ies cb) (e_trace s) ->
  is_response (hd_type h) = true -> count (is_free id) (e_trace s) = 0 -> first_send id (e_trace s) t0 ->
  exists s', step c s (ETimer id snd k) = Ok s'
    /\ (t0 + c_keep c <= e_now s -> count (is_free id) (e_trace s') = 1 /\ has_id id (e_resps s') = false)
    /\ (e_now s < t0 + c_keep c -> s' = s).
Proof. exact (response_dropped c s id to h ies cb t0 snd k). Qed.
Print Assumptions C34_response_dropped.
(* ... so if timers are handled when due, it is not kept longer. *)
Theorem C34_response_not_longer c time evs s id to h ies cb t0 : run c (ep_create time) evs = Ok s -> prompt c (ep_create time) evs -> c_n1 c <> 0 -> c_t1 c <> 0 ->
  In (OTx id to h ies cb) (e_trace s) -> is_response (hd_type h) = true -> first_send id (e_trace s) t0 ->
  t0 + c_keep c < e_now s -> count (is_free id) (e_trace s) = 1.
Proof. exact (response_not_longer c time evs s id to h ies cb t0). Qed.
Print Assumptions C34_response_not_longer.
Definition ex_expired : list event := ex_server ++ [ETick 2900; ETimer 0 true []; ETick 1].
Example C34_example : first_send 0 (e_trace (ex_st ex_server)) 0 /\ In (OTx 0 ex_A (ex_resp 5) ex_resp_ies false) (e_trace (ex_st ex_server))
  /\ count (is_free 0) (e_trace (ex_st ex_server)) = 0
  /\ run ex_c (ep_create 1000) ex_expired = Ok (ex_st ex_expired) /\ prompt ex_c (ep_create 1000) ex_expired
  /\ e_now (ex_st ex_expired) = 3001 /\ count (is_free 0) (e_trace (ex_st ex_expired)) = 1.
Proof.
  split; [exists []; vm_compute; reflexivity|]. split; [vm_compute; tauto|]. split; [vm_compute; reflexivity|]. split; [vm_compute; reflexivity|]. split.
  - vm_compute. repeat split; intros q [<-|[]] || intros q []; vm_compute; discriminate.
  - split; vm_compute; reflexivity.
Qed.

(* ---------------------------------------------------------------- C35 *)
(* From any state [s] on: as long as at most 2^24 - 1 sequence numbers have been used and the application does not set the
   sequence number state, all numbers used are different; pending requests have different sequence numbers. *)
Theorem C35_seq_nrs_distinct c s evs s' new : run c s evs = Ok s' -> Forall (event_free is_set_seq) evs -> e_trace s' = new ++ e_trace s ->
  N.of_nat (length (draws new)) <= 2 ^ 24 - 1 -> forall x y a, In (OSeq x a) new -> In (OSeq y a) new -> x = y.
Proof. exact (draws_distinct c s evs s' new). Qed.
Print Assumptions C35_seq_nrs_distinct.
Theorem C35_pending_distinct c s evs s' new : reachable c s -> run c s evs = Ok s' -> Forall (event_free is_set_seq) evs -> e_trace s' = new ++ e_trace s ->
  N.of_nat (length (draws new)) <= 2 ^ 24 - 1 ->
  forall q1 q2, In q1 (e_reqs s') -> In q2 (e_reqs s') -> e_next s <= q_id q1 -> e_next s <= q_id q2 -> hd_seq (q_h q1) = hd_seq (q_h q2) -> q1 = q2.
Proof. exact (pending_distinct c s evs s' new). Qed.
Print Assumptions C35_pending_distinct.
Example C35_example : exists s' new, run ex_c (ep_create 1000) ex_two = Ok s' /\ e_trace s' = new ++ e_trace (ep_create 1000)
  /\ Forall (event_free is_set_seq) ex_two /\ draws new = [(Some 1, 2); (Some 0, 1)] /\ map (fun q => hd_seq (q_h q)) (e_reqs s') = [2; 1].
Proof. eexists. eexists. split; [vm_compute; reflexivity|]. split; [symmetry; apply app_nil_r|]. split; [repeat constructor|]. split; vm_compute; reflexivity. Qed.
(* the application can break this with osmo_pfcp_endpoint_set_seq_nr_state() *)
Theorem C35_set_seq_nr_refuted : exists evs s q1 q2, run ex_c (ep_create 0) evs = Ok s /\ In q1 (e_reqs s) /\ In q2 (e_reqs s)
  /\ hd_seq (q_h q1) = hd_seq (q_h q2) /\ q_id q1 <> q_id q2.
Proof.
  exists [ECall (CBind true); ex_tx true; ECall (CSetSeq 0); ex_tx true]. do 3 eexists. split; [vm_compute; reflexivity|].
  split; [left; reflexivity|]. split; [right; left; reflexivity|]. split; [reflexivity|discriminate].
Qed.
Print Assumptions C35_set_seq_nr_refuted.

(* ---------------------------------------------------------------- C36 *)
(* A response arrives; [q] is the only pending request with its sequence number: [q]'s callback gets it (if it has one), the
   receive callback gets it if there is no response callback or that returned 1, [q] is released, and nothing happens to any
   other message. *)
Theorem C36_response_completes_one c s from h ies v s' q : reachable c s -> env_has is_close v = false -> is_response (hd_type h) = true ->
  handle_rx c s from h ies v = Ok s' -> In q (e_reqs s) -> hd_seq (q_h q) = hd_seq h ->
  (forall q', In q' (e_reqs s) -> hd_seq (q_h q') = hd_seq h -> q' = q) ->
  tr_of (q_id q) (e_trace s') = OFree (q_id q) :: (if negb (q_cb q) || v_rc1 v then [ODispatch from h ies (Some (q_id q))] else [])
    ++ (if q_cb q then [OResp (q_id q) (Some (h, ies))] else []) ++ tr_of (q_id q) (e_trace s)
  /\ has_id (q_id q) (e_reqs s') = false
  /\ forall id, id < e_next s -> id <> q_id q -> tr_of id (e_trace s') = tr_of id (e_trace s)
       /\ find_id id (e_reqs s') = find_id id (e_reqs s) /\ find_id id (e_resps s') = find_id id (e_resps s).
Proof. exact (response_completes_one c s from h ies v s' q). Qed.
Print Assumptions C36_response_completes_one.
(* A response that matches none is given to the receive callback, and nothing happens to any message. *)
Theorem C36_unmatched_response c s from h ies v s' : reachable c s -> env_has is_close v = false -> is_response (hd_type h) = true ->
  handle_rx c s from h ies v = Ok s' -> (forall q, In q (e_reqs s) -> hd_seq (q_h q) <> hd_seq h) ->
  (forall id, id < e_next s -> tr_of id (e_trace s') = tr_of id (e_trace s)
       /\ find_id id (e_reqs s') = find_id id (e_reqs s) /\ find_id id (e_resps s') = find_id id (e_resps s))
  /\ exists a b, e_trace s' = a ++ ODispatch from h ies None :: b ++ e_trace s.
Proof. exact (unmatched_response c s from h ies v s'). Qed.
Print Assumptions C36_unmatched_response.
Example C36_example : reachable ex_c (ex_st ex_two) /\ map (fun q => hd_seq (q_h q)) (e_reqs (ex_st ex_two)) = [2; 1]
  /\ (exists s', handle_rx ex_c (ex_st ex_two) ex_A (ex_resp 1) ex_resp_ies (ex_env [] []) = Ok s' /\ map q_id (e_reqs s') = [1])
  /\ (exists s', handle_rx ex_c (ex_st ex_two) ex_A (ex_resp 3) ex_resp_ies (ex_env [] []) = Ok s' /\ map q_id (e_reqs s') = [1; 0]).
Proof.
  split; [apply ex_reach; vm_compute; reflexivity|]. split; [vm_compute; reflexivity|].
  split; (eexists; split; [vm_compute; reflexivity|vm_compute; reflexivity]).
Qed.

(* ---------------------------------------------------------------- C37 *)
(* Peer B's request is not given to the receive callback because a response to peer A has the same sequence number; instead,
   the response to A's request is sent to A again. *)
Theorem C37_other_peers_request_refuted : exists c s s' from h ies v to bs rest, reachable c s /\ c_n1 c <> 0 /\ c_t1 c <> 0 /\
  is_response (hd_type h) = false /\ (forall o, In o (e_trace s) -> match o with OSend _ _ to' _ => to' <> from | ODispatch f _ _ _ => f <> from | _ => True end) /\
  handle_rx c s from h ies v = Ok s' /\ count is_dispatch (e_trace s') = count is_dispatch (e_trace s)
  /\ e_trace s' = OSend (Some 0) (e_now s) to bs :: rest /\ to <> from.
Proof.
  exists ex_c. do 2 eexists. exists ex_B, (mkHdr 1 5 None None 5), ex_req_ies, (ex_env [] []). do 3 eexists.
  split; [exists 1000, ex_server; vm_compute; reflexivity|]. split; [discriminate|]. split; [discriminate|]. split; [reflexivity|]. split.
  { vm_compute. intros o H. repeat (destruct H as [<-|H]; [try discriminate; exact I|]). destruct H. }
  split; [vm_compute; reflexivity|]. split; [vm_compute; reflexivity|]. split; [reflexivity|]. discriminate.
Qed.
Print Assumptions C37_other_peers_request_refuted.
(* An Association Setup Request to A is completed by a Session Deletion Response from B. *)
Theorem C37_other_peers_response_refuted : exists c s s' from h ies v q, reachable c s /\ In q (e_reqs s) /\ q_cb q = true
  /\ q_remote q <> from /\ hd_type h <> hd_type (q_h q) + 1 /\ is_response (hd_type h) = true
  /\ handle_rx c s from h ies v = Ok s' /\ In (OResp (q_id q) (Some (h, ies))) (e_trace s') /\ has_id (q_id q) (e_reqs s') = false.
Proof.
  exists ex_c. do 2 eexists. exists ex_B, (mkHdr 1 55 None (Some 0) 1), [[VLeaf (IvNum 1)]; []], (ex_env [] []). eexists.
  split; [exists 1000, ex_two; vm_compute; reflexivity|]. split; [right; left; reflexivity|]. split; [reflexivity|]. split; [discriminate|].
  split; [discriminate|]. split; [reflexivity|]. split; [vm_compute; reflexivity|]. split; [vm_compute; tauto|vm_compute; reflexivity].
Qed.
Print Assumptions C37_other_peers_response_refuted.
(* What holds: messages of several peers do not interfere as long as their sequence numbers differ. *)
Theorem C37_different_seq_nrs_partial c s from h ies v s' : reachable c s -> c_n1 c <> 0 -> c_t1 c <> 0 -> env_has is_close v = false ->
  handle_rx c s from h ies v = Ok s' ->
  (is_response (hd_type h) = false -> (forall id, ~ kept_response s id (hd_seq h)) ->
     exists a b, e_trace s' = a ++ ODispatch from h ies None :: b ++ e_trace s)
  /\ (is_response (hd_type h) = true -> forall q, In q (e_reqs s) -> hd_seq (q_h q) <> hd_seq h ->
     (forall q', In q' (e_reqs s) -> hd_seq (q_h q') = hd_seq h -> forall q'', In q'' (e_reqs s) -> hd_seq (q_h q'') = hd_seq h -> q'' = q') ->
     tr_of (q_id q) (e_trace s') = tr_of (q_id q) (e_trace s) /\ find_id (q_id q) (e_reqs s') = find_id (q_id q) (e_reqs s)).
Proof. exact (different_seq_nrs c s from h ies v s'). Qed.
Print Assumptions C37_different_seq_nrs_partial.

(* ---------------------------------------------------------------- C38 *)
(* The first thing that happens when a Heartbeat Request is received, in any state: the Heartbeat Response is sent to the
   sender with the sequence number of the request and the recovery time stamp (which never changes, C39). *)
Theorem C38_heartbeat_answered c s from h ies v s' : hd_type h = msgt_heartbeat_req -> e_open s = true -> v_hb v = true ->
  handle_rx c s from h ies v = Ok s' ->
  exists new, e_trace s' = new ++ OSend None (e_now s) from (hb_resp_bytes (hd_seq h) (e_recov s)) :: e_trace s.
Proof. exact (heartbeat_answered c s from h ies v s'). Qed.
Print Assumptions C38_heartbeat_answered.
(* Every Heartbeat Request in a datagram is answered, whatever else is in the datagram. *)
Theorem C38_heartbeats_in_datagram c s from d vs s' h ies : reachable c s -> e_open s = true ->
  (forall i, env_has is_close (vs i) = false /\ v_hb (vs i) = true) ->
  step c s (ERx from d vs) = Ok s' -> In (RxMsg h ies) (rx_datagram d) -> hd_type h = msgt_heartbeat_req ->
  exists a b, e_trace s' = a ++ OSend None (e_now s) from (hb_resp_bytes (hd_seq h) (e_recov s)) :: b ++ e_trace s.
Proof. exact (heartbeats_in_datagram c s from d vs s' h ies). Qed.
Print Assumptions C38_heartbeats_in_datagram.
(* [hb_resp_bytes] is a Heartbeat Response with these contents *)
Theorem C38_response_decodes nr r : nr < 2 ^ 24 -> r < 2 ^ 32 ->
  rx_datagram (hb_resp_bytes nr r) = [RxMsg (mkHdr 1 msgt_heartbeat_resp None None nr) [[VLeaf (IvNum r)]]].
Proof. exact (hb_resp_decodes nr r). Qed.
Print Assumptions C38_response_decodes.
(* osmo_pfcp_endpoint_tx_heartbeat_req(): one Heartbeat Request with the next sequence number and the recovery time stamp goes out; it
   is not kept for retransmission. *)
Theorem C38_heartbeat_request c s to s' : e_open s = true -> run_call c (CHeartbeat to true) s = Ok s' ->
  let nr := next_seq_nr (e_seq s) in
  e_trace s' = OSend None (e_now s) to (hb_req_bytes nr (e_recov s)) :: OSeq None nr :: e_trace s
  /\ e_reqs s' = e_reqs s /\ e_resps s' = e_resps s /\ e_seq s' = nr.
Proof. exact (heartbeat_sent c s to s'). Qed.
Print Assumptions C38_heartbeat_request.
Theorem C38_request_decodes nr r : nr < 2 ^ 24 -> r < 2 ^ 32 ->
  rx_datagram (hb_req_bytes nr r) = [RxMsg (mkHdr 1 msgt_heartbeat_req None None nr) [[VLeaf (IvNum r)]]].
Proof. exact (hb_req_decodes nr r). Qed.
Print Assumptions C38_request_decodes.
Example C38_request_example : exists s', run_call ex_c (CHeartbeat ex_B true) (ex_st ex_two) = Ok s' /\ e_open (ex_st ex_two) = true.
Proof. eexists. split; vm_compute; reflexivity. Qed.
Definition ex_hb (n : N) : list N := [32; 1; 0; 12; 0; 0; n; 0; 0; 96; 0; 4; 0; 0; 0; 7].
Example C38_example : rx_datagram (ex_hb 1 ++ ex_hb 2) = [RxMsg (mkHdr 1 1 None None 1) [[VLeaf (IvNum 7)]]; RxMsg (mkHdr 1 1 None None 2) [[VLeaf (IvNum 7)]]]
  /\ exists s', step ex_c (ex_st ex_two) (ERx ex_B (ex_hb 1 ++ ex_hb 2) (fun _ => ex_env [] [])) = Ok s' /\ e_open (ex_st ex_two) = true
       /\ In (OSend None 100 ex_B [32; 2; 0; 12; 0; 0; 2; 0; 0; 96; 0; 4; 131; 170; 130; 104]) (e_trace s').
Proof. split; [vm_compute; reflexivity|]. eexists. split; [vm_compute; reflexivity|]. split; [vm_compute; reflexivity|]. vm_compute. tauto. Qed.

(* ---------------------------------------------------------------- C39 *)
(* 25567 days from 1900-01-01 to 1970-01-01; at any time after creation *)
Theorem C39_recovery_time_stamp c time evs s : run c (ep_create time) evs = Ok s -> e_recov s = (25567 * 86400 + time) mod 2 ^ 32.
Proof. exact (recovery_time c time evs s). Qed.
Print Assumptions C39_recovery_time_stamp.
Example C39_example : e_recov (ep_create 0) = 2208988800 /\ e_recov (ep_create 2085978496) = 0.
Proof. split; vm_compute; reflexivity. Qed.

(* ---------------------------------------------------------------- C40 *)
(* close() calls no response callback, and none is called later: the application is left waiting *)
Theorem C40_close_calls_back_refuted : exists c s q, reachable c s /\ In q (e_reqs s) /\ q_cb q = true
  /\ forall evs s', run c (ep_close s) evs = Ok s' -> count (is_resp_cb (q_id q)) (e_trace s') = 0.
Proof.
  exists ex_c. do 2 eexists. split; [exists 1000, ex_two; vm_compute; reflexivity|]. split; [right; left; reflexivity|]. split; [reflexivity|].
  intros evs s' E. refine (closed_never_called _ _ evs s' _ _ _ _ E); [exists 1000, ex_two; vm_compute; reflexivity|vm_compute; reflexivity|vm_compute; reflexivity].
Qed.
Print Assumptions C40_close_calls_back_refuted.
(* What holds: close() closes the socket, empties the queues, releases every message that was with the endpoint exactly
   once, and does nothing else; afterwards nothing ever happens to these messages. *)
Theorem C40_close_partial c s : reachable c s ->
  e_open (ep_close s) = false /\ is_busy (ep_close s) = false
  /\ (forall id, tr_of id (e_trace (ep_close s)) = (if has_id id (e_reqs s ++ e_resps s) then [OFree id] else []) ++ tr_of id (e_trace s))
  /\ (forall id evs s', id < e_next s -> run c (ep_close s) evs = Ok s' -> tr_of id (e_trace s') = tr_of id (e_trace (ep_close s))).
Proof. exact (close_final c s). Qed.
Print Assumptions C40_close_partial.
(* Nor does close() stop the reception of what is left of the datagram that is being received: rx_msg_cb closes the endpoint for the
   first message, and is called for the second. *)
Theorem C40_dispatch_after_close_refuted : exists c s d vs s' a b h1 i1 h2 i2, reachable c s /\ v_rx (vs 0%nat) = [CClose] /\ v_rx (vs 1%nat) = []
  /\ step c s (ERx ex_A d vs) = Ok s' /\ e_open s' = false /\ rx_datagram d = [RxMsg h1 i1; RxMsg h2 i2]
  /\ e_trace s' = ODispatch ex_A h2 i2 None :: a /\ In (ODispatch ex_A h1 i1 None) a /\ a = OSendErr None :: OFree 0 :: b.
Proof.
  exists ex_c, (ex_st ex_sent1), (ex_hb 1 ++ ex_hb 2), (fun i => match i with O => mkEnv true true [] [] false [CClose] | _ => ex_env [] [] end).
  do 7 eexists. split; [apply ex_reach; vm_compute; reflexivity|]. split; [reflexivity|]. split; [reflexivity|]. split; [vm_compute; reflexivity|]. split; [vm_compute; reflexivity|].
  split; [vm_compute; reflexivity|]. split; [vm_compute; reflexivity|]. split; [vm_compute; tauto|]. vm_compute. reflexivity.
Qed.
Print Assumptions C40_dispatch_after_close_refuted.
Example C40_example : reachable ex_c (ex_st ex_two) /\ is_busy (ex_st ex_two) = true /\ e_open (ex_st ex_two) = true
  /\ tr_of 0 (e_trace (ep_close (ex_st ex_two))) = OFree 0 :: tr_of 0 (e_trace (ex_st ex_two)).
Proof. split; [apply ex_reach; vm_compute; reflexivity|]. repeat split; vm_compute; reflexivity. Qed.

(* ---------------------------------------------------------------- C41 *)
(* No message is released twice, and (N1, T1 not 0) each is released by the time of close(). *)
Theorem C41_freed_at_most_once c s id : reachable c s -> count (is_free id) (e_trace s) <= 1.
Proof. exact (freed_at_most_once c s id). Qed.
Print Assumptions C41_freed_at_most_once.
Theorem C41_freed_after_close_partial c s id to h ies cb : reachable c s -> c_n1 c <> 0 -> c_t1 c <> 0 -> In (OTx id to h ies cb) (e_trace s) ->
  count (is_free id) (e_trace (ep_close s)) = 1.
Proof. exact (freed_after_close c s id to h ies cb). Qed.
Print Assumptions C41_freed_after_close_partial.
(* No history leads to undefined behaviour (double free, use after free), if callbacks for received responses and timeouts do
   not close the endpoint, and messages can be encoded and datagrams decoded without. *)
Theorem C41_no_undefined_behaviour_partial c time evs : Forall (sane c) evs -> exists s, run c (ep_create time) evs = Ok s.
Proof. exact (no_undefined_behaviour c time evs). Qed.
Print Assumptions C41_no_undefined_behaviour_partial.
(* A response callback that closes the endpoint: the queue entry is freed twice. *)
Theorem C41_callback_closes_refuted : exists c time evs, run c (ep_create time) evs = UB DoubleFree
  /\ Forall (fun ev => match ev with ERx _ d _ => forall u, ~ In (RxUB u) (rx_datagram d) | ECall a => call_safe c a | ETimer _ _ k => calls_safe c k | ETick _ => True end) evs.
Proof.
  exists ex_c, 0, [ECall (CBind true); ex_tx true; ETick 500; ETimer 0 false [CClose]]. split; [vm_compute; reflexivity|].
  repeat constructor. intros nr _ u. vm_compute. discriminate.
Qed.
Print Assumptions C41_callback_closes_refuted.
(* In general: whenever the callback that is told about the response to a pending request closes the endpoint, and whenever the
   callback that is told about a timeout or a failed retransmission does. *)
Theorem C41_close_in_rx_callback c s from h ies v : reachable c s -> is_response (hd_type h) = true ->
  calls_safe c (v_ctx v) -> calls_safe c (v_resp v) -> calls_safe c (v_rx v) ->
  (exists q, In q (e_reqs s) /\ hd_seq (q_h q) = hd_seq h) ->
  (forall q, In q (e_reqs s) -> hd_seq (q_h q) = hd_seq h -> existsb is_close (if q_cb q then v_resp v else v_rx v) = true) ->
  handle_rx c s from h ies v = UB DoubleFree.
Proof. exact (close_in_rx_callback c s from h ies v). Qed.
Print Assumptions C41_close_in_rx_callback.
Theorem C41_close_in_timeout_callback c s id snd k q : reachable c s -> calls_safe c k -> existsb is_close k = true ->
  In q (e_reqs s) -> q_id q = id -> q_cb q = true -> q_dl q <= e_now s -> q_n1 q = 0 \/ e_open s && snd = false ->
  step c s (ETimer id snd k) = UB DoubleFree.
Proof. exact (close_in_timeout_callback c s id snd k q). Qed.
Print Assumptions C41_close_in_timeout_callback.
(* But callbacks for a received message that is no response to a pending request and no retransmission of an answered request may
   do anything, also close the endpoint. *)
Theorem C41_close_in_unmatched c s from h ies v : reachable c s ->
  calls_safe c (v_ctx v) -> calls_safe c (v_resp v) -> calls_safe c (v_rx v) ->
  (if is_response (hd_type h) then forall q, In q (e_reqs s) -> hd_seq (q_h q) <> hd_seq h else forall id, ~ kept_response s id (hd_seq h)) ->
  exists s', handle_rx c s from h ies v = Ok s'.
Proof. exact (close_in_unmatched c s from h ies v). Qed.
Print Assumptions C41_close_in_unmatched.
Definition ex_closing : env := mkEnv true true [] [CClose] false [CClose].
Example C41_close_example : reachable ex_c (ex_st ex_two) /\ handle_rx ex_c (ex_st ex_two) ex_A (mkHdr 1 6 None None 1) ex_resp_ies ex_closing = UB DoubleFree
  /\ (exists q, In q (e_reqs (ex_st ex_two)) /\ hd_seq (q_h q) = 1 /\ q_cb q = true)
  /\ (exists s', handle_rx ex_c (ex_st ex_two) ex_A (mkHdr 1 6 None None 77) ex_resp_ies ex_closing = Ok s' /\ e_open s' = false)
  /\ Forall (sane ex_c) (ex_two ++ [ERx ex_A (ex_hb 1 ++ ex_hb 2) (fun _ => ex_closing)]).
Proof.
  split; [apply ex_reach; vm_compute; reflexivity|]. split; [vm_compute; reflexivity|]. split; [vm_compute; eexists; split; [right; left; reflexivity|split; reflexivity]|].
  split; [eexists; split; vm_compute; reflexivity|].
  assert (S1 : tx_safe ex_c ex_req ex_req_ies) by (intros nr _ u; vm_compute; discriminate).
  apply Forall_app. split; [repeat constructor; exact S1|]. constructor; [|constructor]. split; [intros u H; vm_compute in H; intuition discriminate|].
  change (rx_datagram (ex_hb 1 ++ ex_hb 2)) with (rx_datagram (ex_hb 1 ++ ex_hb 2)). intros i h ies. rewrite (proj1 C38_example).
  destruct i as [|[|i]]; cbn [nth_error]; [| |destruct i; discriminate]; intros [= <- _]; repeat split.
Qed.
(* N1 = 0: osmo_pfcp_endpoint_tx() returns success, but the message is never released (and if it is a request with a
   callback, failure is reported although it was sent). *)
Theorem C41_no_retransmission_refuted : exists c s, reachable c s /\ In (ORet 0 true) (e_trace s)
  /\ count (is_send 0) (e_trace s) = 1 /\ count (is_resp_fail 0) (e_trace s) = 1
  /\ forall evs s', run c s evs = Ok s' -> count (is_free 0) (e_trace s') = 0.
Proof.
  exists (mkEpCfg 0 500 3000 (c_node ex_c)). eexists. split; [exists 0, [ECall (CBind true); ex_tx true]; vm_compute; reflexivity|].
  split; [vm_compute; tauto|]. split; [vm_compute; reflexivity|]. split; [vm_compute; reflexivity|].
  intros evs s' E. rewrite <- (count_tr_of _ 0) by (intros o; destruct o; cbn; congruence).
  match type of E with run ?c ?s _ = _ => assert (R : reachable c s) by (exists 0, [ECall (CBind true); ex_tx true]; vm_compute; reflexivity) end.
  rewrite (gone_is_silent _ _ evs s' 0 R eq_refl eq_refl E). vm_compute. reflexivity.
Qed.
Print Assumptions C41_no_retransmission_refuted.
Example C41_example : Forall (sane ex_c) (ex_timeout ++ [ex_answer ex_A 5; ECall CClose])
  /\ In (OTx 0 ex_A ex_req ex_req_ies true) (e_trace (ex_st ex_two)).
Proof.
  split; [|vm_compute; tauto]. assert (S1 : tx_safe ex_c ex_req ex_req_ies) by (intros nr _ u; vm_compute; discriminate).
  assert (S2 : tx_safe ex_c (ex_resp 5) ex_resp_ies) by (intros nr _ u; vm_compute; discriminate).
  apply Forall_app. split; [repeat constructor; exact S1|]. constructor; [|constructor; [exact I|constructor]].
  split; [intros u H; vm_compute in H; intuition discriminate|]. intros i h ies H. unfold rx_sane.
  split; [destruct (is_response (hd_type h)); reflexivity|]. split; [exact I|]. split; [exact I|]. split; [split; [exact S2|exact I]|exact I].
Qed.

(* ---------------------------------------------------------------- C52 *)
(* What osmo_pfcp_endpoint_tx() sends: to the message's remote address, the encoded message with the configured Node ID, and
   with a sequence number drawn for it if it is a request, with its own if it is a response. *)
Theorem C52_what_is_sent c s id to h ies cb t to' bs : reachable c s -> In (OTx id to h ies cb) (e_trace s) -> In (OSend (Some id) t to' bs) (e_trace s) ->
  to' = to /\ exists nr, encode_msg (mkHdr (hd_version h) (hd_type h) (hd_prio h) (hd_seid h) nr) (put_node_id (c_node c) (hd_type h) ies) = Ok bs
    /\ if is_response (hd_type h) then nr = hd_seq h else In (OSeq (Some id) nr) (e_trace s).
Proof. exact (what_is_sent c s id to h ies cb t to' bs). Qed.
Print Assumptions C52_what_is_sent.
(* the Node ID is the first IE of the message types that have one *)
Theorem C52_node_id node t x ies :
  (In t [5; 6; 9; 10; 50; 51] -> put_node_id node t (x :: ies) = [VLeaf node] :: ies)
  /\ (~ In t [5; 6; 9; 10; 50; 51] -> put_node_id node t (x :: ies) = x :: ies).
Proof. exact (put_node_id_spec node t x ies). Qed.
Print Assumptions C52_node_id.
Example C52_example : In (OSend (Some 0) 0 ex_A [32; 5; 0; 21; 0; 0; 1; 0; 0; 60; 0; 5; 0; 127; 0; 0; 1; 0; 96; 0; 4; 0; 0; 0; 7]) (e_trace (ex_st ex_two))
  /\ In (OSeq (Some 0) 1) (e_trace (ex_st ex_two)).
Proof. split; vm_compute; tauto. Qed.

(* ---------------------------------------------------------------- C53 *)
(* osmo_pfcp_endpoint_tx() reports an error exactly if the message could not be sent; then it has already been released and
   the failure callback of a request has been called. If it reports success, it was sent. *)
Theorem C53_tx_result c s id to h ies cb : reachable c s -> In (OTx id to h ies cb) (e_trace s) ->
  (In (ORet id false) (e_trace s) -> count (is_send id) (e_trace s) = 0 /\ count (is_free id) (e_trace s) = 1
     /\ count (is_resp_fail id) (e_trace s) = (if negb (is_response (hd_type h)) && cb then 1 else 0) /\ ~ In (ORet id true) (e_trace s))
  /\ (In (ORet id true) (e_trace s) -> count (is_send id) (e_trace s) <> 0)
  /\ (In (ORet id true) (e_trace s) \/ In (ORet id false) (e_trace s)).
Proof. exact (tx_result c s id to h ies cb). Qed.
Print Assumptions C53_tx_result.
Definition ex_noroute : list event := [ECall (CBind true); ECall (CTx ex_A ex_req ex_req_ies true false [])].
Example C53_example : reachable ex_c (ex_st ex_noroute) /\ In (ORet 0 false) (e_trace (ex_st ex_noroute)) /\ In (ORet 0 true) (e_trace (ex_st ex_two)).
Proof. split; [apply ex_reach; vm_compute; reflexivity|]. split; vm_compute; tauto. Qed.

(* ---------------------------------------------------------------- C82 *)
(* osmo_pfcp_endpoint_retrans_queue_is_busy(): true exactly if a message given to osmo_pfcp_endpoint_tx() has not been freed yet. *)
Theorem C82_is_busy c s : reachable c s -> c_n1 c <> 0 -> c_t1 c <> 0 ->
  is_busy s = true <-> exists id to h ies cb, In (OTx id to h ies cb) (e_trace s) /\ count (is_free id) (e_trace s) = 0.
Proof. exact (busy_iff c s). Qed.
Print Assumptions C82_is_busy.
Example C82_example : reachable ex_c (ex_st ex_server) /\ e_reqs (ex_st ex_server) = [] /\ is_busy (ex_st ex_server) = true /\ is_busy (ex_st ex_timeout) = false.
Proof. split; [apply ex_reach; vm_compute; reflexivity|]. repeat split; vm_compute; reflexivity. Qed.

(* ---------------------------------------------------------------- C97 *)
(* The sequence numbers used after osmo_pfcp_endpoint_set_seq_nr_state(n), in the order they were used: the numbers following n in
   the circular order 1 .. 2^24 - 1. C52: these are the numbers on the wire. *)
Theorem C97_after_set_seq_nr c s n evs s' new : n < 2 ^ 32 -> run c s (ECall (CSetSeq n) :: evs) = Ok s' -> Forall (event_free is_set_seq) evs -> e_trace s' = new ++ e_trace s ->
  map snd (draws (rev new)) = map (fun k => seq_after n (N.of_nat k)) (seq 1 (length (draws new))).
Proof. exact (draws_after_set c s n evs s' new). Qed.
Print Assumptions C97_after_set_seq_nr.
(* ... and those used by an endpoint from its creation on: 1, 2, ... *)
Theorem C97_from_creation c time evs s' : run c (ep_create time) evs = Ok s' -> Forall (event_free is_set_seq) evs ->
  map snd (draws (rev (e_trace s'))) = map (fun k => seq_after 0 (N.of_nat k)) (seq 1 (length (draws (e_trace s')))).
Proof. intros H1 H2. exact (draws_exact c (ep_create time) 0 evs s' (e_trace s') H1 eq_refl H2 (eq_sym (app_nil_r _))). Qed.
Print Assumptions C97_from_creation.
Example C97_example : exists s new, run ex_c (ep_create 0) (ECall (CSetSeq 16777214) :: ex_two) = Ok s /\ e_trace s = new ++ e_trace (ep_create 0)
  /\ map snd (draws (rev new)) = [16777215; 1] /\ [16777215; 1] = map (seq_after 16777214) [1; 2] /\ seq_after 0 1 = 1 /\ seq_after 4294967295 1 = 1.
Proof. eexists. eexists. split; [vm_compute; reflexivity|]. split; [symmetry; apply app_nil_r|]. repeat split; vm_compute; reflexivity. Qed.
