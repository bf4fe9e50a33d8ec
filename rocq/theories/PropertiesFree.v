(* PropertiesFree.v -- C100: osmo_pfcp_endpoint_free(), called from the main loop or from within callbacks. Proofs in FreeProofs.v,
   vocabulary in FreeModel.v and FreeSpec.v. *)
From Verif Require Import Base GtlvModel DecEncModel IesModel TablesModel MsgModel EndpointModel EndpointSpec FreeModel FreeSpec FreeProofs PropertiesEndpoint.

(* Programs that never free the endpoint behave as those of EndpointModel.v: the two models agree. *)
Theorem C100_without_free c evs s : Forall (fun ev => ~ fevent_has_free ev) evs -> frun c (Live s) evs = live (run c s (map as_event evs)).
Proof. exact (without_free c evs s). Qed.
Print Assumptions C100_without_free.
(* Whatever a program with osmo_pfcp_endpoint_free() makes observable, the same program with osmo_pfcp_endpoint_close() in its place
   does: all theorems about reachable endpoints and what was observed of them (C30 .. C41) hold of it. *)
Theorem C100_as_close c time evs x : frun c (Live (ep_create time)) evs = Ok x ->
  exists s, run c (ep_create time) (map as_event evs) = Ok s /\ e_trace s = trace_of x
    /\ match x with Live s' => s' = s | Gone _ => is_busy s = false /\ e_resps s = [] /\ e_open s = false end.
Proof. exact (history_as_close c time evs x). Qed.
Print Assumptions C100_as_close.
(* Once the endpoint is freed, each message ever given to osmo_pfcp_endpoint_tx() has been released, exactly once. (Not so if N1 or T1 is
   zero: C41.) *)
Theorem C100_all_released c time evs tr id to h ies cb : frun c (Live (ep_create time)) evs = Ok (Gone tr) -> c_n1 c <> 0 -> c_t1 c <> 0 ->
  In (OTx id to h ies cb) tr -> count (is_free id) tr = 1.
Proof. exact (all_released c time evs tr id to h ies cb). Qed.
Print Assumptions C100_all_released.
(* From then on nothing is observed any more: no packet is sent, no callback invoked; freeing it again does nothing; any other call is
   undefined behaviour. *)
Theorem C100_after_free c x a b tr : frun c x a = Ok (Gone tr) ->
  (existsb uses b = false -> frun c x (a ++ b) = Ok (Gone tr)) /\ (existsb uses b = true -> exists u, frun c x (a ++ b) = UB u).
Proof. exact (after_free c x a b tr). Qed.
Print Assumptions C100_after_free.
(* From the main loop it can be freed at any time. *)
Theorem C100_main_loop c s : fstep c (Live s) (FvCall FFree) = Ok (Gone (e_trace (ep_close s))).
Proof. reflexivity. Qed.
Print Assumptions C100_main_loop.
(* When a datagram is received, it can be freed only from rx_msg_cb, called for a message that answers no pending request and is no
   retransmission of an answered request, and only if no further message in the datagram is to be dispatched; and then it can. *)
Theorem C100_receiving c s from d vs tr : reachable c s ->
  (fstep c (Live s) (FvRx from d vs) = Ok (Gone tr) <->
   e_open s = true /\ exists pre h ies post s1, rx_datagram d = pre ++ RxMsg h ies :: post /\ Forall not_dispatched post
     /\ fhandle_all c from pre vs (Live s) = Ok (Live s1) /\ ~ matches s1 h /\ fhandle_rx c s1 from h ies (vs (length pre)) = Ok (Gone tr)).
Proof. exact (released_on_rx c s from d vs tr). Qed.
Print Assumptions C100_receiving.
Theorem C100_only_in_rx_cb c s from h ies v tr : reachable c s -> fhandle_rx c s from h ies v = Ok (Gone tr) ->
  ~ matches s h /\ existsb has_free (fv_rx v) = true.
Proof. intros H. exact (released_by_rx_cb c s from h ies v tr (EndpointFinal.reach_wf c s H)). Qed.
Print Assumptions C100_only_in_rx_cb.
Theorem C100_in_rx_cb c s from h ies v : reachable c s -> ~ matches s h -> fv_ctx v = [] -> releases c (fv_rx v) ->
  exists tr, fhandle_rx c s from h ies v = Ok (Gone tr).
Proof. exact (rx_cb_releases c s from h ies v). Qed.
Print Assumptions C100_in_rx_cb.
(* Freeing it in set_msg_ctx_cb makes the library use freed memory. *)
Theorem C100_in_ctx_cb_refuted c s from h ies v : reachable c s -> releases c (fv_ctx v) -> fhandle_rx c s from h ies v = UB DoubleFree.
Proof. exact (in_ctx_cb c s from h ies v). Qed.
Print Assumptions C100_in_ctx_cb_refuted.
(* A response callback that frees the endpoint when the response arrives, or when the request times out, does so as well ... *)
Theorem C100_in_resp_cb_refuted c s from h ies v : reachable c s -> is_response (hd_type h) = true -> matches s h ->
  (forall q, In q (e_reqs s) -> hd_seq (q_h q) = hd_seq h -> q_cb q = true) -> fv_ctx v = [] -> releases c (fv_resp v) ->
  fhandle_rx c s from h ies v = UB DoubleFree.
Proof. exact (in_resp_cb c s from h ies v). Qed.
Print Assumptions C100_in_resp_cb_refuted.
Theorem C100_in_timeout_cb_refuted c s q snd k : reachable c s -> In q (e_reqs s) -> q_cb q = true -> q_dl q <= e_now s ->
  q_n1 q = 0 \/ snd = false \/ e_open s = false -> releases c k ->
  fstep c (Live s) (FvTimer (q_id q) snd k) = UB DoubleFree.
Proof. exact (timeout_cb_releases c s q snd k). Qed.
Print Assumptions C100_in_timeout_cb_refuted.
Theorem C100_timer_never c s id snd k tr : fstep c (Live s) (FvTimer id snd k) <> Ok (Gone tr).
Proof. exact (timer_never_releases c s id snd k tr). Qed.
Print Assumptions C100_timer_never.
(* ... but when the same callback is invoked by osmo_pfcp_endpoint_tx() itself, because the request cannot be sent, that is fine,
   unless the message was allocated as a talloc child of the endpoint: then it is released twice. *)
Theorem C100_in_failed_tx c s to h ies snd (child : bool) k : tx_safe c h ies -> is_response (hd_type h) = false -> snd = false \/ e_open s = false -> releases c k ->
  if child then frun_call c (FTx to h ies true snd child k) (Live s) = UB DoubleFree
  else exists tr, frun_call c (FTx to h ies true snd child k) (Live s) = Ok (Gone tr).
Proof. exact (failed_tx_releases c s to h ies snd child k). Qed.
Print Assumptions C100_in_failed_tx.
(* When the request was sent and the callback is invoked at once because no response is to be waited for, it is fine in both cases. *)
Theorem C100_in_tx_without_wait c s to h ies child k : is_response (hd_type h) = false -> e_open s = true -> c_n1 c = 0 \/ c_t1 c = 0 -> releases c k ->
  (exists bs, encode_msg (mkHdr (hd_version h) (hd_type h) (hd_prio h) (hd_seid h) (next_seq_nr (e_seq s))) (put_node_id (c_node c) (hd_type h) ies) = Ok bs) ->
  exists tr, frun_call c (FTx to h ies true true child k) (Live s) = Ok (Gone tr).
Proof. exact (no_wait_releases c s to h ies child k). Qed.
Print Assumptions C100_in_tx_without_wait.

(* the endpoint has sent a request (with response callback), waits for the answer, and has kept a response to request 5 *)
Definition fex_env (resp rx : list fcall) : fenv := mkFEnv true true [] resp false rx.
Definition fex_answer (rx : list fcall) (nr : N) : fevent := FvRx ex_A (ex_req_bytes nr) (fun _ => fex_env [] rx).
Definition fex_tx : fevent := FvCall (FTx ex_A ex_req ex_req_ies true true true []).
Definition fex_respond (nr : N) : fcall := FTx ex_A (ex_resp nr) ex_resp_ies false true false [].
Definition fex_hist : list fevent := [FvCall (FCall (CBind true)); fex_tx; fex_answer [fex_respond 5] 5; FvTick 100].
Definition fex_resp_bytes (nr : N) : list N := match encode_msg (ex_resp nr) ex_resp_ies with Ok bs => bs | _ => [] end.
Definition fex_run (l : list fevent) : res fep := frun ex_c (Live (ep_create 1000)) (fex_hist ++ l).
Definition freed_ids (r : res fep) : option (list N) :=
  match r with Ok (Gone tr) => Some (rev (concat (map (fun o => match o with OFree id => [id] | _ => [] end) tr))) | _ => None end.
Lemma fex_releases : releases ex_c [FFree].
Proof. intros s. eexists. reflexivity. Qed.
Example C100_example :
  (* freed from the main loop, twice: both messages are released *)
  freed_ids (fex_run [FvCall FFree; FvTick 1000; FvTimer 0 true []; FvCall FFree]) = Some [0; 1]
  (* freed in rx_msg_cb, on a new request, after responding to it *)
  /\ freed_ids (fex_run [fex_answer [fex_respond 6; FFree] 6]) = Some [0; 1; 2]
  (* ... and used afterwards *)
  /\ (exists u, fex_run [fex_answer [FFree; fex_respond 6] 6] = UB u)
  (* ... and a second message in the same datagram *)
  /\ (exists u, fex_run [FvRx ex_A (ex_req_bytes 6 ++ ex_req_bytes 7) (fun _ => fex_env [] [FFree])] = UB u)
  (* on a retransmission rx_msg_cb is not called *)
  /\ freed_ids (fex_run [fex_answer [FFree] 5; FvCall FFree]) = Some [0; 1]
  (* freed in the response callback *)
  /\ (exists u, fex_run [FvRx ex_A (fex_resp_bytes 1) (fun _ => fex_env [FFree] [])] = UB u)
  /\ (exists u, fex_run [FvTick 400; FvTimer 0 false [FFree]] = UB u)
  /\ freed_ids (fex_run [FvCall (FTx ex_A ex_req ex_req_ies true false false [FFree])]) = Some [0; 1; 2]
  /\ (exists u, fex_run [FvCall (FTx ex_A ex_req ex_req_ies true false true [FFree])] = UB u)
  /\ (exists tr, frun_call (mkEpCfg 0 500 3000 (c_node ex_c)) (FTx ex_A ex_req ex_req_ies true true true [FFree]) (Live (ex_st [ECall (CBind true)])) = Ok (Gone tr)).
Proof. repeat split; try (vm_compute; reflexivity); eexists; vm_compute; reflexivity. Qed.
Example C100_example_hyps :
  (exists s, run ex_c (ep_create 1000) (map as_event fex_hist) = Ok s /\ reachable ex_c s
     /\ matches s (ex_resp 1) /\ matches s (mkHdr 1 5 None None 5) /\ ~ matches s (mkHdr 1 5 None None 6)
     /\ (forall q, In q (e_reqs s) -> q_cb q = true))
  /\ Forall (fun ev => ~ fevent_has_free ev) fex_hist.
Proof.
  split.
  - eexists. split; [vm_compute; reflexivity|]. split; [exists 1000, (map as_event fex_hist); vm_compute; reflexivity|].
    split; [eexists; split; [left; reflexivity|reflexivity]|]. split; [eexists; split; [left; reflexivity|reflexivity]|].
    split; [intros (q & [<-|[]] & [=])|intros q [<-|[]]; reflexivity].
  - repeat constructor; cbn; try (intros [=]); try tauto. intros (i & [=]).
Qed.
