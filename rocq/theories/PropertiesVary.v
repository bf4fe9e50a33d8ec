(* PropertiesVary.v -- property theorem C94: the endpoint's promises when its timers are changed while it runs. Proofs are in
   VaryProofs.v. The vocabulary is in VarySpec.v (histories in which each event has the timer values in force when it
   happens; [given time before c ev after id s]: message [id] is given to the endpoint in event [ev], with timers [c] in force; the
   history is [before], [ev], [after], and leads to state [s]) and EndpointSpec.v. *)
From Verif Require Import Base BaseProofs GtlvModel DecEncModel IesModel TablesModel MsgModel EndpointModel EndpointSpec
  EndpointProofs EndpointRun EndpointLife EndpointFinal EndpointProps EndpointExt EndpointProps2 EndpointProps3 VarySpec VaryProofs PropertiesEndpoint.

(* A request is sent at most 1 + N1 times, with the N1 in force when it was given to the endpoint, whatever N1 is later; always the
   same bytes to the same address; at times no closer than the smallest T1 in force since. *)
Theorem C94_transmissions time before c ev after id s to h ies cb : given time before c ev after id s -> In (OTx id to h ies cb) (e_trace s) ->
  is_response (hd_type h) = false ->
  count (is_send id) (e_trace s) <= 1 + c_n1 c
  /\ (forall lo, timers (fun x => lo <= c_t1 x) ((c, ev) :: after) -> spaced N.le lo (send_times id (e_trace s)))
  /\ exists bs, forall t to' bs', In (OSend (Some id) t to' bs') (e_trace s) -> to' = to /\ bs' = bs.
Proof. exact (vary_transmissions time before c ev after id s to h ies cb). Qed.
Print Assumptions C94_transmissions.
(* Each event, with the timers in force in it: the timer of a request pending after it is due when it was before and nothing was sent, or
   the request was sent in this event and its timer is due T1 after that. *)
Theorem C94_timer_due time l s c ev s' q : vrun (ep_create time) l = Ok s -> step c s ev = Ok s' -> In q (e_reqs s') ->
  (exists q0, In q0 (e_reqs s) /\ q_id q0 = q_id q /\ q_dl q0 = q_dl q /\ send_times (q_id q) (e_trace s') = send_times (q_id q) (e_trace s))
  \/ exists t rest, send_times (q_id q) (e_trace s') = t :: rest /\ q_dl q = t + c_t1 c.
Proof. exact (vary_deadline time l s c ev s' q). Qed.
Print Assumptions C94_timer_due.
(* If every timer is handled when it is due: exactly a T1 in force apart. *)
Theorem C94_exact_spacing time before c ev after id s to h ies cb : given time before c ev after id s -> In (OTx id to h ies cb) (e_trace s) ->
  is_response (hd_type h) = false -> vprompt (ep_create time) (before ++ (c, ev) :: after) ->
  spaced (fun t t' => exists x, In x (map fst ((c, ev) :: after)) /\ t' = t + c_t1 x) 0 (send_times id (e_trace s)).
Proof. exact (vary_exact time before c ev after id s to h ies cb). Qed.
Print Assumptions C94_exact_spacing.
(* Failure is reported only if sending failed or after all 1 + N1 transmissions and N1 + 1 timeouts; and it is reported then. *)
Theorem C94_failure_callback time before c ev after id s to h ies cb : given time before c ev after id s -> In (OTx id to h ies cb) (e_trace s) ->
  is_response (hd_type h) = false -> c_n1 c <> 0 -> c_t1 c <> 0 ->
  (count (is_resp_fail id) (e_trace s) <> 0 ->
     count (is_resp_fail id) (e_trace s) = 1 /\ count (is_resp_ok id) (e_trace s) = 0
     /\ (count (is_senderr id) (e_trace s) = 1
         \/ count (is_send id) (e_trace s) = 1 + c_n1 c /\ count (is_timer id) (e_trace s) = c_n1 c + 1))
  /\ (count (is_timer id) (e_trace s) = c_n1 c + 1 ->
     count (is_resp_fail id) (e_trace s) = (if cb then 1 else 0) /\ count (is_resp_ok id) (e_trace s) = 0
     /\ count (is_free id) (e_trace s) = 1 /\ has_id id (e_reqs s) = false).
Proof. exact (vary_failure time before c ev after id s to h ies cb). Qed.
Print Assumptions C94_failure_callback.
(* No message has its callback called twice, or is released twice. *)
Theorem C94_once time l s id : vrun (ep_create time) l = Ok s -> count (is_resp_cb id) (e_trace s) <= 1 /\ count (is_free id) (e_trace s) <= 1.
Proof. exact (vary_once time l s id). Qed.
Print Assumptions C94_once.
(* Without close: a request is pending with no callback made, or released with exactly one callback made (none if it has none). *)
Theorem C94_pending_or_resolved time before c ev after id s to h ies cb : given time before c ev after id s -> In (OTx id to h ies cb) (e_trace s) ->
  is_response (hd_type h) = false -> c_n1 c <> 0 -> c_t1 c <> 0 -> vfree is_close ((c, ev) :: after) ->
  has_id id (e_reqs s) = true /\ count (is_free id) (e_trace s) = 0 /\ count (is_resp_cb id) (e_trace s) = 0
  \/ has_id id (e_reqs s) = false /\ count (is_free id) (e_trace s) = 1 /\ count (is_resp_cb id) (e_trace s) = if cb then 1 else 0.
Proof. exact (vary_resolved time before c ev after id s to h ies cb). Qed.
Print Assumptions C94_pending_or_resolved.
(* A pending request always has a running timer, due some T1 in force after it was last sent, and the timer expires at most N1 + 1 times. *)
Theorem C94_timer_runs time before c ev after id s to h ies cb : given time before c ev after id s -> In (OTx id to h ies cb) (e_trace s) ->
  is_response (hd_type h) = false ->
  count (is_timer id) (e_trace s) <= c_n1 c + 1
  /\ (has_id id (e_reqs s) = true -> count (is_timer id) (e_trace s) <= c_n1 c
       /\ exists q t l x, In x (map fst ((c, ev) :: after)) /\ In q (e_reqs s) /\ q_id q = id /\ send_times id (e_trace s) = t :: l /\ q_dl q = t + c_t1 x).
Proof. exact (vary_timer time before c ev after id s to h ies cb). Qed.
Print Assumptions C94_timer_runs.
(* If timers are handled when due, and T1 is never more than [hi]: no request is pending later than (N1 + 1) * [hi] after it was first sent. *)
Theorem C94_resolved_in_time time before c ev after id s to h ies cb hi : given time before c ev after id s -> In (OTx id to h ies cb) (e_trace s) ->
  is_response (hd_type h) = false -> vprompt (ep_create time) (before ++ (c, ev) :: after) -> timers (fun x => c_t1 x <= hi) ((c, ev) :: after) ->
  has_id id (e_reqs s) = true -> exists t0, first_send id (e_trace s) t0 /\ e_now s <= t0 + (c_n1 c + 1) * hi.
Proof. exact (vary_in_time time before c ev after id s to h ies cb hi). Qed.
Print Assumptions C94_resolved_in_time.
(* A response is kept for the KEEP time in force when it was given to the endpoint, and no longer if timers are handled when due. *)
Theorem C94_response_kept time before c ev after id s to h ies cb t0 : given time before c ev after id s -> In (OTx id to h ies cb) (e_trace s) ->
  is_response (hd_type h) = true -> c_n1 c <> 0 -> c_t1 c <> 0 -> vfree is_close ((c, ev) :: after) -> first_send id (e_trace s) t0 ->
  (e_now s < t0 + c_keep c -> count (is_free id) (e_trace s) = 0 /\ has_id id (e_resps s) = true)
  /\ (vprompt (ep_create time) (before ++ (c, ev) :: after) -> t0 + c_keep c < e_now s -> count (is_free id) (e_trace s) = 1).
Proof. exact (vary_response time before c ev after id s to h ies cb t0). Qed.
Print Assumptions C94_response_kept.
(* A request with the sequence number of a kept response is answered with it and not given to the application (cf. C33); any other is
   given to it exactly once. The timers in force now are [c]. *)
Theorem C94_answered_from_cache time l c s from h ies v s' id : vrun (ep_create time) l = Ok s -> timers (fun x => c_n1 x <> 0 /\ c_t1 x <> 0) l ->
  is_response (hd_type h) = false -> kept_response s id (hd_seq h) -> handle_rx c s from h ies v = Ok s' ->
  count is_dispatch (e_trace s') = count is_dispatch (e_trace s)
  /\ (e_open s = true -> v_resend v = true -> calls_have is_close (v_ctx v) = false ->
      exists id1 t to bs rest, e_trace s' = OSend (Some id1) (e_now s) to bs :: rest /\ In (OSend (Some id1) t to bs) (e_trace s)
        /\ kept_response s id1 (hd_seq h) /\ ((forall i, kept_response s i (hd_seq h) -> i = id) -> id1 = id)).
Proof. exact (vary_cached time l c s from h ies v s' id). Qed.
Print Assumptions C94_answered_from_cache.
Theorem C94_new_request_dispatched time l c s from h ies v s' : vrun (ep_create time) l = Ok s -> env_has is_close v = false -> is_response (hd_type h) = false ->
  (forall id, ~ kept_response s id (hd_seq h)) -> handle_rx c s from h ies v = Ok s' ->
  exists a b, e_trace s' = a ++ ODispatch from h ies None :: b ++ e_trace s /\ count is_dispatch (a ++ b) = 0.
Proof. exact (vary_dispatched time l c s from h ies v s'). Qed.
Print Assumptions C94_new_request_dispatched.
(* A response completes the one pending request with its sequence number (cf. C36). *)
Theorem C94_response_completes_one time l c s from h ies v s' q : vrun (ep_create time) l = Ok s -> env_has is_close v = false -> is_response (hd_type h) = true ->
  handle_rx c s from h ies v = Ok s' -> In q (e_reqs s) -> hd_seq (q_h q) = hd_seq h ->
  (forall q', In q' (e_reqs s) -> hd_seq (q_h q') = hd_seq h -> q' = q) ->
  tr_of (q_id q) (e_trace s') = OFree (q_id q) :: (if negb (q_cb q) || v_rc1 v then [ODispatch from h ies (Some (q_id q))] else [])
    ++ (if q_cb q then [OResp (q_id q) (Some (h, ies))] else []) ++ tr_of (q_id q) (e_trace s)
  /\ has_id (q_id q) (e_reqs s') = false
  /\ forall id, id < e_next s -> id <> q_id q -> tr_of id (e_trace s') = tr_of id (e_trace s)
       /\ find_id id (e_reqs s') = find_id id (e_reqs s) /\ find_id id (e_resps s') = find_id id (e_resps s).
Proof. exact (vary_completes time l c s from h ies v s' q). Qed.
Print Assumptions C94_response_completes_one.
(* Sequence numbers do not depend on the timers (cf. C35); and changing timers leads to no undefined behaviour (cf. C41). *)
Theorem C94_seq_nrs_distinct s l s' new : vrun s l = Ok s' -> vfree is_set_seq l -> e_trace s' = new ++ e_trace s ->
  N.of_nat (length (draws new)) <= 2 ^ 24 - 1 -> forall x y a, In (OSeq x a) new -> In (OSeq y a) new -> x = y.
Proof. exact (vary_draws s l s' new). Qed.
Print Assumptions C94_seq_nrs_distinct.
Theorem C94_no_undefined_behaviour time l : Forall (fun x => sane (fst x) (snd x)) l -> exists s, vrun (ep_create time) l = Ok s.
Proof. exact (vary_total time l). Qed.
Print Assumptions C94_no_undefined_behaviour.

(* A request is given to the endpoint with N1 = 2, T1 = 500; then N1 = 7, T1 = 200; then T1 = 900: sent at 0, 500 and 700, given up at 1600. *)
Definition vx_c2 : ep_cfg := mkEpCfg 7 200 10 (c_node ex_c).
Definition vx_c3 : ep_cfg := mkEpCfg 1 900 10 (c_node ex_c).
Definition vx_before : vhist := [(vx_c3, ECall (CBind true))].
Definition vx_after : vhist := [(vx_c2, ETick 500); (vx_c2, ETimer 0 true []); (vx_c3, ETick 200); (vx_c3, ETimer 0 true []); (vx_c2, ETick 900)].
Definition vx_end : vhist := vx_after ++ [(vx_c2, ETimer 0 true [])].
Definition vx_st (l : vhist) : ep := match vrun (ep_create 1000) (vx_before ++ (ex_c, ex_tx true) :: l) with Ok s => s | _ => ep_create 0 end.
Lemma vx_given l : vrun (ep_create 1000) (vx_before ++ (ex_c, ex_tx true) :: l) = Ok (vx_st l) -> given 1000 vx_before ex_c (ex_tx true) l 0 (vx_st l).
Proof.
  intros E. constructor. eexists. split; [vm_compute; reflexivity|]. split; [intros to h ies cb []|]. eexists. split; [vm_compute; reflexivity|]. split.
  - exists ex_A, ex_req, ex_req_ies, true. vm_compute. tauto.
  - rewrite vrun_app in E. exact E.
Qed.
Example C94_example : given 1000 vx_before ex_c (ex_tx true) vx_after 0 (vx_st vx_after)
  /\ vprompt (ep_create 1000) (vx_before ++ (ex_c, ex_tx true) :: vx_after)
  /\ In (OTx 0 ex_A ex_req ex_req_ies true) (e_trace (vx_st vx_after)) /\ vfree is_close ((ex_c, ex_tx true) :: vx_after)
  /\ has_id 0 (e_reqs (vx_st vx_after)) = true /\ timers (fun x => c_t1 x <= 900) ((ex_c, ex_tx true) :: vx_after)
  /\ send_times 0 (e_trace (vx_st vx_after)) = [700; 500; 0] /\ map q_dl (e_reqs (vx_st vx_after)) = [1600]
  /\ given 1000 vx_before ex_c (ex_tx true) vx_end 0 (vx_st vx_end)
  /\ count (is_timer 0) (e_trace (vx_st vx_end)) = 3 /\ count (is_resp_fail 0) (e_trace (vx_st vx_end)) = 1.
Proof.
  split; [apply vx_given; vm_compute; reflexivity|]. split.
  { vm_compute. repeat split; intros q [<-|[]] || intros q []; vm_compute; discriminate. }
  split; [vm_compute; tauto|]. split; [repeat constructor|]. split; [vm_compute; reflexivity|]. split; [repeat constructor; vm_compute; discriminate|].
  split; [vm_compute; reflexivity|]. split; [vm_compute; reflexivity|]. split; [apply vx_given; vm_compute; reflexivity|]. split; vm_compute; reflexivity.
Qed.
(* A response is sent with KEEP = 3000; then KEEP = 10: still kept after 2000 ms, and sent again when the request arrives again; not after 3001 *)
Definition vx_srv (l : vhist) : vhist := (ex_c, ECall (CBind true)) :: (ex_c, ex_answer ex_A 5) :: l.
Definition vx_srv_st (l : vhist) : ep := match vrun (ep_create 1000) (vx_srv l) with Ok s => s | _ => ep_create 0 end.
Definition vx_kept : vhist := [(vx_c2, ETick 2000)].
Definition vx_expired : vhist := [(vx_c2, ETick 3000); (vx_c2, ETimer 0 true []); (vx_c2, ETick 1)].
Lemma vx_srv_given l : vrun (ep_create 1000) (vx_srv l) = Ok (vx_srv_st l) ->
  given 1000 [(ex_c, ECall (CBind true))] ex_c (ex_answer ex_A 5) l 0 (vx_srv_st l).
Proof.
  intros E. constructor. eexists. split; [vm_compute; reflexivity|]. split; [intros to h ies cb []|]. eexists. split; [vm_compute; reflexivity|]. split.
  - exists ex_A, (ex_resp 5), ex_resp_ies, false. vm_compute. tauto.
  - unfold vx_srv in E. change ((ex_c, ECall (CBind true)) :: (ex_c, ex_answer ex_A 5) :: l) with ([(ex_c, ECall (CBind true))] ++ (ex_c, ex_answer ex_A 5) :: l) in E.
    rewrite vrun_app in E. exact E.
Qed.
Example C94_response_example : given 1000 [(ex_c, ECall (CBind true))] ex_c (ex_answer ex_A 5) vx_kept 0 (vx_srv_st vx_kept)
  /\ In (OTx 0 ex_A (ex_resp 5) ex_resp_ies false) (e_trace (vx_srv_st vx_kept)) /\ first_send 0 (e_trace (vx_srv_st vx_kept)) 0
  /\ e_now (vx_srv_st vx_kept) = 2000 /\ timers (fun x => c_n1 x <> 0 /\ c_t1 x <> 0) (vx_srv vx_kept) /\ kept_response (vx_srv_st vx_kept) 0 5
  /\ (exists s', step vx_c2 (vx_srv_st vx_kept) (ex_answer ex_A 5) = Ok s' /\ count is_dispatch (e_trace s') = 1 /\ send_times 0 (e_trace s') = [2000; 0])
  /\ given 1000 [(ex_c, ECall (CBind true))] ex_c (ex_answer ex_A 5) vx_expired 0 (vx_srv_st vx_expired)
  /\ vprompt (ep_create 1000) (vx_srv vx_expired) /\ e_now (vx_srv_st vx_expired) = 3001 /\ count (is_free 0) (e_trace (vx_srv_st vx_expired)) = 1.
Proof.
  split; [apply vx_srv_given; vm_compute; reflexivity|]. split; [vm_compute; tauto|]. split; [exists []; vm_compute; reflexivity|].
  split; [vm_compute; reflexivity|]. split; [repeat constructor; discriminate|].
  split. { exists ex_A, (ex_resp 5), ex_resp_ies, false. split; [vm_compute; tauto|]. repeat split; vm_compute; reflexivity. }
  split. { eexists. split; [vm_compute; reflexivity|]. split; vm_compute; reflexivity. }
  split; [apply vx_srv_given; vm_compute; reflexivity|]. split.
  { vm_compute. repeat split; intros q [<-|[]] || intros q []; vm_compute; discriminate. }
  split; vm_compute; reflexivity.
Qed.
