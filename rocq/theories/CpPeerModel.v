(* CpPeerModel.v -- model of src/libosmo-pfcp/pfcp_cp_peer.c (association of a CP function with a UPF), and of the peer use
   counts kept by pfcp_cp_peer.c and pfcp_msg.c.

   One peer is modelled as a program that runs beside the endpoint of EndpointModel.v and the application, all in a single
   thread. An execution is a log: the list of everything that happened, oldest first. Log entries are API calls by the
   application, expiry of the peer's timer, what the peer does itself, and what the endpoint does (the entries of the
   endpoint's trace). [p_step] says how the peer reacts to an entry; [PNo]: the entry cannot come next, the log is not one
   of an execution. A log belongs to an execution if the peer accepts it and the endpoint entries in it, as given by
   [ep_obs], are the trace of an endpoint history; endpoint histories contain arbitrary calls made by applications and other
   peers. So the theorems hold for all applications, networks and schedules.

   libosmocore: osmo_fsm_inst_state_chg() refuses a transition that is not in out_state_mask, before doing anything else; it
   stops the timer, calls onleave, sets the state, starts the timer (timeout 0: none), calls onenter. Dispatching an event
   that is in neither mask is refused. Timer expiry calls timer_cb and terminates the instance if that returns 1. *)
From Verif Require Import Base GtlvModel DecEncModel IesModel TablesModel MsgModel EndpointModel.

(* enum pfcp_cp_peer_fsm_state, pfcp_cp_peer.c:36-43 *)
Inductive pstate := PsDisabled | PsWaitAssoc | PsWaitRetry | PsAssociated | PsGraceful | PsWaitUse.
(* enum pfcp_cp_peer_fsm_event, pfcp_cp_peer.c:45-49 *)
Inductive pevent := PeAssocSetupResp | PeAssocUpdateReq | PeUseCountZero.

(* out_state_mask of pfcp_cp_peer_fsm_states[], pfcp_cp_peer.c:322-382 *)
Definition out_ok (from to : pstate) : bool :=
  match from, to with
  | PsDisabled, (PsWaitAssoc | PsWaitUse) => true
  | PsWaitAssoc, (PsAssociated | PsWaitRetry | PsWaitUse) => true
  | PsWaitRetry, (PsWaitAssoc | PsWaitUse) => true
  | PsAssociated, (PsWaitAssoc | PsGraceful | PsWaitUse) => true
  | PsGraceful, (PsWaitRetry | PsWaitUse) => true
  | _, _ => false
  end.
(* in_event_mask, the same; USE_COUNT_ZERO is an allstate event, 384-395 *)
Definition in_ok (s : pstate) (e : pevent) : bool :=
  match s, e with
  | PsWaitAssoc, PeAssocSetupResp | PsAssociated, PeAssocUpdateReq => true
  | _, PeUseCountZero => true
  | _, _ => false
  end.

(* the remote address, the endpoint's recovery time stamp, and timer T-26 (in seconds; osmo_pfcp_tdefs) *)
Record peer_cfg := mkPeerCfg { k_remote : sa; k_recov : N; k_retry : N }.
(* pfcp_cp_peer_fsm_timeouts[], pfcp_cp_peer.c:60-64, as started by osmo_tdef_fsm_inst_state_chg(); None: no timer. The
   duration of the GRACEFUL_RELEASE timer plays no role (the state is never entered, C42). *)
Definition timeout (k : peer_cfg) (s : pstate) : option N :=
  match s with PsWaitRetry => if k_retry k =? 0 then None else Some (k_retry k) | PsGraceful => Some 15 | _ => None end.

(* the log.
   VAssociate  osmo_pfcp_cp_peer_associate() is called by the application
   VSetCb      osmo_pfcp_cp_peer_set_associated_cb() with a function / NULL
   VTimer      the peer's FSM timer expires
   VInvalidate osmo_pfcp_endpoint_invalidate_ctx() is called with the peer's FSM instance
   VAlloc      message [m] is allocated: for reception or for sending
   VSetCtx     osmo_pfcp_cp_peer_set_msg_ctx() of this peer on message [m]; osmo_pfcp_cp_peer_new_req() and _new_resp(),
               pfcp_cp_peer.c:420-440, are VAlloc m false, VSetCtx m
   VSetCtxOther the context of message [m] is set to some other peer
   VGive       osmo_pfcp_endpoint_tx() is called with message [m]; it then gets the number the endpoint model uses
   VDealloc    osmo_pfcp_msg_free() of message [m] by who owns it, not the endpoint's queues
   VOwnTx      as VEp (OTx id ...) with the peer's Association Setup Request
   VEp         the endpoint does something *)
Inductive pentry :=
| VAssociate | VSetCb (b : bool) | VTimer | VInvalidate
| VAlloc (m : N) (rx : bool) | VSetCtx (m : N) | VSetCtxOther (m : N) | VGive (m : N) | VDealloc (m : N)
| VOwnTx (id : N) | VEp (o : out).

(* The message made in pfcp_cp_peer_wait_assoc_setup_resp_onenter(), pfcp_cp_peer.c:183-195, with osmo_pfcp_msg_alloc_tx_req(),
   pfcp_msg.c:401-447: Recovery Time Stamp; CP Function Features with bit BUNDL (4) set; the Node ID is still zero. *)
Definition assoc_hdr : hdr := mkHdr 1 msgt_assoc_setup_req None None 0.
Definition assoc_ies (k : peer_cfg) : list (slot iev) :=
  [ [VLeaf (IvNode (NodeV4 SaUnspec))]; [VLeaf (IvNum (k_recov k))]; [];
    match bits_set [0] 4 true with Ok l => [VLeaf (IvBits l)] | _ => [] end ].

(* the endpoint's part of a log, oldest first *)
Fixpoint ep_obs (k : peer_cfg) (l : list pentry) : list out :=
  match l with
  | [] => []
  | VOwnTx id :: l' => OTx id (k_remote k) assoc_hdr (assoc_ies k) true :: ep_obs k l'
  | VEp o :: l' => o :: ep_obs k l'
  | _ :: l' => ep_obs k l'
  end.

(* where the peer is in the statements of pfcp_cp_peer_wait_assoc_setup_resp_onenter(), pfcp_cp_peer.c:188-203, or not in it *)
Inductive ppc := PcIdle | PcAlloc | PcCtx (m : N) | PcGive (m : N) | PcTx | PcIn (id : N).
(* what can be observed of the peer: state changes, refused state changes, refused events, calls of assoc_cb, error return of
   osmo_pfcp_cp_peer_associate(), termination by timer *)
Inductive pobs := PoState (a b : pstate) | PoRefused (a b : pstate) | PoEvRefused (s : pstate) (e : pevent) | PoAssoc (b : bool) | PoErr (e : errno) | PoTerm.
(* struct osmo_pfcp_cp_peer, pfcp_cp_peer_private.h:32-49: state and timer of fi, assoc_cb set or not; requests it sent
   (endpoint numbers); those whose ctx.peer_fi has been set to NULL; observations, newest first *)
Record peer := mkPeer { p_state : pstate; p_timer : option N; p_cb : bool; p_pc : ppc; p_ids : list N; p_null : list N; p_obs : list pobs }.
(* osmo_pfcp_cp_peer_alloc(), pfcp_cp_peer.c:97-121 *)
Definition peer_alloc : peer := mkPeer PsDisabled None false PcIdle [] [] [].
(* osmo_pfcp_cp_peer_is_associated(), pfcp_cp_peer.c:402-405 *)
Definition is_associated (p : peer) : bool := match p_state p with PsAssociated => true | _ => false end.

Definition plog (o : pobs) (p : peer) : peer := mkPeer (p_state p) (p_timer p) (p_cb p) (p_pc p) (p_ids p) (p_null p) (o :: p_obs p).
Definition set_pc (c : ppc) (p : peer) : peer := mkPeer (p_state p) (p_timer p) (p_cb p) c (p_ids p) (p_null p) (p_obs p).
(* "if (cp_peer->assoc_cb) cp_peer->assoc_cb(cp_peer, b)". What the application calls from there comes next in the log. *)
Definition call_assoc_cb (b : bool) (p : peer) : peer := if p_cb p then plog (PoAssoc b) p else p.

(* .onleave and .onenter of the states, pfcp_cp_peer.c:183-204, 250-293. Entering WAIT_ASSOC_SETUP_RESP starts a sequence of
   further steps, see [p_step]. WAIT_USE_COUNT (293-298, 305-308): termination is not modelled, the state is never entered (C42). *)
Definition onleave (p : peer) : peer := match p_state p with PsAssociated => call_assoc_cb false p | _ => p end.
Definition onenter (p : peer) : peer :=
  match p_state p with
  | PsWaitAssoc => set_pc PcAlloc p
  | PsAssociated => call_assoc_cb true p
  | _ => p
  end.
(* osmo_pfcp_cp_peer_fsm_state_chg(), pfcp_cp_peer.c:66-72: osmo_tdef_fsm_inst_state_chg() *)
Definition state_chg (k : peer_cfg) (to : pstate) (p : peer) : peer :=
  let from := p_state p in
  if out_ok from to then
    let p := onleave (mkPeer from None (p_cb p) (p_pc p) (p_ids p) (p_null p) (p_obs p)) in
    onenter (mkPeer to (timeout k to) (p_cb p) (p_pc p) (p_ids p) (p_null p) (PoState from to :: p_obs p))
  else plog (PoRefused from to) p.

Inductive pres (A : Type) := POk (a : A) | PNo | PUB (u : ub).
Arguments POk {A} a. Arguments PNo {A}. Arguments PUB {A} u.

(* osmo_fsm_inst_dispatch() with the .action functions, pfcp_cp_peer.c:237-248, 259-272, and allstate_action, 300-317 *)
Definition dispatch (k : peer_cfg) (e : pevent) (p : peer) : pres peer :=
  if negb (in_ok (p_state p) e) then POk (plog (PoEvRefused (p_state p) e) p)
  else match e, p_state p with
       | PeUseCountZero, _ => POk p
       | PeAssocSetupResp, PsWaitAssoc => POk (state_chg k PsAssociated p)
       | PeAssocUpdateReq, PsAssociated => POk p
       | _, _ => PUB AssertFail
       end.

(* on_pfcp_assoc_resp(), pfcp_cp_peer.c:206-235; cause 1 = OSMO_PFCP_CAUSE_REQUEST_ACCEPTED. req->ctx.peer_fi is dereferenced. *)
Definition resp_cause (h : hdr) (ies : list (slot iev)) : option iev := msg_memb iei_cause (mkMsg SaUnspec true true h ies).
Definition on_assoc_resp (k : peer_cfg) (id : N) (r : option (hdr * list (slot iev))) (p : peer) : pres peer :=
  if existsb (N.eqb id) (p_null p) then PUB NullDeref
  else match r with
       | None => POk (state_chg k PsWaitRetry p)
       | Some (h, ies) =>
         match resp_cause h ies with
         | Some (IvNum 1) => dispatch k PeAssocSetupResp p
         | _ => POk (state_chg k PsWaitRetry p)
         end
       end.
(* the endpoint calls ctx.resp_cb of message [id] *)
Definition p_resp (k : peer_cfg) (id : N) (r : option (hdr * list (slot iev))) (p : peer) : pres peer :=
  if existsb (N.eqb id) (p_ids p) then on_assoc_resp k id r p else POk p.

(* osmo_pfcp_cp_peer_associate(), pfcp_cp_peer.c:123-140 *)
Definition associate (k : peer_cfg) (p : peer) : peer :=
  match p_state p with
  | PsDisabled | PsWaitRetry => state_chg k PsWaitAssoc p
  | PsWaitUse => plog (PoErr ENOLINK) p
  | _ => p
  end.
(* timer expiry: pfcp_cp_peer_fsm_timer_cb(), pfcp_cp_peer.c:167-178 *)
Definition timer_cb (k : peer_cfg) (p : peer) : peer :=
  let p := mkPeer (p_state p) None (p_cb p) (p_pc p) (p_ids p) (p_null p) (p_obs p) in
  match p_state p with PsWaitRetry => state_chg k PsWaitAssoc p | _ => plog PoTerm p end.

Definition p_step (k : peer_cfg) (p : peer) (v : pentry) : pres peer :=
  match p_pc p, v with
  | PcIdle, VAssociate => POk (associate k p)
  | PcIdle, VTimer => match p_timer p with Some _ => POk (timer_cb k p) | None => PNo end
  (* osmo_pfcp_cp_peer_set_associated_cb(), pfcp_cp_peer.c:142-146 *)
  | PcIdle, VSetCb b => POk (mkPeer (p_state p) (p_timer p) b (p_pc p) (p_ids p) (p_null p) (p_obs p))
  (* osmo_pfcp_endpoint_invalidate_ctx(), pfcp_endpoint.c:514-521; requests that are no longer queued do not matter *)
  | PcIdle, VInvalidate => POk (mkPeer (p_state p) (p_timer p) (p_cb p) (p_pc p) (p_ids p) (p_ids p) (p_obs p))
  | PcIdle, VOwnTx _ => PNo
  | PcIdle, VEp (OResp id r) => p_resp k id r p
  | PcIdle, _ => POk p
  (* pfcp_cp_peer_wait_assoc_setup_resp_onenter(), pfcp_cp_peer.c:188-203: osmo_pfcp_cp_peer_new_req(), osmo_pfcp_endpoint_tx() *)
  | PcAlloc, VAlloc m false => POk (set_pc (PcCtx m) p)
  | PcCtx m, VSetCtx m' => if m' =? m then POk (set_pc (PcGive m) p) else PNo
  | PcGive m, VGive m' => if m' =? m then POk (set_pc PcTx p) else PNo
  | PcTx, VOwnTx id => POk (mkPeer (p_state p) (p_timer p) (p_cb p) (PcIn id) (id :: p_ids p) (p_null p) (p_obs p))
  (* inside osmo_pfcp_endpoint_tx(), until it returns *)
  | PcIn i, VEp (OResp id r) => p_resp k id r p
  | PcIn i, VEp (ORet id ok) =>
    if id =? i then POk (if ok then set_pc PcIdle p else state_chg k PsWaitRetry (set_pc PcIdle p)) else POk p
  | PcIn i, VEp _ => POk p
  | _, _ => PNo
  end.
Fixpoint p_run (k : peer_cfg) (p : peer) (l : list pentry) : pres peer :=
  match l with
  | [] => POk p
  | v :: l' => match p_step k p v with POk p' => p_run k p' l' | PNo => PNo | PUB u => PUB u end
  end.

(* ---------------------------------------------------------------- peer use counts *)

(* ctx.peer_fi etc. of a message: unset, this peer, another one *)
Inductive uctx := CtxNone | CtxThis | CtxOther.
(* who has the message: the application (or the peer, or the receive loop), osmo_pfcp_endpoint_tx() has been called, the
   endpoint; or it has been freed *)
Inductive uowner := OwApp | OwGiven | OwEp (id : N) | OwFreed.
Record umsg := mkUmsg { um_nr : N; um_rx : bool; um_ctx : uctx; um_own : uowner }.
(* the peer's use counts for tokens "PFCPrx" and "PFCPtx", and the messages *)
Record ucount := mkUcount { u_rx : Z; u_tx : Z; u_msgs : list umsg }.
Definition ucount0 : ucount := mkUcount 0 0 [].
Definition u_find (m : N) (u : ucount) : option umsg := find (fun x => um_nr x =? m) (u_msgs u).
Definition u_upd (y : umsg) (u : ucount) : ucount :=
  mkUcount (u_rx u) (u_tx u) (map (fun x => if um_nr x =? um_nr y then y else x) (u_msgs u)).

(* osmo_use_count_get_put() of the peer, with pfcp_cp_peer_use_cb(), pfcp_cp_peer.c:74-92, and OSMO_ASSERT(rc == 0) by the
   caller. The dispatched USE_COUNT_ZERO event has no effect ([dispatch]). An int32_t does not overflow. *)
Definition get_put (rx : bool) (d : Z) (u : ucount) : pres ucount :=
  if rx then if (u_rx u + d <? 0)%Z then PUB AssertFail else POk (mkUcount (u_rx u + d) (u_tx u) (u_msgs u))
  else if (u_tx u + d <? 0)%Z then PUB AssertFail else POk (mkUcount (u_rx u) (u_tx u + d) (u_msgs u)).
(* osmo_pfcp_msg_destructor(), pfcp_msg.c:454-469, as to the peer *)
Definition destruct_msg (x : umsg) (u : ucount) : pres ucount :=
  let u := u_upd (mkUmsg (um_nr x) (um_rx x) CtxNone OwFreed) u in
  match um_ctx x with CtxThis => get_put (um_rx x) (-1) u | _ => POk u end.
(* message [m] is now with the endpoint, as number [id] *)
Definition u_given (x : umsg) : bool := match um_own x with OwGiven => true | _ => false end.
Definition u_at_ep (id : N) (x : umsg) : bool := match um_own x with OwEp i => i =? id | _ => false end.
Definition u_tx_start (id : N) (u : ucount) : pres ucount :=
  match find u_given (u_msgs u) with
  | Some x => POk (u_upd (mkUmsg (um_nr x) (um_rx x) (um_ctx x) (OwEp id)) u)
  | None => PNo
  end.
(* Every message is allocated once, and the application uses only messages it has. *)
Definition u_step (u : ucount) (v : pentry) : pres ucount :=
  match v with
  | VAlloc m rx => match u_find m u with Some _ => PNo | None => POk (mkUcount (u_rx u) (u_tx u) (mkUmsg m rx CtxNone OwApp :: u_msgs u)) end
  (* osmo_pfcp_cp_peer_set_msg_ctx(), pfcp_cp_peer.c:407-417 *)
  | VSetCtx m =>
    match u_find m u with
    | Some (mkUmsg _ rx CtxNone OwApp) => get_put rx 1 (u_upd (mkUmsg m rx CtxThis OwApp) u)
    | Some (mkUmsg _ _ _ OwApp) => POk u
    | _ => PNo
    end
  | VSetCtxOther m =>
    match u_find m u with
    | Some (mkUmsg _ rx CtxNone OwApp) => POk (u_upd (mkUmsg m rx CtxOther OwApp) u)
    | Some (mkUmsg _ _ _ OwApp) => POk u
    | _ => PNo
    end
  | VGive m =>
    if existsb u_given (u_msgs u) then PNo else
    match u_find m u with
    | Some (mkUmsg _ rx x OwApp) => POk (u_upd (mkUmsg m rx x OwGiven) u)
    | _ => PNo
    end
  | VDealloc m => match u_find m u with Some (mkUmsg _ rx x OwApp) => destruct_msg (mkUmsg m rx x OwApp) u | _ => PNo end
  | VOwnTx id => u_tx_start id u
  | VEp (OTx id _ _ _ _) => u_tx_start id u
  | VEp (OFree id) => match find (u_at_ep id) (u_msgs u) with Some x => destruct_msg x u | None => PUB DoubleFree end
  (* osmo_pfcp_msg_invalidate_ctx(), pfcp_msg.c:552-564, for the messages with the endpoint: no use count is released *)
  | VInvalidate => POk (mkUcount (u_rx u) (u_tx u) (map (fun x => match um_own x, um_ctx x with
                          | OwEp _, CtxThis => mkUmsg (um_nr x) (um_rx x) CtxNone (um_own x) | _, _ => x end) (u_msgs u)))
  | _ => POk u
  end.
Fixpoint u_run (u : ucount) (l : list pentry) : pres ucount :=
  match l with
  | [] => POk u
  | v :: l' => match u_step u v with POk u' => u_run u' l' | PNo => PNo | PUB e => PUB e end
  end.
