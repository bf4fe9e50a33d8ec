(* CtxModel.v -- the contexts of messages: osmo_pfcp_msg.ctx (pfcp_msg.h:118-137), which refers to FSM instances of the application
   (a peer, a session) and to their use counts, and what the library does with them: osmo_pfcp_msg_destructor(), pfcp_msg.c:454-469,
   osmo_pfcp_msg_invalidate_ctx(), 552-564, osmo_pfcp_endpoint_invalidate_ctx(), pfcp_endpoint.c:514-521,
   osmo_pfcp_cp_peer_set_msg_ctx(), pfcp_cp_peer.c:407-417, and logging about a message (OSMO_LOG_PFCP_MSG, pfcp_msg.h:45-49, with
   osmo_pfcp_msg_log_info_buf(), pfcp_msg.c:586-616).

   As in CpPeerModel.v an execution is a log, the list of all that happened, oldest first; the entries of the endpoint in it are the
   trace of an endpoint history of EndpointModel.v. Objects (struct osmo_pfcp_cp_peer, the application's sessions) have numbers; an
   object holds an FSM instance and a use count; both are gone when it is deallocated. *)
From Verif Require Import Base GtlvModel DecEncModel IesModel TablesModel MsgModel EndpointModel CpPeerModel.

(* peer_fi, peer_use_count + peer_use_token; session_fi, session_use_count + session_use_token. None = NULL *)
Record mctx := mkMctx { mc_fi : option N; mc_uc : option (N * N) }.
Definition no_ctx : mctx := mkMctx None None.
(* who has the message: the application, the receive loop or some talloc context (after sending with N1 or T1 zero);
   osmo_pfcp_endpoint_tx() is called with it; it is in osmo_pfcp_endpoint_tx(); it is in a queue of the endpoint; it is freed *)
Inductive xowner := XoApp | XoGiven | XoTx (id : N) | XoQueue (id : N) | XoFreed.
Record xmsg := mkXmsg { xm_nr : N; xm_rx : bool; xm_peer : mctx; xm_sess : mctx; xm_own : xowner }.
(* deallocated objects; use counts by object and token; messages *)
Record xst := mkXst { x_dead : list N; x_cnt : N -> N -> Z; x_msgs : list xmsg }.
Definition xst0 : xst := mkXst [] (fun _ _ => 0%Z) [].

(* the log.
   XAlloc    a message is allocated, for reception or for sending
   XSetPeer  osmo_pfcp_cp_peer_set_msg_ctx() of peer [o] on message [m]
   XSet      the application sets the peer / session context of message [m] to object [o], with a use count under token [tok], which
             it then takes, or without
   XLog      the library logs something about a message that is not with the endpoint (such as "received")
   XInvMsg   osmo_pfcp_msg_invalidate_ctx()
   XInvEp    osmo_pfcp_endpoint_invalidate_ctx()
   XDestroy  the application deallocates an object
   XGive     osmo_pfcp_endpoint_tx() is called
   XDealloc  osmo_pfcp_msg_free() of a message that is not with the endpoint
   XEp       the endpoint does something *)
Inductive xentry :=
| XAlloc (m : N) (rx : bool)
| XSetPeer (m o : N)
| XSet (sess : bool) (m o : N) (tok : option N)
| XLog (m : N)
| XInvMsg (m o : N)
| XInvEp (o : N)
| XDestroy (o : N)
| XGive (m : N)
| XDealloc (m : N)
| XEp (o : out).
Fixpoint x_obs (l : list xentry) : list out := match l with [] => [] | XEp o :: l' => o :: x_obs l' | _ :: l' => x_obs l' end.

Definition x_find (m : N) (x : xst) : option xmsg := find (fun y => xm_nr y =? m) (x_msgs x).
Definition x_at (id : N) (y : xmsg) : bool := match xm_own y with XoTx i | XoQueue i => i =? id | _ => false end.
Definition x_given (y : xmsg) : bool := match xm_own y with XoGiven => true | _ => false end.
Definition x_upd (y : xmsg) (x : xst) : xst := mkXst (x_dead x) (x_cnt x) (map (fun z => if xm_nr z =? xm_nr y then y else z) (x_msgs x)).
Definition own (w : xowner) (y : xmsg) : xmsg := mkXmsg (xm_nr y) (xm_rx y) (xm_peer y) (xm_sess y) w.

Definition is_dead (o : N) (x : xst) : bool := existsb (N.eqb o) (x_dead x).
Definition x_bind {A B} (r : pres A) (f : A -> pres B) : pres B := match r with POk a => f a | PNo => PNo | PUB u => PUB u end.
(* access to an object *)
Definition touch (o : N) (x : xst) : pres unit := if is_dead o x then PUB DoubleFree else POk tt.
(* OSMO_LOG_PFCP_MSG: "fi = (m->ctx.session_fi ?: m->ctx.peer_fi)"; its name and state are printed *)
Definition log_msg (y : xmsg) (x : xst) : pres unit :=
  match mc_fi (xm_sess y) with
  | Some o => touch o x
  | None => match mc_fi (xm_peer y) with Some o => touch o x | None => POk tt end
  end.
(* osmo_use_count_get_put() with the OSMO_ASSERT() around it *)
Definition use (o tok : N) (d : Z) (x : xst) : pres xst :=
  x_bind (touch o x) (fun _ =>
    if (x_cnt x o tok + d <? 0)%Z then PUB AssertFail
    else POk (mkXst (x_dead x) (fun o' t' => if (o' =? o) && (t' =? tok) then (x_cnt x o tok + d)%Z else x_cnt x o' t') (x_msgs x))).
Definition put (k : mctx) (x : xst) : pres xst := match mc_uc k with Some (o, tok) => use o tok (-1) x | None => POk x end.
(* osmo_pfcp_msg_destructor(), pfcp_msg.c:454-469. If the application deallocates an object in its use count callback, when the count
   reaches zero, the log has this after the message was released: the object is not accessed in between *)
Definition destructor (y : xmsg) (x : xst) : pres xst :=
  x_bind (log_msg y x) (fun _ => x_bind (put (xm_sess y) x) (fun x => x_bind (put (xm_peer y) x) (fun x =>
    POk (x_upd (mkXmsg (xm_nr y) (xm_rx y) no_ctx no_ctx XoFreed) x)))).
(* osmo_pfcp_msg_invalidate_ctx(), pfcp_msg.c:552-564 *)
Definition inv_ctx (o : N) (k : mctx) : mctx := match mc_fi k with Some i => if i =? o then no_ctx else k | None => k end.
Definition invalidate (o : N) (y : xmsg) : xmsg := mkXmsg (xm_nr y) (xm_rx y) (inv_ctx o (xm_peer y)) (inv_ctx o (xm_sess y)) (xm_own y).
(* the tokens "PFCPrx" and "PFCPtx" of osmo_pfcp_cp_peer_set_msg_ctx() *)
Definition peer_token (rx : bool) : N := if rx then 1 else 0.
Definition set_ctx (sess : bool) (k : mctx) (y : xmsg) : xmsg :=
  if sess then mkXmsg (xm_nr y) (xm_rx y) (xm_peer y) k (xm_own y) else mkXmsg (xm_nr y) (xm_rx y) k (xm_sess y) (xm_own y).
(* set a context that is unset; the use count, if any, is taken *)
Definition attach (sess : bool) (o : N) (tok : option N) (y : xmsg) (x : xst) : pres xst :=
  let x := x_upd (set_ctx sess (mkMctx (Some o) (match tok with Some t => Some (o, t) | None => None end)) y) x in
  match tok with Some t => use o t 1 x | None => POk x end.
(* a message the application has *)
Definition x_app (m : N) (x : xst) : option xmsg := match x_find m x with Some y => match xm_own y with XoApp => Some y | _ => None end | None => None end.

(* osmo_pfcp_endpoint_retrans_queue_add(), pfcp_endpoint.c:293-297 *)
Definition no_wait (c : ep_cfg) : bool := (c_n1 c =? 0) || (c_t1 c =? 0).
Definition x_step (c : ep_cfg) (x : xst) (v : xentry) : pres xst :=
  match v with
  | XAlloc m rx => match x_find m x with Some _ => PNo | None => POk (mkXst (x_dead x) (x_cnt x) (mkXmsg m rx no_ctx no_ctx XoApp :: x_msgs x)) end
  | XSetPeer m o =>
    match x_app m x with
    | Some y => if is_dead o x then PNo
                else match mc_fi (xm_peer y) with Some _ => POk x | None => attach false o (Some (peer_token (xm_rx y))) y x end
    | None => PNo
    end
  | XSet sess m o tok =>
    match x_app m x with
    | Some y => if is_dead o x then PNo
                else match mc_fi (if sess then xm_sess y else xm_peer y) with Some _ => PNo | None => attach sess o tok y x end
    | None => PNo
    end
  | XLog m => match x_app m x with Some y => x_bind (log_msg y x) (fun _ => POk x) | None => PNo end
  | XInvMsg m o => match x_find m x with Some y => match xm_own y with XoFreed => PNo | _ => POk (x_upd (invalidate o y) x) end | None => PNo end
  | XInvEp o => POk (mkXst (x_dead x) (x_cnt x) (map (fun y => match xm_own y with XoQueue _ => invalidate o y | _ => y end) (x_msgs x)))
  | XDestroy o => if is_dead o x then PNo else POk (mkXst (o :: x_dead x) (x_cnt x) (x_msgs x))
  | XGive m => if existsb x_given (x_msgs x) then PNo else match x_app m x with Some y => POk (x_upd (own XoGiven y) x) | None => PNo end
  | XDealloc m => match x_app m x with Some y => destructor y x | None => PNo end
  (* osmo_pfcp_endpoint_tx() *)
  | XEp (OTx id _ _ _ _) =>
    match find x_given (x_msgs x) with
    | Some y => x_bind (log_msg y x) (fun _ => POk (x_upd (own (XoTx id) y) x))
    | None => PNo
    end
  (* sent; osmo_pfcp_endpoint_retrans_queue_add() follows directly the first time. Resending is logged. *)
  | XEp (OSend (Some id) _ _ _) =>
    match find (x_at id) (x_msgs x) with
    | Some y => x_bind (log_msg y x) (fun _ => POk (if no_wait c then x else x_upd (own (XoQueue id) y) x))
    | None => PUB DoubleFree
    end
  (* sending fails, a timer expires: logged *)
  | XEp (OSendErr (Some id)) | XEp (OTimer id _) =>
    match find (x_at id) (x_msgs x) with Some y => x_bind (log_msg y x) (fun _ => POk x) | None => PUB DoubleFree end
  | XEp (OFree id) => match find (x_at id) (x_msgs x) with Some y => destructor y x | None => PUB DoubleFree end
  (* osmo_pfcp_endpoint_tx() returns zero; a message that was not added to a queue stays with its talloc context *)
  | XEp (ORet id true) =>
    if no_wait c then match find (x_at id) (x_msgs x) with Some y => POk (x_upd (own XoApp y) x) | None => PUB DoubleFree end else POk x
  | XEp _ => POk x
  end.
Fixpoint x_run (c : ep_cfg) (x : xst) (l : list xentry) : pres xst :=
  match l with [] => POk x | v :: l' => x_bind (x_step c x v) (fun x' => x_run c x' l') end.
