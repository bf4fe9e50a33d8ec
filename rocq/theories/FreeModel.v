(* FreeModel.v -- the endpoint with osmo_pfcp_endpoint_free(), pfcp_endpoint.c:504-512, which the application may call from its main
   loop and from within any callback. The functions are those of EndpointModel.v once more, over an endpoint that may be gone;
   C100_without_free shows that they are the same as long as it is not. *)
From Verif Require Import Base GtlvModel DecEncModel IesModel TablesModel MsgModel EndpointModel.

(* the memory of the endpoint: allocated; or released, with what had been observed by then *)
Inductive fep := Live (s : ep) | Gone (tr : list out).
Definition trace_of (x : fep) : list out := match x with Live s => e_trace s | Gone tr => tr end.
(* an observation that does not depend on the endpoint *)
Definition flog (o : out) (x : fep) : fep := match x with Live s => Live (log o s) | Gone tr => Gone (o :: tr) end.
(* any access to the endpoint when it is gone is undefined behaviour (DoubleFree stands for all uses of freed memory) *)
Definition with_ep (f : ep -> res fep) (x : fep) : res fep := match x with Live s => f s | Gone _ => UB DoubleFree end.
Definition live (r : res ep) : res fep := s <- r ;; Ok (Live s).

(* calls of the application: osmo_pfcp_endpoint_free(); osmo_pfcp_endpoint_tx() with a response callback that makes such calls in
   turn; any other. [child]: the message was allocated with the endpoint as talloc context, as osmo_pfcp_cp_peer_new_req(),
   pfcp_cp_peer.c:420-429, and the example in pfcp_msg.h:83-92 do *)
Inductive fcall :=
| FFree
| FTx (to : sa) (h : hdr) (ies : list (slot iev)) (has_cb snd child : bool) (k : list fcall)
| FCall (a : call).

(* osmo_pfcp_endpoint_retrans_queue_add(), pfcp_endpoint.c:283-323 *)
Definition fqueue_add (c : ep_cfg) (cb : fep -> res fep) (s : ep) (id : N) (to : sa) (h : hdr) (bs : list N) (has_cb : bool) : res fep :=
  let resp := is_response (hd_type h) in
  if (c_n1 c =? 0) || (c_t1 c =? 0) then
    if negb resp && has_cb then cb (Live (log (OResp id None) s)) else Ok (Live s)
  else live (queue_add c (fun s => Ok s) s id to h bs has_cb).
(* osmo_pfcp_msg_free() at the end of a failed osmo_pfcp_endpoint_tx(): a message that is a talloc child of the endpoint has been
   released with it. (When N1 or T1 is zero, a child message that was sent is released with the endpoint, too; that is not
   observed.) *)
Definition fmsg_free (child : bool) (id : N) (x : fep) : res fep :=
  match x with Gone _ => if child then UB DoubleFree else Ok (flog (OFree id) x) | Live _ => Ok (flog (OFree id) x) end.
(* osmo_pfcp_endpoint_tx(), pfcp_endpoint.c:335-354: after the callback only the message is released, the endpoint is not used *)
Definition fep_tx (c : ep_cfg) (cb : fep -> res fep) (s : ep) (to : sa) (h : hdr) (ies : list (slot iev)) (has_cb snd child : bool) : res fep :=
  let id := e_next s in
  let s := log (OTx id to h ies has_cb) (set_next (id + 1) s) in
  let resp := is_response (hd_type h) in
  let nr := if resp then hd_seq h else next_seq_nr (e_seq s) in
  let s := if resp then s else log (OSeq (Some id) nr) (set_seq nr s) in
  let h := mkHdr (hd_version h) (hd_type h) (hd_prio h) (hd_seid h) nr in
  let ies := put_node_id (c_node c) (hd_type h) ies in
  let fail s :=
    x <- (if negb resp && has_cb then cb (Live (log (OResp id None) s)) else Ok (Live s)) ;;
    x <- fmsg_free child id x ;;
    Ok (flog (ORet id false) x) in
  match encode_msg h ies with
  | UB u => UB u
  | Err _ => fail (log (OSendErr (Some id)) s)
  | Ok bs =>
    let '(s, sent) := send_data s (Some id) to bs snd in
    if sent then x <- fqueue_add c cb s id to h bs has_cb ;; Ok (flog (ORet id true) x) else fail s
  end.

(* osmo_pfcp_endpoint_free() closes the endpoint and releases it; the caller's pointer is NULL then, so that a second call does
   nothing *)
Definition ffree (x : fep) : fep := match x with Live s => Gone (e_trace (ep_close s)) | Gone tr => Gone tr end.
Fixpoint frun_call (c : ep_cfg) (a : fcall) (x : fep) : res fep :=
  match a with
  | FFree => Ok (ffree x)
  | FTx to h ies has_cb snd child k =>
    with_ep (fun s => fep_tx c (fun y => (fix go (l : list fcall) (y : fep) : res fep :=
                         match l with [] => Ok y | b :: l' => y' <- frun_call c b y ;; go l' y' end) k y) s to h ies has_cb snd child) x
  | FCall a => with_ep (fun s => live (run_call c a s)) x
  end.
Fixpoint frun_calls (c : ep_cfg) (l : list fcall) (x : fep) : res fep :=
  match l with [] => Ok x | a :: l' => x' <- frun_call c a x ;; frun_calls c l' x' end.

(* as [env] *)
Record fenv := mkFEnv { fv_hb : bool; fv_resend : bool; fv_ctx : list fcall; fv_resp : list fcall; fv_rc1 : bool; fv_rx : list fcall }.

(* osmo_pfcp_queue_del() of a request, pfcp_endpoint.c:89-101 *)
Definition fqueue_del (id : N) (x : fep) : res fep := with_ep (fun s => live (queue_del_req id s)) x.
(* osmo_pfcp_endpoint_handle_rx(), pfcp_endpoint.c:356-420. After set_msg_ctx_cb: "prev_msg->m" (386-387), "req->ctx" (407) or
   "ep->cfg" (418) is used; after resp_cb: "ep->cfg" (418) or prev_msg (420); after rx_msg_cb: prev_msg (420) if there is one *)
Definition fhandle_rx (c : ep_cfg) (s : ep) (from : sa) (h : hdr) (ies : list (slot iev)) (v : fenv) : res fep :=
  s <- (if hd_type h =? msgt_heartbeat_req
        then tx_data s from (mkHdr 1 msgt_heartbeat_resp None None (hd_seq h)) [[VLeaf (IvNum (e_recov s))]] (fv_hb v)
        else Ok s) ;;
  let resp := is_response (hd_type h) in
  match queue_find (if resp then e_reqs s else e_resps s) h with
  | None =>
    x <- frun_calls c (fv_ctx v) (Live s) ;;
    with_ep (fun s => frun_calls c (fv_rx v) (Live (log (ODispatch from h ies None) s))) x
  | Some q =>
    x <- frun_calls c (fv_ctx v) (Live s) ;;
    with_ep (fun s =>
      if negb resp then
        if has_id (q_id q) (e_resps s) then Ok (Live (fst (send_data s (Some (q_id q)) (q_remote q) (q_enc q) (fv_resend v)))) else UB DoubleFree
      else
        if negb (has_id (q_id q) (e_reqs s)) then UB DoubleFree else
        x <- (if q_cb q then frun_calls c (fv_resp v) (Live (log (OResp (q_id q) (Some (h, ies))) s)) else Ok (Live s)) ;;
        x <- (if negb (q_cb q) || fv_rc1 v then with_ep (fun s => frun_calls c (fv_rx v) (Live (log (ODispatch from h ies (Some (q_id q))) s))) x else Ok x) ;;
        fqueue_del (q_id q) x) x
  end.
(* the while loop of osmo_pfcp_fd_cb(), pfcp_endpoint.c:444-461, which uses the endpoint only to pass it to handle_rx *)
Fixpoint fhandle_all (c : ep_cfg) (from : sa) (l : list rx_out) (vs : nat -> fenv) (x : fep) : res fep :=
  match l with
  | [] => Ok x
  | RxMsg h ies :: l' => x' <- with_ep (fun s => fhandle_rx c s from h ies (vs 0%nat)) x ;; fhandle_all c from l' (fun i => vs (S i)) x'
  | RxDrop _ :: l' => fhandle_all c from l' (fun i => vs (S i)) x
  | RxBad _ :: _ => Ok x
  | RxUB u :: _ => UB u
  end.

(* pfcp_queue_sent_req_timer_cb(), pfcp_endpoint.c:206-225 *)
Definition freq_timer (c : ep_cfg) (q : qe) (snd : bool) (k : list fcall) (s : ep) : res fep :=
  let s := log (OTimer (q_id q) (e_now s)) s in
  let drop s :=
    x <- (if q_cb q then frun_calls c k (Live (log (OResp (q_id q) None) s)) else Ok (Live s)) ;;
    fqueue_del (q_id q) x in
  if q_n1 q =? 0 then drop s
  else
    let '(s, sent) := send_data s (Some (q_id q)) (q_remote q) (q_enc q) snd in
    if sent then
      Ok (Live (set_reqs (upd_id (mkQe (q_id q) (q_remote q) (q_h q) (q_enc q) (q_cb q) (q_n1 q - 1) (e_now s + c_t1 c)) (e_reqs s)) s))
    else drop s.

(* events, as in EndpointModel.v. When the endpoint is gone, its socket is closed and its timers are deleted: nothing arrives or
   expires. *)
Inductive fevent :=
| FvCall (a : fcall)
| FvRx (from : sa) (d : list N) (vs : nat -> fenv)
| FvTick (dt : N)
| FvTimer (id : N) (snd : bool) (k : list fcall).
Definition fstep (c : ep_cfg) (x : fep) (ev : fevent) : res fep :=
  match x with
  | Gone _ => match ev with FvCall a => frun_call c a x | _ => Ok x end
  | Live s =>
    match ev with
    | FvCall a => frun_call c a x
    | FvRx from d vs => if e_open s then fhandle_all c from (rx_datagram d) vs x else Ok x
    | FvTick dt => Ok (Live (set_now (e_now s + dt) s))
    | FvTimer id snd k =>
      match find_id id (e_reqs s) with
      | Some q => if q_dl q <=? e_now s then freq_timer c q snd k s else Ok x
      | None => match find_id id (e_resps s) with
                | Some q => if q_dl q <=? e_now s then live (resp_timer q s) else Ok x
                | None => Ok x
                end
      end
    end
  end.
Fixpoint frun (c : ep_cfg) (x : fep) (l : list fevent) : res fep :=
  match l with [] => Ok x | ev :: l' => x' <- fstep c x ev ;; frun c x' l' end.
