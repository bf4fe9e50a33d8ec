(* EndpointModel.v -- model of src/libosmo-pfcp/pfcp_endpoint.c: retransmission queues, timers, receiving, closing.

   The program around the endpoint (application, peer, network, clock) is not part of the model; it is given by the
   history, a list of [event]s. A history says when what is called, expires or arrives, whether each sendto() succeeds,
   and what the application's callbacks do when they are invoked. A theorem about all histories therefore holds for all
   applications, networks and schedules. Everything observable is recorded in a trace, newest entry first.

   Messages are identified by a number: the n-th message given to osmo_pfcp_endpoint_tx(). Each is given only once. Time is in
   milliseconds. Logging and the logging context of messages are not modelled (see CpPeerModel.v for peer use counts). The
   three timer definitions N1, T1 and KEEP_RESP (pfcp_endpoint.c:118-127) are parameters of each step; [run] leaves
   them as they are, VarySpec.v has histories in which they change. *)
From Verif Require Import Base GtlvModel DecEncModel IesModel TablesModel MsgModel.

(* struct osmo_pfcp_endpoint_cfg (pfcp_endpoint.h:62-96) and timers as returned by ep_n1(), ep_t1(), ep_keep_resp()
   (pfcp_endpoint.c:162-175) *)
Record ep_cfg := mkEpCfg { c_n1 : N; c_t1 : N; c_keep : N; c_node : iev }.

(* struct osmo_pfcp_queue_entry, pfcp_endpoint.c:59-71, with the message: identity, remote_addr, header, cached encoded
   form, whether ctx.resp_cb is set; n1_remaining; expiry time of t1 *)
Record qe := mkQe { q_id : N; q_remote : sa; q_h : hdr; q_enc : list N; q_cb : bool; q_n1 : N; q_dl : N }.

(* what can be observed from outside:
   OTx      osmo_pfcp_endpoint_tx() was called with message [id]: remote_addr, header, IEs, ctx.resp_cb set or not
   OSeq     osmo_pfcp_next_seq_nr() was used for message [id] (None: a Heartbeat Request of the endpoint itself)
   OSend    sendto() of message [id] (None: sent without queueing) succeeded at time [t]
   OSendErr encoding or sendto() of message [id] failed
   OResp    ctx.resp_cb of message [id] was called; None: with rx_resp == NULL
   ODispatch cfg.rx_msg_cb was called
   OFree    message [id] was deallocated by the endpoint
   ORet     osmo_pfcp_endpoint_tx() of message [id] returned; true: 0, false: an error code
   OTimer   the t1 timer of message [id] expired at time [t] *)
Inductive out :=
| OTx (id : N) (to : sa) (h : hdr) (ies : list (slot iev)) (has_cb : bool)
| OSeq (id : option N) (s : N)
| OSend (id : option N) (t : N) (to : sa) (bs : list N)
| OSendErr (id : option N)
| OResp (id : N) (r : option (hdr * list (slot iev)))
| ODispatch (from : sa) (h : hdr) (ies : list (slot iev)) (req : option N)
| OFree (id : N)
| ORet (id : N) (ok : bool)
| OTimer (id : N) (t : N).

(* struct osmo_pfcp_endpoint, pfcp_endpoint.c:36-56: sent_requests, sent_responses, seq_nr_state, recovery_time_stamp,
   pfcp_fd.fd != -1; and the clock, the next message number, and the trace *)
Record ep := mkEp { e_reqs : list qe; e_resps : list qe; e_seq : N; e_recov : N; e_open : bool; e_now : N; e_next : N; e_trace : list out }.

Definition log (o : out) (s : ep) : ep :=
  mkEp (e_reqs s) (e_resps s) (e_seq s) (e_recov s) (e_open s) (e_now s) (e_next s) (o :: e_trace s).
Definition set_reqs (l : list qe) (s : ep) : ep :=
  mkEp l (e_resps s) (e_seq s) (e_recov s) (e_open s) (e_now s) (e_next s) (e_trace s).
Definition set_resps (l : list qe) (s : ep) : ep :=
  mkEp (e_reqs s) l (e_seq s) (e_recov s) (e_open s) (e_now s) (e_next s) (e_trace s).
Definition set_seq (n : N) (s : ep) : ep :=
  mkEp (e_reqs s) (e_resps s) n (e_recov s) (e_open s) (e_now s) (e_next s) (e_trace s).
Definition set_open (b : bool) (s : ep) : ep :=
  mkEp (e_reqs s) (e_resps s) (e_seq s) (e_recov s) b (e_now s) (e_next s) (e_trace s).
Definition set_now (t : N) (s : ep) : ep :=
  mkEp (e_reqs s) (e_resps s) (e_seq s) (e_recov s) (e_open s) t (e_next s) (e_trace s).
Definition set_next (n : N) (s : ep) : ep :=
  mkEp (e_reqs s) (e_resps s) (e_seq s) (e_recov s) (e_open s) (e_now s) n (e_trace s).

(* osmo_pfcp_endpoint_create(), pfcp_endpoint.c:134-160. "uint32_t unix_time = time(NULL)", then a 64 bit sum stored in
   a uint32_t. *)
Definition ep_create (time : N) : ep := mkEp [] [] 0 ((time mod 2 ^ 32 + 2208988800) mod 2 ^ 32) false 0 0 [].

(* "*node_id = ep->cfg.local_node_id", pfcp_endpoint.c:341-343: overwrite the Node ID member if the message type has one *)
Fixpoint set_nth {A} (i : nat) (x : A) (l : list A) : list A :=
  match l, i with
  | [], _ => []
  | _ :: l', O => x :: l'
  | a :: l', S i' => a :: set_nth i' x l'
  end.
Definition put_node_id (node : iev) (t : N) (ies : list (slot iev)) : list (slot iev) :=
  match memb_ofs iei_node_id t with Some i => set_nth i [VLeaf node] ies | None => ies end.

(* osmo_pfcp_endpoint_tx_data_no_logging(), pfcp_endpoint.c:241-266. The first time the message is encoded into a fresh
   msgb; Err: that failed, nothing was sent. *)
Definition encode_msg (h : hdr) (ies : list (slot iev)) : res (list N) :=
  match msg_encode (msgb_new alloc_size) h ies with
  | MOk m => Ok (mb_buf m)
  | MErr _ e => Err e
  | MUB u => UB u
  end.
(* the sendto() part, 257-264: [snd] = the network accepts it; without a socket (fd -1) it always fails *)
Definition send_data (s : ep) (id : option N) (to : sa) (bs : list N) (snd : bool) : ep * bool :=
  if e_open s && snd then (log (OSend id (e_now s) to bs) s, true) else (log (OSendErr id) s, false).
(* encode and send a message that is not queued: osmo_pfcp_endpoint_tx_data(), 268-272 *)
Definition tx_data (s : ep) (to : sa) (h : hdr) (ies : list (slot iev)) (snd : bool) : res ep :=
  match encode_msg h ies with
  | Ok bs => Ok (fst (send_data s None to bs snd))
  | Err _ => Ok (log (OSendErr None) s)
  | UB u => UB u
  end.

(* osmo_pfcp_queue_del(), pfcp_endpoint.c:89-101: frees queue entry and message; freeing an entry that is not there any
   more is a double free *)
Definition has_id (id : N) (l : list qe) : bool := existsb (fun q => q_id q =? id) l.
Definition del_id (id : N) (l : list qe) : list qe := filter (fun q => negb (q_id q =? id)) l.
Definition queue_del_req (id : N) (s : ep) : res ep :=
  if has_id id (e_reqs s) then Ok (log (OFree id) (set_reqs (del_id id (e_reqs s)) s)) else UB DoubleFree.
Definition queue_del_resp (id : N) (s : ep) : res ep :=
  if has_id id (e_resps s) then Ok (log (OFree id) (set_resps (del_id id (e_resps s)) s)) else UB DoubleFree.

(* osmo_pfcp_endpoint_close(), pfcp_endpoint.c:489-502: frees all queue entries, closes the socket *)
Definition ep_close (s : ep) : ep :=
  mkEp [] [] (e_seq s) (e_recov s) false (e_now s) (e_next s)
    (rev (map (fun q => OFree (q_id q)) (e_reqs s ++ e_resps s)) ++ e_trace s).

(* osmo_pfcp_endpoint_retrans_queue_add(), pfcp_endpoint.c:283-323. [cb]: what the response callback does. *)
Definition queue_add (c : ep_cfg) (cb : ep -> res ep) (s : ep) (id : N) (to : sa) (h : hdr) (bs : list N) (has_cb : bool) : res ep :=
  let resp := is_response (hd_type h) in
  if (c_n1 c =? 0) || (c_t1 c =? 0) then
    if negb resp && has_cb then cb (log (OResp id None) s) else Ok s
  else
    let q := mkQe id to h bs has_cb (if resp then 0 else c_n1 c) (e_now s + (if resp then c_keep c else c_t1 c)) in
    Ok (if resp then set_resps (e_resps s ++ [q]) s else set_reqs (q :: e_reqs s) s).

(* osmo_pfcp_endpoint_tx(), pfcp_endpoint.c:335-354 *)
Definition ep_tx (c : ep_cfg) (cb : ep -> res ep) (s : ep) (to : sa) (h : hdr) (ies : list (slot iev)) (has_cb snd : bool) : res ep :=
  let id := e_next s in
  let s := log (OTx id to h ies has_cb) (set_next (id + 1) s) in
  let resp := is_response (hd_type h) in
  let nr := if resp then hd_seq h else next_seq_nr (e_seq s) in
  let s := if resp then s else log (OSeq (Some id) nr) (set_seq nr s) in
  let h := mkHdr (hd_version h) (hd_type h) (hd_prio h) (hd_seid h) nr in
  let ies := put_node_id (c_node c) (hd_type h) ies in
  let fail s :=
    s <- (if negb resp && has_cb then cb (log (OResp id None) s) else Ok s) ;;
    Ok (log (ORet id false) (log (OFree id) s)) in
  match encode_msg h ies with
  | UB u => UB u
  | Err _ => fail (log (OSendErr (Some id)) s)
  | Ok bs =>
    let '(s, sent) := send_data s (Some id) to bs snd in
    if sent then s <- queue_add c cb s id to h bs has_cb ;; Ok (log (ORet id true) s) else fail s
  end.

(* osmo_pfcp_endpoint_tx_heartbeat_req(), pfcp_endpoint.c:274-280 *)
Definition tx_heartbeat_req (s : ep) (to : sa) (snd : bool) : res ep :=
  let nr := next_seq_nr (e_seq s) in
  let s := log (OSeq None nr) (set_seq nr s) in
  tx_data s to (mkHdr 1 msgt_heartbeat_req None None nr) [[VLeaf (IvNum (e_recov s))]] snd.

(* A call of the application into the endpoint; from its main loop or from within a callback. [k]: the calls made by the
   message's response callback in case that is invoked before osmo_pfcp_endpoint_tx() returns. *)
Inductive call :=
| CTx (to : sa) (h : hdr) (ies : list (slot iev)) (has_cb snd : bool) (k : list call)
| CTxData (to : sa) (h : hdr) (ies : list (slot iev)) (snd : bool)
| CHeartbeat (to : sa) (snd : bool)
| CSetSeq (n : N)           (* osmo_pfcp_endpoint_set_seq_nr_state(), 546-549 *)
| CClose
| CBind (ok : bool).        (* osmo_pfcp_endpoint_bind(), 469-487 *)

Fixpoint run_call (c : ep_cfg) (a : call) (s : ep) : res ep :=
  match a with
  | CTx to h ies has_cb snd k =>
    ep_tx c (fun s => (fix go (l : list call) (s : ep) : res ep :=
                         match l with [] => Ok s | x :: l' => s' <- run_call c x s ;; go l' s' end) k s) s to h ies has_cb snd
  | CTxData to h ies snd => tx_data s to h ies snd
  | CHeartbeat to snd => tx_heartbeat_req s to snd
  | CSetSeq n => Ok (set_seq (n mod 2 ^ 32) s)
  | CClose => Ok (ep_close s)
  | CBind ok => Ok (set_open ok (ep_close s))
  end.
Fixpoint run_calls (c : ep_cfg) (l : list call) (s : ep) : res ep :=
  match l with [] => Ok s | x :: l' => s' <- run_call c x s ;; run_calls c l' s' end.

(* What happens around the reception of one message: does sendto() accept an immediate Heartbeat Response / a cached
   response; the calls made by set_msg_ctx_cb, resp_cb and rx_msg_cb; does resp_cb return 1 *)
Record env := mkEnv { v_hb : bool; v_resend : bool; v_ctx : list call; v_resp : list call; v_rc1 : bool; v_rx : list call }.

(* osmo_pfcp_queue_find(), pfcp_endpoint.c:75-87 *)
Definition queue_find (l : list qe) (h : hdr) : option qe :=
  find (fun q => negb (Bool.eqb (is_response (hd_type (q_h q))) (is_response (hd_type h))) && (hd_seq (q_h q) =? hd_seq h)) l.

(* osmo_pfcp_endpoint_handle_rx(), pfcp_endpoint.c:356-420. The IEs in [m_ies] play no role. *)
Definition handle_rx (c : ep_cfg) (s : ep) (from : sa) (h : hdr) (ies : list (slot iev)) (v : env) : res ep :=
  s <- (if hd_type h =? msgt_heartbeat_req
        then tx_data s from (mkHdr 1 msgt_heartbeat_resp None None (hd_seq h)) [[VLeaf (IvNum (e_recov s))]] (v_hb v)
        else Ok s) ;;
  let resp := is_response (hd_type h) in
  match queue_find (if resp then e_reqs s else e_resps s) h with
  | None =>
    s <- run_calls c (v_ctx v) s ;;
    run_calls c (v_rx v) (log (ODispatch from h ies None) s)
  | Some q =>
    s <- run_calls c (v_ctx v) s ;;
    if negb resp then
      (* 372-388 *)
      if has_id (q_id q) (e_resps s) then Ok (fst (send_data s (Some (q_id q)) (q_remote q) (q_enc q) (v_resend v))) else UB DoubleFree
    else
      (* 390-419 *)
      if negb (has_id (q_id q) (e_reqs s)) then UB DoubleFree else
      s <- (if q_cb q then run_calls c (v_resp v) (log (OResp (q_id q) (Some (h, ies))) s) else Ok s) ;;
      s <- (if negb (q_cb q) || v_rc1 v then run_calls c (v_rx v) (log (ODispatch from h ies (Some (q_id q))) s) else Ok s) ;;
      queue_del_req (q_id q) s
  end.

(* the while loop of osmo_pfcp_fd_cb(), pfcp_endpoint.c:444-461, over what the bytes decode to *)
Fixpoint handle_all (c : ep_cfg) (from : sa) (l : list rx_out) (vs : nat -> env) (s : ep) : res ep :=
  match l with
  | [] => Ok s
  | RxMsg h ies :: l' => s' <- handle_rx c s from h ies (vs 0%nat) ;; handle_all c from l' (fun i => vs (S i)) s'
  | RxDrop _ :: l' => handle_all c from l' (fun i => vs (S i)) s
  | RxBad _ :: _ => Ok s
  | RxUB u :: _ => UB u
  end.

(* pfcp_queue_sent_req_timer_cb() with pfcp_queue_retrans(), pfcp_endpoint.c:180-225: the timer of request [q] has expired.
   [snd]: sendto() accepts the retransmission, [k]: calls made by the response callback *)
Definition upd_id (q : qe) (l : list qe) : list qe := map (fun x => if q_id x =? q_id q then q else x) l.
Definition req_timer (c : ep_cfg) (q : qe) (snd : bool) (k : list call) (s : ep) : res ep :=
  let s := log (OTimer (q_id q) (e_now s)) s in
  let drop s :=
    s <- (if q_cb q then run_calls c k (log (OResp (q_id q) None) s) else Ok s) ;;
    queue_del_req (q_id q) s in
  if q_n1 q =? 0 then drop s
  else
    let '(s, sent) := send_data s (Some (q_id q)) (q_remote q) (q_enc q) snd in
    if sent then
      Ok (set_reqs (upd_id (mkQe (q_id q) (q_remote q) (q_h q) (q_enc q) (q_cb q) (q_n1 q - 1) (e_now s + c_t1 c)) (e_reqs s)) s)
    else drop s.
(* pfcp_queue_sent_resp_timer_cb(), pfcp_endpoint.c:228-238 *)
Definition resp_timer (q : qe) (s : ep) : res ep := queue_del_resp (q_id q) (log (OTimer (q_id q) (e_now s)) s).

(* ECall: the application calls the endpoint; ERx: a datagram arrives; ETick: time passes; ETimer: the event loop runs the
   expired timer of message [id]. Events that cannot happen in the current state (no socket, timer not due) are void. *)
Inductive event :=
| ECall (a : call)
| ERx (from : sa) (d : list N) (vs : nat -> env)
| ETick (dt : N)
| ETimer (id : N) (snd : bool) (k : list call).

Definition find_id (id : N) (l : list qe) : option qe := find (fun q => q_id q =? id) l.
Definition step (c : ep_cfg) (s : ep) (ev : event) : res ep :=
  match ev with
  | ECall a => run_call c a s
  | ERx from d vs => if e_open s then handle_all c from (rx_datagram d) vs s else Ok s
  | ETick dt => Ok (set_now (e_now s + dt) s)
  | ETimer id snd k =>
    match find_id id (e_reqs s) with
    | Some q => if q_dl q <=? e_now s then req_timer c q snd k s else Ok s
    | None => match find_id id (e_resps s) with
              | Some q => if q_dl q <=? e_now s then resp_timer q s else Ok s
              | None => Ok s
              end
    end
  end.
Fixpoint run (c : ep_cfg) (s : ep) (l : list event) : res ep :=
  match l with [] => Ok s | ev :: l' => s' <- step c s ev ;; run c s' l' end.

(* osmo_pfcp_endpoint_retrans_queue_is_busy(), pfcp_endpoint.c:552-555 *)
Definition is_busy (s : ep) : bool := negb (match e_reqs s, e_resps s with [], [] => true | _, _ => false end).
