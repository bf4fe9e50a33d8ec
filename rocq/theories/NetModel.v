(* NetModel.v -- several endpoints exchanging datagrams. Nothing here models code beyond EndpointModel.v: it is the
   surroundings of the endpoints, made explicit, so that guarantees of the library at both ends can be composed. Time passes at
   all nodes alike. The network may lose, delay, duplicate and reorder datagrams, but does not make up or alter any.
   Applications give only valid messages to osmo_pfcp_endpoint_tx(), and do not use osmo_pfcp_endpoint_tx_data(), which
   bypasses the queues (pfcp_endpoint.c:268-272; the endpoint itself uses it for heartbeats). *)
From Verif Require Import Base GtlvModel DecEncModel IesModel TablesModel MsgModel MsgSpec EndpointModel EndpointSpec.

(* address the socket is bound to; configuration; wall clock when the endpoint is created *)
Record node := mkNode { n_addr : sa; n_cfg : ep_cfg; n_time : N }.
Definition world := nat -> ep.
Definition upd (j : nat) (s : ep) (w : world) : world := fun i => if Nat.eqb i j then s else w i.

(* what a node's application may do *)
Definition good_msg (h : hdr) (ies : list (slot iev)) : Prop :=
  exists bs, valid_msg h ies bs /\ hdr_len h + lenN bs < alloc_size.
Fixpoint good_call (c : ep_cfg) (a : call) : Prop :=
  match a with
  | CTx _ h ies _ _ k => good_msg h (put_node_id (c_node c) (hd_type h) ies) /\ fold_right (fun x P => good_call c x /\ P) True k
  | CTxData _ _ _ _ => False
  | _ => True
  end.
Definition good_calls (c : ep_cfg) (k : list call) : Prop := fold_right (fun x P => good_call c x /\ P) True k.
(* ... and its callbacks for received messages and timeouts do not close the endpoint (C41) *)
Definition good_event (c : ep_cfg) (ev : event) : Prop :=
  match ev with
  | ECall a => good_call c a
  | ERx _ _ vs => forall i, env_has is_close (vs i) = false /\ good_calls c (v_ctx (vs i)) /\ good_calls c (v_resp (vs i)) /\ good_calls c (v_rx (vs i))
  | ETick _ => True
  | ETimer _ _ k => calls_have is_close k = false /\ good_calls c k
  end.

Section Net.
Variables (nw : nat -> node) (delay late : option N).

(* a node at address [from] has sent datagram [d] to address [to]; [delay]: and that is not too long ago *)
Definition in_flight (w : world) (from to : sa) (d : list N) : Prop :=
  exists i x t, n_addr (nw i) = from /\ In (OSend x t to d) (e_trace (w i))
    /\ match delay with Some D => e_now (w i) <= t + D | None => True end.

(* something happens at node [j], or time passes *)
Inductive wevent := WNode (j : nat) (ev : event) | WTick (dt : N).
(* [late]: time does not pass the deadline of a timer by more than this before the event loop runs the timer *)
Inductive wstep (w : world) : wevent -> world -> Prop :=
| W_node j ev s : good_event (n_cfg (nw j)) ev ->
    match ev with ERx from d _ => in_flight w from (n_addr (nw j)) d | ETick _ => False | _ => True end ->
    step (n_cfg (nw j)) (w j) ev = Ok s -> wstep w (WNode j ev) (upd j s w)
| W_tick dt : (forall L, late = Some L -> forall i q, In q (e_reqs (w i) ++ e_resps (w i)) -> e_now (w i) + dt <= q_dl q + L) ->
    wstep w (WTick dt) (fun i => set_now (e_now (w i) + dt) (w i)).
(* from [w0] to [w]; newest event first *)
Inductive wruns (w0 : world) : list wevent -> world -> Prop :=
| WX_nil : wruns w0 [] w0
| WX_step l w e w' : wruns w0 l w -> wstep w e w' -> wruns w0 (e :: l) w'.
(* histories *)
Definition wexec (l : list wevent) (w : world) : Prop := wruns (fun i => ep_create (n_time (nw i))) l w.
End Net.

(* the events of node [j] *)
Definition node_event (j : nat) (e : wevent) : list event :=
  match e with WNode i ev => if Nat.eqb i j then [ev] else [] | WTick dt => [ETick dt] end.
(* no event of node [j] calls [f], not even in a callback *)
Definition never (f : call -> bool) (j : nat) (l : list wevent) : Prop :=
  forall e ev, In e l -> In ev (node_event j e) -> event_free f ev.

(* ---------------------------------------------------------------- vocabulary of the statements *)

(* message [m], from [h0] and [ies0] as given to osmo_pfcp_endpoint_tx(): sequence number and Node ID filled in *)
Definition filled (c : ep_cfg) (h0 : hdr) (ies0 : list (slot iev)) (nr : N) : hdr * list (slot iev) :=
  (mkHdr (hd_version h0) (hd_type h0) (hd_prio h0) (hd_seid h0) nr, put_node_id (c_node c) (hd_type h0) ies0).
(* node [i], in state [s], has sent this message to address [to]: given to osmo_pfcp_endpoint_tx() by its application, or
   the endpoint's own Heartbeat Request or Response *)
Definition sent_msg (c : ep_cfg) (s : ep) (to : sa) (h : hdr) (ies : list (slot iev)) : Prop :=
  (exists id h0 ies0 cb, In (OTx id to h0 ies0 cb) (e_trace s) /\ (h, ies) = filled c h0 ies0 (hd_seq h)
     /\ (if is_response (hd_type h0) then hd_seq h = hd_seq h0 else In (OSeq (Some id) (hd_seq h)) (e_trace s)))
  \/ (hd_type h = 1 /\ In (OSeq None (hd_seq h)) (e_trace s))
  \/ hd_type h = 2.
(* requests given to the receive callback, Heartbeat Requests aside: sender and sequence number *)
Fixpoint dispatched (tr : list out) : list (sa * N) :=
  match tr with
  | [] => []
  | ODispatch from h _ _ :: tr' => if is_response (hd_type h) || (hd_type h =? 1) then dispatched tr' else (from, hd_seq h) :: dispatched tr'
  | _ :: tr' => dispatched tr'
  end.
(* the receive callback answers every such request at once, and the answer is accepted by sendto() *)
Definition answers (ev : event) : Prop :=
  match ev with
  | ERx from d vs => forall n h ies, nth_error (rx_datagram d) n = Some (RxMsg h ies) -> is_response (hd_type h) = false -> hd_type h <> 1 ->
      exists rh ries k k', v_rx (vs n) = CTx from rh ries false true k :: k' /\ is_response (hd_type rh) = true /\ hd_seq rh = hd_seq h
  | _ => True
  end.
(* the application answers only what it was asked *)
Definition only_answers (s : ep) : Prop :=
  forall a id to h ies cb b, e_trace s = a ++ OTx id to h ies cb :: b -> is_response (hd_type h) = true ->
    exists h' ies' r, In (ODispatch to h' ies' r) b /\ is_response (hd_type h') = false /\ hd_seq h' = hd_seq h.
