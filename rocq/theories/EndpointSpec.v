(* EndpointSpec.v -- what the endpoint promises about each message given to osmo_pfcp_endpoint_tx(): the life of one message
   as a small automaton over what can be observed about it; and the vocabulary of the statements in PropertiesEndpoint.v *)
From Verif Require Import Base GtlvModel DecEncModel IesModel TablesModel MsgModel EndpointModel.

(* ---------------------------------------------------------------- observations about one message *)

(* [o] is an observation about message [id] *)
Definition about (id : N) (o : out) : bool :=
  match o with
  | OTx i _ _ _ _ | OResp i _ | OFree i | ORet i _ | OTimer i _ => i =? id
  | OSeq (Some i) _ | OSend (Some i) _ _ _ | OSendErr (Some i) => i =? id
  | ODispatch _ _ _ (Some i) => i =? id
  | OSeq None _ | OSend None _ _ _ | OSendErr None | ODispatch _ _ _ None => false
  end.
(* everything observed about message [id], newest first *)
Definition tr_of (id : N) (tr : list out) : list out := filter (about id) tr.

(* number of times something was observed *)
Definition count (f : out -> bool) (tr : list out) : N := lenN (filter f tr).
Definition is_send (id : N) (o : out) : bool := match o with OSend (Some i) _ _ _ => i =? id | _ => false end.
Definition is_senderr (id : N) (o : out) : bool := match o with OSendErr (Some i) => i =? id | _ => false end.
Definition is_resp_cb (id : N) (o : out) : bool := match o with OResp i _ => i =? id | _ => false end.
Definition is_resp_fail (id : N) (o : out) : bool := match o with OResp i None => i =? id | _ => false end.
Definition is_resp_ok (id : N) (o : out) : bool := match o with OResp i (Some _) => i =? id | _ => false end.
Definition is_free (id : N) (o : out) : bool := match o with OFree i => i =? id | _ => false end.
Definition is_timer (id : N) (o : out) : bool := match o with OTimer i _ => i =? id | _ => false end.
Definition is_dispatch (o : out) : bool := match o with ODispatch _ _ _ _ => true | _ => false end.
(* the times at which message [id] was sent, newest first *)
Fixpoint send_times (id : N) (tr : list out) : list N :=
  match tr with
  | [] => []
  | OSend (Some i) t _ _ :: tr' => if i =? id then t :: send_times id tr' else send_times id tr'
  | _ :: tr' => send_times id tr'
  end.
(* successive times are at least / exactly [d] apart *)
Fixpoint spaced (R : N -> N -> Prop) (d : N) (l : list N) : Prop :=
  match l with
  | t' :: ((t :: _) as l') => R (t + d) t' /\ spaced R d l'
  | _ => True
  end.

(* message [id] was sent for the first time at [t] *)
Definition first_send (id : N) (tr : list out) (t : N) : Prop := exists l, send_times id tr = l ++ [t].
(* the sequence numbers drawn, newest first, with the message they were drawn for *)
Fixpoint draws (tr : list out) : list (option N * N) :=
  match tr with [] => [] | OSeq id n :: tr' => (id, n) :: draws tr' | _ :: tr' => draws tr' end.
(* response [id], with sequence number [nr], was sent and is kept *)
Definition kept_response (s : ep) (id nr : N) : Prop :=
  exists to rh ries cb, In (OTx id to rh ries cb) (e_trace s) /\ is_response (hd_type rh) = true /\ hd_seq rh = nr /\ count (is_free id) (e_trace s) = 0.
(* a Heartbeat Request / Response on the wire: version 1, no SEID, type 1 / 2, length 12; sequence number, spare; Recovery Time Stamp IE *)
Definition hb_req_bytes (nr recov : N) : list N := [32; 1; 0; 12] ++ be_put 3 nr ++ [0; 0; 96; 0; 4] ++ be_put 4 recov.
Definition hb_resp_bytes (nr recov : N) : list N := [32; 2; 0; 12] ++ be_put 3 nr ++ [0; 0; 96; 0; 4] ++ be_put 4 recov.

(* ---------------------------------------------------------------- the life of one message *)

(* a message as given to osmo_pfcp_endpoint_tx(), the sequence number and the bytes it was sent with *)
Record minfo := mkMinfo { mi_to : sa; mi_h : hdr; mi_ies : list (slot iev); mi_cb : bool; mi_nr : N; mi_bs : list N }.
Definition mi_resp (m : minfo) : bool := is_response (hd_type (mi_h m)).
(* header with the sequence number *)
Definition mi_hdr (m : minfo) : hdr :=
  mkHdr (hd_version (mi_h m)) (hd_type (mi_h m)) (hd_prio (mi_h m)) (hd_seid (mi_h m)) (mi_nr m).

(* PWait k dl: waiting for the response to a request, k retransmissions left, the timer is due at dl;
   PCached dl: a response, kept until dl; PGone: not with the endpoint *)
Inductive phase := PWait (k dl : N) | PCached (dl : N) | PGone.

(* what osmo_pfcp_endpoint_tx() logs first *)
Definition tx_start (id : N) (m : minfo) : list out :=
  (if mi_resp m then [] else [OSeq (Some id) (mi_nr m)]) ++ [OTx id (mi_to m) (mi_h m) (mi_ies m) (mi_cb m)].
(* the failure callback, if there is any *)
Definition fail_cb (id : N) (m : minfo) : list out := if negb (mi_resp m) && mi_cb m then [OResp id None] else [].

(* the bytes sent are the encoded message, with the local Node ID and with the sequence number drawn for a request / the
   message's own sequence number for a response *)
Definition encoded (c : ep_cfg) (m : minfo) : Prop :=
  encode_msg (mi_hdr m) (put_node_id (c_node c) (hd_type (mi_h m)) (mi_ies m)) = Ok (mi_bs m)
  /\ (mi_resp m = true -> mi_nr m = hd_seq (mi_h m)).

(* what has been observed about message [id], newest first, when osmo_pfcp_endpoint_tx() returns *)
Inductive birth (c : ep_cfg) (id : N) (m : minfo) : list out -> phase -> Prop :=
| B_fail : birth c id m (ORet id false :: OFree id :: fail_cb id m ++ OSendErr (Some id) :: tx_start id m) PGone
| B_nowait t : c_n1 c = 0 \/ c_t1 c = 0 -> encoded c m ->
    birth c id m (ORet id true :: fail_cb id m ++ OSend (Some id) t (mi_to m) (mi_bs m) :: tx_start id m) PGone
| B_req t : c_n1 c <> 0 -> c_t1 c <> 0 -> mi_resp m = false -> encoded c m ->
    birth c id m (ORet id true :: OSend (Some id) t (mi_to m) (mi_bs m) :: tx_start id m) (PWait (c_n1 c) (t + c_t1 c))
| B_resp t : c_n1 c <> 0 -> c_t1 c <> 0 -> mi_resp m = true -> encoded c m ->
    birth c id m (ORet id true :: OSend (Some id) t (mi_to m) (mi_bs m) :: tx_start id m) (PCached (t + c_keep c)).

(* how it continues. [D dl t]: a timer due at [dl] may be handled at [t]; [cl]: osmo_pfcp_endpoint_close() or
   osmo_pfcp_endpoint_bind() is called *)
Inductive lstep (c : ep_cfg) (D : N -> N -> Prop) (cl : bool) (id : N) (m : minfo) : list out -> phase -> list out -> phase -> Prop :=
| S_retrans tr k dl t : D dl t ->
    lstep c D cl id m tr (PWait (k + 1) dl) (OSend (Some id) t (mi_to m) (mi_bs m) :: OTimer id t :: tr) (PWait k (t + c_t1 c))
| S_retrans_fail tr k dl t : D dl t ->
    lstep c D cl id m tr (PWait (k + 1) dl) (OFree id :: fail_cb id m ++ OSendErr (Some id) :: OTimer id t :: tr) PGone
| S_giveup tr dl t : D dl t ->
    lstep c D cl id m tr (PWait 0 dl) (OFree id :: fail_cb id m ++ OTimer id t :: tr) PGone
| S_answer tr k dl h ies from (disp : bool) : is_response (hd_type h) = true -> hd_seq h = mi_nr m -> disp || mi_cb m = true ->
    lstep c D cl id m tr (PWait k dl)
      (OFree id :: (if disp then [ODispatch from h ies (Some id)] else []) ++ (if mi_cb m then [OResp id (Some (h, ies))] else []) ++ tr) PGone
| S_resend tr dl t : lstep c D cl id m tr (PCached dl) (OSend (Some id) t (mi_to m) (mi_bs m) :: tr) (PCached dl)
| S_resend_fail tr dl : lstep c D cl id m tr (PCached dl) (OSendErr (Some id) :: tr) (PCached dl)
| S_expire tr dl t : D dl t -> lstep c D cl id m tr (PCached dl) (OFree id :: OTimer id t :: tr) PGone
| S_close tr p : cl = true -> p <> PGone -> lstep c D cl id m tr p (OFree id :: tr) PGone.

Inductive lsteps (c : ep_cfg) (D : N -> N -> Prop) (cl : bool) (id : N) (m : minfo) (tr : list out) (p : phase) : list out -> phase -> Prop :=
| L_nil : lsteps c D cl id m tr p tr p
| L_cons tr1 p1 tr2 p2 : lsteps c D cl id m tr p tr1 p1 -> lstep c D cl id m tr1 p1 tr2 p2 -> lsteps c D cl id m tr p tr2 p2.

Definition life (c : ep_cfg) (D : N -> N -> Prop) (cl : bool) (id : N) (m : minfo) (tr : list out) (p : phase) : Prop :=
  exists tr0 p0, birth c id m tr0 p0 /\ lsteps c D cl id m tr0 p0 tr p.

(* timers are handled when or after they are due, and before the end *)
Definition D_le (now : N) (dl t : N) : Prop := dl <= t /\ t <= now.
(* timers are handled exactly when they are due *)
Definition D_eq (now : N) (dl t : N) : Prop := t = dl /\ t <= now.

(* the message's place in the endpoint's queues *)
Definition in_phase (s : ep) (id : N) (m : minfo) (p : phase) : Prop :=
  let entry k dl := mkQe id (mi_to m) (mi_hdr m) (mi_bs m) (mi_cb m) k dl in
  match p with
  | PWait k dl => find_id id (e_reqs s) = Some (entry k dl) /\ find_id id (e_resps s) = None
  | PCached dl => find_id id (e_reqs s) = None /\ find_id id (e_resps s) = Some (entry 0 dl)
  | PGone => find_id id (e_reqs s) = None /\ find_id id (e_resps s) = None
  end.

(* ---------------------------------------------------------------- histories *)

(* The [k]-th number (k >= 1) after state [n] in the circular order 1, 2, ..., 2^24 - 1, 1, 2, ... *)
Definition seq_after (n k : N) : N := (n mod 2 ^ 24 + k - 1) mod (2 ^ 24 - 1) + 1.

(* does a call, or a call nested in a callback, close the endpoint / set the sequence number state *)
Fixpoint call_has (f : call -> bool) (a : call) : bool :=
  f a || match a with CTx _ _ _ _ _ k => existsb (call_has f) k | _ => false end.
Definition is_close (a : call) : bool := match a with CClose | CBind _ => true | _ => false end.
Definition is_set_seq (a : call) : bool := match a with CSetSeq _ => true | _ => false end.
Definition calls_have (f : call -> bool) (l : list call) : bool := existsb (call_has f) l.
Definition env_has (f : call -> bool) (v : env) : bool := calls_have f (v_ctx v) || calls_have f (v_resp v) || calls_have f (v_rx v).
(* no call in the event satisfies [f] *)
Definition event_free (f : call -> bool) (ev : event) : Prop :=
  match ev with
  | ECall a => call_has f a = false
  | ERx _ _ vs => forall i, env_has f (vs i) = false
  | ETick _ => True
  | ETimer _ _ k => calls_have f k = false
  end.
(* no call made from within a callback satisfies [f] *)
Definition callbacks_free (f : call -> bool) (ev : event) : Prop :=
  match ev with
  | ECall (CTx _ _ _ _ _ k) => calls_have f k = false
  | ECall _ => True
  | ERx _ _ vs => forall i, env_has f (vs i) = false
  | ETick _ => True
  | ETimer _ _ k => calls_have f k = false
  end.
(* the event loop handles every timer when it is due: the clock never passes a deadline *)
Fixpoint prompt (c : ep_cfg) (s : ep) (l : list event) : Prop :=
  match l with
  | [] => True
  | ev :: l' =>
    (match ev with ETick dt => forall q, In q (e_reqs s ++ e_resps s) -> e_now s + dt <= q_dl q | _ => True end)
    /\ match step c s ev with Ok s' => prompt c s' l' | _ => True end
  end.
(* states of an endpoint after any history *)
Definition reachable (c : ep_cfg) (s : ep) : Prop := exists time evs, run c (ep_create time) evs = Ok s.

(* a message can be encoded without undefined behaviour *)
Definition enc_safe (h : hdr) (ies : list (slot iev)) : Prop := forall u, encode_msg h ies <> UB u.
(* ... as sent by osmo_pfcp_endpoint_tx() *)
Definition tx_safe (c : ep_cfg) (h : hdr) (ies : list (slot iev)) : Prop :=
  forall nr, (if is_response (hd_type h) then nr = hd_seq h else 1 <= nr < 2 ^ 24) ->
    enc_safe (mkHdr (hd_version h) (hd_type h) (hd_prio h) (hd_seid h) nr) (put_node_id (c_node c) (hd_type h) ies).
Fixpoint call_safe (c : ep_cfg) (a : call) : Prop :=
  match a with
  | CTx _ h ies _ _ k => tx_safe c h ies /\ fold_right (fun x P => call_safe c x /\ P) True k
  | CTxData _ h ies _ => enc_safe h ies
  | _ => True
  end.
Definition calls_safe (c : ep_cfg) (k : list call) : Prop := fold_right (fun x P => call_safe c x /\ P) True k.
(* the application gives only such messages; its callbacks for timeouts and received responses, and set_msg_ctx_cb, do not close
   the endpoint (rx_msg_cb for a received request may); the bytes received are parsed without undefined behaviour *)
Definition rx_sane (c : ep_cfg) (h : hdr) (v : env) : Prop :=
  (if is_response (hd_type h) then env_has is_close v = false else calls_have is_close (v_ctx v) = false)
  /\ calls_safe c (v_ctx v) /\ calls_safe c (v_resp v) /\ calls_safe c (v_rx v).
Definition sane (c : ep_cfg) (ev : event) : Prop :=
  match ev with
  | ECall a => call_safe c a
  | ERx _ d vs => (forall u, ~ In (RxUB u) (rx_datagram d))
      /\ forall i h ies, nth_error (rx_datagram d) i = Some (RxMsg h ies) -> rx_sane c h (vs i)
  | ETick _ => True
  | ETimer _ _ k => calls_have is_close k = false /\ calls_safe c k
  end.
