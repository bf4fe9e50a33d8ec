(* FreeSpec.v -- vocabulary of C100: programs that release the endpoint *)
From Verif Require Import Base GtlvModel DecEncModel IesModel TablesModel MsgModel EndpointModel EndpointSpec FreeModel.

(* does a call, or a callback within it, contain osmo_pfcp_endpoint_free()? *)
Fixpoint has_free (a : fcall) : bool :=
  match a with FFree => true | FTx _ _ _ _ _ _ k => existsb has_free k | FCall _ => false end.
Definition fevent_has_free (ev : fevent) : Prop :=
  match ev with
  | FvCall a => has_free a = true
  | FvRx _ _ vs => exists i, existsb has_free (fv_ctx (vs i)) || existsb has_free (fv_resp (vs i)) || existsb has_free (fv_rx (vs i)) = true
  | FvTick _ => False
  | FvTimer _ _ k => existsb has_free k = true
  end.
(* the same program with osmo_pfcp_endpoint_close() in place of osmo_pfcp_endpoint_free() *)
Fixpoint as_call (a : fcall) : call :=
  match a with FFree => CClose | FTx to h ies has_cb snd _ k => CTx to h ies has_cb snd (map as_call k) | FCall a => a end.
Definition as_env (v : fenv) : env := mkEnv (fv_hb v) (fv_resend v) (map as_call (fv_ctx v)) (map as_call (fv_resp v)) (fv_rc1 v) (map as_call (fv_rx v)).
Definition as_event (ev : fevent) : event :=
  match ev with
  | FvCall a => ECall (as_call a)
  | FvRx from d vs => ERx from d (fun i => as_env (vs i))
  | FvTick dt => ETick dt
  | FvTimer id snd k => ETimer id snd (map as_call k)
  end.
(* an event in which the application calls the endpoint, other than to release it (again) *)
Definition uses (ev : fevent) : bool := match ev with FvCall FFree => false | FvCall _ => true | _ => false end.
(* [h] is the header of a response to a pending request / of a request whose response is kept: the message belongs to an entry of
   the endpoint's queue of sent requests / sent responses *)
Definition matches (s : ep) (h : hdr) : Prop :=
  exists q, In q (if is_response (hd_type h) then e_reqs s else e_resps s) /\ hd_seq (q_h q) = hd_seq h.
(* part of a datagram that is no message to be dispatched: dropped for its IEs, or a header that ends the processing *)
Definition not_dispatched (o : rx_out) : Prop := (exists e, o = RxDrop e) \/ exists e, o = RxBad e.
(* whenever [k] is executed, it releases the endpoint and does not use it afterwards *)
Definition releases (c : ep_cfg) (k : list fcall) : Prop := forall s, exists tr, frun_calls c k (Live s) = Ok (Gone tr).
