(* CpPeerSpec.v -- vocabulary of the statements in PropertiesPeer.v *)
From Verif Require Import Base GtlvModel DecEncModel IesModel TablesModel MsgModel EndpointModel EndpointSpec CpPeerModel.

(* [l] is everything that happened in an execution of peer, endpoint and application, after which the endpoint is in state
   [s] and the peer in state [p] *)
Definition execution (c : ep_cfg) (k : peer_cfg) (s : ep) (l : list pentry) (p : peer) : Prop :=
  reachable c s /\ ep_obs k l = rev (e_trace s) /\ p_run k peer_alloc l = POk p.

(* a response that contains a Cause IE saying "Request accepted" *)
Definition accepts (r : option (hdr * list (slot iev))) : bool :=
  match r with
  | Some (h, ies) => match resp_cause h ies with Some (IvNum n) => n =? 1 | _ => false end
  | None => false
  end.
(* the response callback of the peer's request [id] was called with [r] *)
Definition answered (l : list pentry) (id : N) (r : option (hdr * list (slot iev))) : Prop :=
  In (VOwnTx id) l /\ In (VEp (OResp id r)) l.

(* an Association Setup Request on the wire: version 1, no SEID, type 5, length 26; sequence number, spare; Node ID IE with
   the IPv4 address [ip]; Recovery Time Stamp IE; CP Function Features IE with the flag BUNDL (octet 5, bit 5) *)
Definition assoc_req_bytes (ip : list N) (nr recov : N) : list N :=
  [32; 5; 0; 26] ++ be_put 3 nr ++ [0; 0; 60; 0; 5; 0] ++ ip ++ [0; 96; 0; 4] ++ be_put 4 recov ++ [0; 89; 0; 1; 16].

(* the state changes that are part of the association procedure *)
Definition procedure : list (pstate * pstate) :=
  [(PsDisabled, PsWaitAssoc); (PsWaitAssoc, PsAssociated); (PsWaitAssoc, PsWaitRetry); (PsWaitRetry, PsWaitAssoc)].
(* the state changes observed (newest first) lead from [PsDisabled] to [s] *)
Fixpoint leads_to (obs : list pobs) (s : pstate) : Prop :=
  match obs with
  | [] => s = PsDisabled
  | PoState a b :: obs' => b = s /\ leads_to obs' a
  | _ :: obs' => leads_to obs' s
  end.
(* the calls of assoc_cb, newest first *)
Fixpoint assoc_calls (obs : list pobs) : list bool :=
  match obs with [] => [] | PoAssoc b :: obs' => b :: assoc_calls obs' | _ :: obs' => assoc_calls obs' end.
Definition is_set_cb (v : pentry) : bool := match v with VSetCb _ => true | _ => false end.
(* a callback is registered: the last one set, if any, is not NULL *)
Definition callback_set (l : list pentry) : bool := fold_left (fun b v => match v with VSetCb b' => b' | _ => b end) l false.

(* ---------------------------------------------------------------- messages that hold the peer's context *)

(* the messages allocated, and whether for reception *)
Fixpoint allocated (l : list pentry) : list (N * bool) :=
  match l with [] => [] | VAlloc m rx :: l' => (m, rx) :: allocated l' | _ :: l' => allocated l' end.
(* the first context that message [m] was given is this peer *)
Definition is_set_ctx (m : N) (v : pentry) : bool := match v with VSetCtx i | VSetCtxOther i => i =? m | _ => false end.
Definition ctx_this (l : list pentry) (m : N) : bool := match find (is_set_ctx m) l with Some (VSetCtx _) => true | _ => false end.
(* the messages given to the endpoint, with their endpoint numbers; [g]: the message osmo_pfcp_endpoint_tx() has just been
   called with *)
Fixpoint gave (g : option N) (l : list pentry) : list (N * N) :=
  match l with
  | [] => []
  | VGive m :: l' => gave (Some m) l'
  | VOwnTx id :: l' => match g with Some m => (m, id) :: gave None l' | None => gave None l' end
  | VEp (OTx id _ _ _ _) :: l' => match g with Some m => (m, id) :: gave None l' | None => gave None l' end
  | _ :: l' => gave g l'
  end.
(* message [m] was freed by its owner, or by the endpoint *)
Definition released (l : list pentry) (m : N) : bool :=
  existsb (fun v => match v with
                    | VDealloc i => i =? m
                    | VEp (OFree id) => existsb (fun g => (fst g =? m) && (snd g =? id)) (gave None l)
                    | _ => false
                    end) l.
(* the number of messages, for reception or not, that hold the peer's context *)
Definition holding (rx : bool) (l : list pentry) : N :=
  lenN (filter (fun x => Bool.eqb (snd x) rx && ctx_this l (fst x) && negb (released l (fst x))) (allocated l)).
