(* CtxSpec.v -- vocabulary of C101 *)
From Verif Require Import Base GtlvModel DecEncModel IesModel TablesModel MsgModel EndpointModel EndpointSpec CpPeerModel CtxModel.

(* a message's contexts refer to object [o] *)
Definition ctx_refers (k : mctx) (o : N) : Prop := mc_fi k = Some o \/ exists tok, mc_uc k = Some (o, tok).
Definition refers (y : xmsg) (o : N) : Prop := ctx_refers (xm_peer y) o \/ ctx_refers (xm_sess y) o.
(* in a queue of the endpoint *)
Definition queued (y : xmsg) : Prop := exists id, xm_own y = XoQueue id.
(* how many contexts of messages hold a use count of object [o] under token [tok] *)
Definition ctx_holds (o tok : N) (k : mctx) : Z := match mc_uc k with Some (o', t') => if (o' =? o) && (t' =? tok) then 1%Z else 0%Z | None => 0%Z end.
Definition holds (o tok : N) (M : list xmsg) : Z := fold_right (fun y n => (ctx_holds o tok (xm_peer y) + ctx_holds o tok (xm_sess y) + n)%Z) 0%Z M.
(* a condition on the state in which object [o] is deallocated *)
Definition at_destroy (c : ep_cfg) (P : xst -> N -> Prop) (l : list xentry) : Prop :=
  forall l1 o l2 x, l = l1 ++ XDestroy o :: l2 -> x_run c xst0 l1 = POk x -> P x o.
(* object [o] is deallocated when no use count is held ... *)
Definition unused (x : xst) (o : N) : Prop := forall tok, x_cnt x o tok = 0%Z.
(* ... and every context comes with a use count, osmo_pfcp_*_invalidate_ctx() are not used: the first way to avoid use after free that
   pfcp_msg.c:548-551 describes *)
Definition counted (v : xentry) : Prop := match v with XSet _ _ _ None | XInvMsg _ _ | XInvEp _ => False | _ => True end.
(* the other way: when an object is deallocated, osmo_pfcp_endpoint_invalidate_ctx() and, for the messages [ms],
   osmo_pfcp_msg_invalidate_ctx() are called just before. Every message that refers to the object is in a queue of the endpoint or
   one of [ms] *)
Definition invalidated (c : ep_cfg) (l : list xentry) : Prop := forall l1 o l2, l = l1 ++ XDestroy o :: l2 ->
  exists l0 ms, l1 = l0 ++ XInvEp o :: map (fun m => XInvMsg m o) ms
    /\ forall x, x_run c xst0 l0 = POk x -> forall y, In y (x_msgs x) -> refers y o -> queued y \/ In (xm_nr y) ms.
Definition is_inv (o : N) (v : xentry) : bool := match v with XInvMsg _ o' | XInvEp o' => o' =? o | _ => false end.

(* [l] is everything that happened, in order, in some history of an endpoint, the network and an application *)
Definition ctx_history (c : ep_cfg) (s : ep) (l : list xentry) : Prop := reachable c s /\ x_obs l = rev (e_trace s).
(* osmo_pfcp_endpoint_invalidate_ctx() is called just before an object is deallocated *)
Definition ep_invalidated (l : list xentry) : Prop := forall l1 o l2, l = l1 ++ XDestroy o :: l2 -> exists l0, l1 = l0 ++ [XInvEp o].
