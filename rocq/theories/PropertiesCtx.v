(* PropertiesCtx.v -- C101: message contexts, i.e. the references from messages to FSM instances and use counts of the application.
   Proofs in CtxProofs.v, vocabulary in CtxModel.v and CtxSpec.v.
   [ctx_history c s l]: [l] is everything that happened, in order, in some history of an endpoint configured as [c], the network and an
   application that creates messages, sets their contexts, sends them, and deallocates objects; [s] is the endpoint's state after it.
   [x_run] follows the references: PUB DoubleFree is an access to a deallocated object, PUB AssertFail a use count that goes negative. *)
From Verif Require Import Base BaseProofs GtlvModel DecEncModel IesModel TablesModel MsgModel EndpointModel EndpointSpec
  EndpointProps EndpointProps2 EndpointProps3 PropertiesEndpoint CpPeerModel CpPeerSpec CpPeerProofs CpPeerProps UseCountProofs PropertiesPeer
  CtxModel CtxSpec CtxProofs.

(* ---------------------------------------------------------------- histories for the examples *)
(* the application gives message 0 with session 7 as context to the endpoint; then [l] *)
Definition cx_log (tok : option N) (l : list out) : list xentry := [XAlloc 0 false; XSet true 0 7 tok; XGive 0] ++ map XEp l.
Definition cx_at (n : nat) (v l : list xentry) : list xentry := firstn n l ++ v ++ skipn n l.
Definition cx_tr (l : list event) : list out := rev (e_trace (ex_st l)).
Definition cx_st (l : list xentry) : xst := match x_run ex_c xst0 l with POk x => x | _ => xst0 end.
Definition is_destroy (v : xentry) : bool := match v with XDestroy _ => true | _ => false end.
Lemma pok_inj {A} (a b : A) : POk a = POk b -> a = b.
Proof. congruence. Qed.
Lemma one_destroy l a o b : l = a ++ XDestroy o :: b -> existsb is_destroy a = false -> existsb is_destroy b = false ->
  forall l1 o' l2, l = l1 ++ XDestroy o' :: l2 -> l1 = a /\ o' = o /\ l2 = b.
Proof.
  intros -> Ha Hb l1 o' l2 E. revert l1 Ha E. induction a as [|v a IH]; intros l1 Ha E.
  - destruct l1 as [|w l1]; [injection E as -> ->; auto|]. exfalso. injection E as _ E. rewrite E, existsb_app in Hb. apply orb_false_iff in Hb as [_ Hb]. discriminate.
  - cbn [existsb] in Ha. apply orb_false_iff in Ha as [Hv Ha]. destruct l1 as [|w l1]; [injection E as -> _; discriminate|]. injection E as -> E. destruct (IH l1 Ha E) as (-> & X). auto.
Qed.

(* The library accesses no deallocated object, and no use count goes negative, if no message that is not yet freed refers to an object
   when it is deallocated. *)
Theorem C101_safe c s l u : ctx_history c s l -> at_destroy c (fun x o => forall y, In y (x_msgs x) -> ~ refers y o) l -> x_run c xst0 l <> PUB u.
Proof. intros [A B]. exact (ctx_safe c s l A B u). Qed.
Print Assumptions C101_safe.
(* Using the use counts is safe: every context is set together with a use count, and objects are deallocated when their use counts are
   zero. *)
Theorem C101_use_counts_safe c s l u : ctx_history c s l -> Forall counted l -> at_destroy c unused l -> x_run c xst0 l <> PUB u.
Proof. intros [A B]. exact (counted_safe c s l u A B). Qed.
Print Assumptions C101_use_counts_safe.
(* Invalidating contexts is safe, if osmo_pfcp_msg_invalidate_ctx() is also called for messages that are not in a queue of the endpoint. *)
Theorem C101_invalidate_safe_partial c s l u : ctx_history c s l -> invalidated c l -> x_run c xst0 l <> PUB u.
Proof. intros [A B]. exact (invalidated_safe c s l u A B). Qed.
Print Assumptions C101_invalidate_safe_partial.
(* The use count of an object under a token is the number of contexts that hold it, as long as contexts that refer to the object were not
   invalidated; it is at least that number in any case. *)
Theorem C101_counts_exact c l x o tok : x_run c xst0 l = POk x -> existsb (is_inv o) l = false -> x_cnt x o tok = holds o tok (x_msgs x).
Proof. exact (counts_exact c l x o tok). Qed.
Print Assumptions C101_counts_exact.
Theorem C101_counts_enough c l x o tok : x_run c xst0 l = POk x -> (holds o tok (x_msgs x) <= x_cnt x o tok)%Z.
Proof. exact (counts_enough c l x o tok). Qed.
Print Assumptions C101_counts_enough.
(* osmo_pfcp_endpoint_invalidate_ctx() removes the references to the object, and only these, from the messages in the endpoint's queues,
   and only from these; use counts are left as they are. *)
Theorem C101_invalidate c l x o : x_run c xst0 l = POk x -> exists x', x_run c xst0 (l ++ [XInvEp o]) = POk x'
  /\ x_dead x' = x_dead x /\ x_cnt x' = x_cnt x
  /\ Forall2 (fun y y' => xm_nr y' = xm_nr y /\ xm_rx y' = xm_rx y /\ xm_own y' = xm_own y
       /\ (queued y -> ~ refers y' o) /\ (~ queued y -> y' = y)
       /\ (~ ctx_refers (xm_peer y) o -> xm_peer y' = xm_peer y) /\ (~ ctx_refers (xm_sess y) o -> xm_sess y' = xm_sess y)) (x_msgs x) (x_msgs x').
Proof. exact (invalidate_ep c l x o). Qed.
Print Assumptions C101_invalidate.
(* So the two ways do not mix: once the context of a queued message that holds a use count is invalidated, that use count never reaches
   zero again. *)
Theorem C101_mixed c l1 l2 o tok x1 x : x_run c xst0 l1 = POk x1 ->
  (exists y, In y (x_msgs x1) /\ queued y /\ (mc_uc (xm_peer y) = Some (o, tok) \/ mc_uc (xm_sess y) = Some (o, tok))) ->
  x_run c xst0 (l1 ++ XInvEp o :: l2) = POk x -> (0 < x_cnt x o tok)%Z.
Proof. exact (mixed c l1 l2 o tok x1 x). Qed.
Print Assumptions C101_mixed.

(* a request with session 7 as context, under use count token 3, is answered; session 7 is deallocated at the end *)
Definition cx_counted : list xentry := cx_log (Some 3) (cx_tr pe_ok) ++ [XDestroy 7].
Example C101_counted_example : ctx_history ex_c (ex_st pe_ok) cx_counted /\ Forall counted cx_counted /\ at_destroy ex_c unused cx_counted
  /\ x_cnt (cx_st (cx_log (Some 3) (cx_tr pe_sent))) 7 3 = 1%Z /\ is_dead 7 (cx_st cx_counted) = true.
Proof.
  split; [split; [apply ex_reach; vm_compute; reflexivity|vm_compute; reflexivity]|]. split.
  { unfold cx_counted. apply Forall_app. split; [|constructor; [exact Logic.I|constructor]]. apply Forall_app. split; [repeat constructor|]. apply Forall_map, Forall_forall. intros; exact Logic.I. }
  split.
  { intros l1 o l2 x E. destruct (one_destroy cx_counted (cx_log (Some 3) (cx_tr pe_ok)) 7 [] eq_refl ltac:(vm_compute; reflexivity) eq_refl l1 o l2 E) as (-> & -> & _).
    intros H. assert (K : x_run ex_c xst0 (cx_log (Some 3) (cx_tr pe_ok)) = POk (cx_st (cx_log (Some 3) (cx_tr pe_ok)))) by (vm_compute; reflexivity). rewrite H in K. apply pok_inj in K. subst x.
    intros tok. rewrite (counts_exact ex_c _ _ 7 tok H eq_refl). vm_compute. reflexivity. }
  split; vm_compute; reflexivity.
Qed.
(* the session is deallocated while the request waits for its response *)
Definition cx_inv : list xentry := cx_log None (cx_tr pe_sent) ++ [XInvEp 7; XDestroy 7].
Example C101_invalidated_example : ctx_history ex_c (ex_st pe_sent) cx_inv /\ invalidated ex_c cx_inv
  /\ existsb (fun y => match mc_fi (xm_sess y), xm_own y with Some 7, XoQueue _ => true | _, _ => false end) (x_msgs (cx_st (cx_log None (cx_tr pe_sent)))) = true
  /\ is_dead 7 (cx_st cx_inv) = true.
Proof.
  split; [split; [apply ex_reach; vm_compute; reflexivity|vm_compute; reflexivity]|]. split.
  { intros l1 o l2 E. destruct (one_destroy cx_inv (cx_log None (cx_tr pe_sent) ++ [XInvEp 7]) 7 [] eq_refl ltac:(vm_compute; reflexivity) eq_refl l1 o l2 E) as (-> & -> & _).
    exists (cx_log None (cx_tr pe_sent)), []. split; [reflexivity|]. intros x H.
    assert (K : x_run ex_c xst0 (cx_log None (cx_tr pe_sent)) = POk (cx_st (cx_log None (cx_tr pe_sent)))) by (vm_compute; reflexivity). rewrite H in K. apply pok_inj in K. subst x.
    intros y Hy _. left. vm_compute in Hy. destruct Hy as [<-|[]]. exists 0. reflexivity. }
  split; vm_compute; reflexivity.
Qed.
(* Calling osmo_pfcp_endpoint_invalidate_ctx() before an object is deallocated is not enough, though osmo_pfcp_endpoint_tx() is documented
   to take ownership of the message: a request fails to be sent, and its response callback deallocates the session. The request is in no
   queue then; when it is released, the deallocated session's name is logged. *)
Theorem C101_failed_tx_refuted : exists c s l, ctx_history c s l /\ ep_invalidated l
  /\ at_destroy c (fun x o => forall y, In y (x_msgs x) -> refers y o -> exists id, xm_own y = XoTx id) l /\ x_run c xst0 l = PUB DoubleFree.
Proof.
  set (l := cx_at 7 [XInvEp 7; XDestroy 7] (cx_log None (cx_tr pe_noroute))). exists ex_c, (ex_st pe_noroute), l.
  pose proof (one_destroy l (firstn 8 l) 7 (skipn 9 l) ltac:(vm_compute; reflexivity) ltac:(vm_compute; reflexivity) ltac:(vm_compute; reflexivity)) as U.
  split; [split; [apply ex_reach; vm_compute; reflexivity|vm_compute; reflexivity]|]. split; [|split].
  - intros l1 o l2 E. destruct (U l1 o l2 E) as (-> & -> & _). exists (firstn 7 l). vm_compute. reflexivity.
  - intros l1 o l2 x E. destruct (U l1 o l2 E) as (-> & -> & _). intros H.
    assert (K : x_run ex_c xst0 (firstn 8 l) = POk (cx_st (firstn 8 l))) by (vm_compute; reflexivity). rewrite H in K. apply pok_inj in K. subst x.
    intros y Hy _. vm_compute in Hy. destruct Hy as [<-|[]]. exists 0. reflexivity.
  - vm_compute. reflexivity.
Qed.
Print Assumptions C101_failed_tx_refuted.
(* The same with a received message: set_msg_ctx_cb has set the session as its context, the request's response callback deallocates the
   session. That the callback has handled the response is then logged, with the deallocated session's name. All messages the application
   has sent are in the endpoint's queues. *)
Theorem C101_received_refuted : exists c s l, ctx_history c s l /\ ep_invalidated l
  /\ at_destroy c (fun x o => forall y, In y (x_msgs x) -> refers y o -> queued y \/ xm_rx y = true) l /\ x_run c xst0 l = PUB DoubleFree.
Proof.
  set (l := cx_at 7 [XAlloc 1 true; XSet true 1 7 None; XLog 1] (cx_at 8 [XInvEp 7; XDestroy 7; XLog 1] (cx_log None (cx_tr pe_ok)))). exists ex_c, (ex_st pe_ok), l.
  pose proof (one_destroy l (firstn 12 l) 7 (skipn 13 l) ltac:(vm_compute; reflexivity) ltac:(vm_compute; reflexivity) ltac:(vm_compute; reflexivity)) as U.
  split; [split; [apply ex_reach; vm_compute; reflexivity|vm_compute; reflexivity]|]. split; [|split].
  - intros l1 o l2 E. destruct (U l1 o l2 E) as (-> & -> & _). exists (firstn 11 l). vm_compute. reflexivity.
  - intros l1 o l2 x E. destruct (U l1 o l2 E) as (-> & -> & _). intros H.
    assert (K : x_run ex_c xst0 (firstn 12 l) = POk (cx_st (firstn 12 l))) by (vm_compute; reflexivity). rewrite H in K. apply pok_inj in K. subst x.
    intros y Hy _. vm_compute in Hy. destruct Hy as [<-|[<-|[]]]; [right; reflexivity|left; exists 0; reflexivity].
  - vm_compute. reflexivity.
Qed.
Print Assumptions C101_received_refuted.
(* the response arrives while session 7, invalidated with a use count held, keeps it *)
Definition cx_mixed : list xentry := cx_log (Some 3) (cx_tr pe_sent) ++ XInvEp 7 :: map XEp (skipn 4 (cx_tr pe_ok)).
Example C101_mixed_example :
  match x_run ex_c xst0 (cx_log (Some 3) (cx_tr pe_sent)) with
  | POk x => existsb (fun y => match mc_uc (xm_sess y), xm_own y with Some (7, 3), XoQueue _ => true | _, _ => false end) (x_msgs x)
  | _ => false end = true
  /\ match x_run ex_c xst0 cx_mixed with POk x => map xm_own (x_msgs x) | _ => [] end = [XoFreed].
Proof. split; vm_compute; reflexivity. Qed.
