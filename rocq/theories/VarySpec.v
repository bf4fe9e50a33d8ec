(* VarySpec.v -- histories in which the operator changes the timers while the endpoint runs. osmo_pfcp_tdefs can be made
   configurable by VTY (pfcp_endpoint.c:103-130, osmo_tdef_vty_init()), and ep_n1(), ep_t1() and ep_keep_resp() (162-175) look the values
   up each time they are used. EndpointModel.v leaves them fixed; here each event has the values in force when it happens. (They do
   not change in the middle of an event: no callback sets timers.) The local Node ID is copied when the endpoint is created
   and cannot change. *)
From Verif Require Import Base GtlvModel DecEncModel IesModel TablesModel MsgModel EndpointModel EndpointSpec.

Definition vhist : Type := list (ep_cfg * event).
Fixpoint vrun (s : ep) (l : vhist) : res ep :=
  match l with [] => Ok s | (c, ev) :: l' => s' <- step c s ev ;; vrun s' l' end.
(* no event calls [f] *)
Definition vfree (f : call -> bool) (l : vhist) : Prop := Forall (fun x => event_free f (snd x)) l.
(* the timers have a property whenever something happens *)
Definition timers (P : ep_cfg -> Prop) (l : vhist) : Prop := Forall (fun x => P (fst x)) l.
(* the event loop handles each timer when it is due *)
Fixpoint vprompt (s : ep) (l : vhist) : Prop :=
  match l with
  | [] => True
  | (c, ev) :: l' =>
    (match ev with ETick dt => forall q, In q (e_reqs s ++ e_resps s) -> e_now s + dt <= q_dl q | _ => True end)
    /\ match step c s ev with Ok s' => vprompt s' l' | _ => True end
  end.
(* Message [id] is given to the endpoint in an event that happens with timers [c]: [before] without it, then this event, then [after] *)
Record given (time : N) (before : vhist) (c : ep_cfg) (ev : event) (after : vhist) (id : N) (s : ep) : Prop := mkGiven {
  gv_before : exists s1, vrun (ep_create time) before = Ok s1 /\ (forall to h ies cb, ~ In (OTx id to h ies cb) (e_trace s1))
    /\ exists s2, step c s1 ev = Ok s2 /\ (exists to h ies cb, In (OTx id to h ies cb) (e_trace s2)) /\ vrun s2 after = Ok s
}.
