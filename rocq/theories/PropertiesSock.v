(* PropertiesSock.v -- C112: file descriptors. Proofs in SockProofs.v, vocabulary in SockModel.v and SockSpec.v. *)
From Verif Require Import Base SockModel SockSpec SockProofs.
From Verif Require Import GtlvModel DecEncModel IesModel TablesModel MsgModel EndpointModel.
Local Open Scope Z_scope.

(* Nothing that a program can do with any number of endpoints, in any order, makes the library use freed memory, unregister what is
   not registered or fail its assertion. *)
Theorem C112_safe evs s ev : history evs s -> possible (k_trace s) ev -> regular (k_trace s) ev -> exists s', sstep s ev = Ok s'.
Proof. intros H P R. destruct (step_inv s ev (history_inv _ _ H) P R) as (s' & E & _). exists s'. exact E. Qed.
Print Assumptions C112_safe.
(* All descriptors are used by their holders only: closed once, never sent through or received from by another. *)
Theorem C112_own_descriptors evs s : history evs s -> disciplined (k_trace s).
Proof. intros H. exact (iF s (history_inv _ _ H)). Qed.
Print Assumptions C112_own_descriptors.
(* An endpoint has at most one socket; only an endpoint that exists, and has a rx_msg_cb, has one: none is leaked. *)
Theorem C112_one_socket evs s i f g : history evs s -> holds (k_trace s) i f -> holds (k_trace s) i g -> f = g.
Proof. intros H. exact (one_socket s i f g (history_inv _ _ H)). Qed.
Print Assumptions C112_one_socket.
Theorem C112_no_leak evs s i f : history evs s -> holds (k_trace s) i f -> alive (k_trace s) i = Some true.
Proof. intros H. exact (held_alive s i f (history_inv _ _ H)). Qed.
Print Assumptions C112_no_leak.
(* After osmo_pfcp_endpoint_close() it has none; the descriptors of all others are left alone. *)
Theorem C112_close evs s i s' : history evs s -> sstep s (SvClose i) = Ok s' ->
  (forall f, ~ holds (k_trace s') i f) /\ (forall j, alive (k_trace s') j = alive (k_trace s) j)
  /\ (forall f w, w <> Some i -> (holder (k_trace s') f = Some w <-> holder (k_trace s) f = Some w)).
Proof. intros H. exact (after_close s i s' (history_inv _ _ H)). Qed.
Print Assumptions C112_close.
(* After osmo_pfcp_endpoint_free() the endpoint is released, too, and freeing it again does nothing. *)
Theorem C112_free evs s i s' : history evs s -> sstep s (SvFree i) = Ok s' ->
  alive (k_trace s') i = None /\ (forall f, ~ holds (k_trace s') i f) /\ (forall j, j <> i -> alive (k_trace s') j = alive (k_trace s) j)
  /\ (forall f w, w <> Some i -> (holder (k_trace s') f = Some w <-> holder (k_trace s) f = Some w)) /\ sstep s' (SvFree i) = Ok s'.
Proof. intros H. exact (after_free s i s' (history_inv _ _ H)). Qed.
Print Assumptions C112_free.
(* osmo_pfcp_endpoint_bind() succeeds iff there is a rx_msg_cb and the kernel gives a socket, and it is that socket which the endpoint then has
   and the select loop waits for. It fails with EINVAL without rx_msg_cb, else with the socket's error, and then the endpoint has none,
   not even the one that it had before. *)
Theorem C112_bind evs s i o s' : history evs s -> regular (k_trace s) (SvBind i o) -> sstep s (SvBind i o) = Ok s' ->
  exists r tr, k_trace s' = SysBind i r :: tr
    /\ match r with
       | None => alive (k_trace s) i = Some true /\ exists fd, o = SkOk fd /\ holds (k_trace s') i fd /\ waits (k_trace s') fd = Some i
       | Some e => (alive (k_trace s) i = Some false /\ e = EINVAL \/ alive (k_trace s) i = Some true /\ o = SkFail e) /\ forall f, ~ holds (k_trace s') i f
       end.
Proof. intros H. exact (bind_result s i o s' (history_inv _ _ H)). Qed.
Print Assumptions C112_bind.
(* The select loop waits for exactly the endpoints' sockets; what is received from one goes to the endpoint that has it. *)
Theorem C112_select_loop evs s fd i : history evs s -> (waits (k_trace s) fd = Some i <-> holds (k_trace s) i fd).
Proof. intros H. exact (iE s (history_inv _ _ H) fd i). Qed.
Print Assumptions C112_select_loop.
Theorem C112_receive evs s fd : history evs s ->
  match waits (k_trace s) fd with
  | Some i => sstep s (SvReady fd) = Ok (slog (SysRecv fd i) s) /\ alive (k_trace s) i = Some true
  | None => sstep s (SvReady fd) = Ok s
  end.
Proof. intros H. exact (ready_result s fd (history_inv _ _ H)). Qed.
Print Assumptions C112_receive.

(* Where it does not hold. When the socket is opened but cannot be registered with the select loop, libosmocore has closed it, but the endpoint
   still takes its number for its own: when the application then opens a file that gets this number, PFCP messages are written to it; closing or
   binding the endpoint unregisters what is not registered. *)
Theorem C112_register_failure_refuted evs s i fd er : history evs s -> alive (k_trace s) i = Some true -> fresh_fd (k_trace s) (Some i) fd ->
  exists s1, sstep s (SvBind i (SkRegFail fd er)) = Ok s1 /\ holder (k_trace s1) fd = None /\ (exists tr, k_trace s1 = SysBind i (Some er) :: tr)
    /\ (exists u, sstep s1 (SvClose i) = UB u)
    /\ srun s1 [SvAppOpen fd; SvSend i] = Ok (slog (SysSend fd i) (slog (SysSocket fd None) s1)).
Proof. intros H. exact (reg_failure s i fd er (history_inv _ _ H)). Qed.
Print Assumptions C112_register_failure_refuted.
(* An endpoint with a socket that is released with its talloc context, as talloc allocated objects usually may be, leaves the socket open and the
   select loop calls it back in freed memory. *)
Theorem C112_context_refuted evs s i fd : history evs s -> holds (k_trace s) i fd ->
  exists s1, sstep s (SvCtxFree i) = Ok s1 /\ alive (k_trace s1) i = None /\ holds (k_trace s1) i fd /\ sstep s1 (SvReady fd) = UB DoubleFree.
Proof. intros H. exact (ctx_failure s i fd (history_inv _ _ H)). Qed.
Print Assumptions C112_context_refuted.

(* The endpoint of EndpointModel.v, where a socket is a boolean: it is open iff the endpoint has a socket here. *)
Theorem C112_endpoint_model c time evs s i cb : history evs s -> alive (k_trace s) i = Some cb ->
  exists p, run c (ep_create time) (flat_map (as_calls i cb) evs) = Ok p /\ (e_open p = true <-> exists fd, holds (k_trace s) i fd).
Proof. intros H Ha. exact (endpoint_model c time i cb evs s H Ha). Qed.
Print Assumptions C112_endpoint_model.

(* a process with two endpoints, one without rx_msg_cb, and files of its own; the endpoint gets a new socket, which has the number of its old one *)
Definition C112_events : list sevent :=
  [SvAppOpen 3; SvCreate 0 true; SvCreate 1 false; SvSend 0; SvBind 0 (SkOk 4); SvBind 1 (SkOk 5); SvReady 4; SvSend 0; SvAppOpen 5;
   SvBind 0 (SkOk 4); SvAppClose 3; SvFree 1; SvReady 3; SvBind 0 (SkFail EAFNOSUPPORT); SvBind 0 (SkOk 3); SvFree 0; SvFree 0; SvAppOpen 3].
Fixpoint possible_run (s : sk) (l : list sevent) : Prop :=
  match l with
  | [] => True
  | ev :: l' => possible (k_trace s) ev /\ regular (k_trace s) ev /\ match sstep s ev with Ok s' => possible_run s' l' | _ => False end
  end.
Lemma possible_history s l : possible_run s l -> forall evs, history evs s -> exists s', srun s l = Ok s' /\ history (evs ++ l) s'.
Proof.
  revert s. induction l as [|ev l IH]; intros s H evs Hh; [exists s; rewrite app_nil_r; auto|]. destruct H as (P & R & H). cbn.
  destruct (sstep s ev) as [s1| |] eqn:E; try easy. destruct (IH s1 H (evs ++ [ev])) as (s' & E' & H'); [econstructor; eassumption|].
  exists s'. rewrite <- app_assoc in H'. auto.
Qed.
Example C112_example : exists s, history C112_events s /\ k_trace s =
  [SysSocket 3 None; SysGone 0; SysClose 3 (Some 0%N); SysUnreg 3 0; SysBind 0 None; SysReg 3 0; SysSocket 3 (Some 0%N);
   SysBind 0 (Some EAFNOSUPPORT); SysClose 4 (Some 0%N); SysUnreg 4 0; SysGone 1; SysClose 3 None;
   SysBind 0 None; SysReg 4 0; SysSocket 4 (Some 0%N); SysClose 4 (Some 0%N); SysUnreg 4 0;
   SysSocket 5 None; SysSend 4 0; SysRecv 4 0; SysBind 1 (Some EINVAL); SysBind 0 None; SysReg 4 0; SysSocket 4 (Some 0%N); SysSend (-1) 0;
   SysNew 1 false; SysNew 0 true; SysSocket 3 None].
Proof.
  assert (P : possible_run sk0 C112_events).
  { cbn. unfold fresh_fd. cbn. repeat split; try lia; try discriminate; auto; intuition (try discriminate; try congruence). }
  destruct (possible_history sk0 C112_events P [] hist_nil) as (s & E & H). exists s. split; [exact H|].
  vm_compute in E. injection E as <-. reflexivity.
Qed.
