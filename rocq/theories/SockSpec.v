(* SockSpec.v -- vocabulary of C112: who holds which descriptor, read off a trace of system calls (newest first) alone. *)
From Verif Require Import Base EndpointModel SockModel.
Local Open Scope Z_scope.

(* fd is open, and was opened by: Some (Some i) = endpoint i, Some None = the application; None: fd is not open *)
Fixpoint holder (tr : list sys) (fd : Z) : option (option N) :=
  match tr with
  | [] => None
  | SysSocket f who :: tr' => if f =? fd then Some who else holder tr' fd
  | SysClose f _ :: tr' => if f =? fd then None else holder tr' fd
  | _ :: tr' => holder tr' fd
  end.
Definition holds (tr : list sys) (i : N) (fd : Z) : Prop := holder tr fd = Some (Some i).
(* endpoint i was created (with rx_msg_cb: cb) and not released since *)
Fixpoint alive (tr : list sys) (i : N) : option bool :=
  match tr with
  | [] => None
  | SysNew j cb :: tr' => if (j =? i)%N then Some cb else alive tr' i
  | SysGone j :: tr' => if (j =? i)%N then None else alive tr' i
  | _ :: tr' => alive tr' i
  end.
(* the endpoint for which the select loop waits for fd *)
Fixpoint waits (tr : list sys) (fd : Z) : option N :=
  match tr with
  | [] => None
  | SysReg f i :: tr' => if f =? fd then Some i else waits tr' fd
  | SysUnreg f _ :: tr' => if f =? fd then None else waits tr' fd
  | _ :: tr' => waits tr' fd
  end.

(* Everybody keeps to his own descriptors: whoever closes one holds it at that moment, so nothing is closed twice and nobody closes
   another's; an endpoint receives from its own socket only, sends through its own socket or, having none, through none (-1); when
   an endpoint opens a socket, it has no other; when it is released, it has none left; the select loop is told about sockets while they are open. *)
Fixpoint disciplined (tr : list sys) : Prop :=
  match tr with
  | [] => True
  | o :: tr' =>
    disciplined tr' /\
    match o with
    | SysClose fd who => holder tr' fd = Some who /\ waits tr' fd = None
    | SysSocket fd who => holder tr' fd = None /\ match who with Some i => forall f, ~ holds tr' i f | None => True end
    | SysSend fd i => holds tr' i fd \/ (fd = -1 /\ forall f, ~ holds tr' i f)
    | SysRecv fd i => holds tr' i fd
    | SysReg fd i => holds tr' i fd
    | SysUnreg fd i => holds tr' i fd /\ waits tr' fd = Some i
    | SysGone i => forall f, ~ holds tr' i f
    | SysBind i None => exists f, holds tr' i f /\ waits tr' f = Some i
    | SysBind i (Some _) => forall f, ~ holds tr' i f
    | SysNew _ _ => True
    end
  end.

(* Events a program and a kernel can produce: endpoints are used between create and release only, their numbers are not used again;
   the kernel gives out descriptors that are not open (a socket may get the number of the endpoint's old one, which bind closes
   first); the application closes its own descriptors only. *)
Definition fresh_fd (tr : list sys) (who : option N) (fd : Z) : Prop :=
  0 <= fd /\ (holder tr fd = None \/ (who <> None /\ holder tr fd = Some who)).
Definition possible (tr : list sys) (ev : sevent) : Prop :=
  match ev with
  | SvCreate i _ => forall cb, ~ In (SysNew i cb) tr
  | SvBind i o => alive tr i <> None
      /\ match o with SkOk fd | SkRegFail fd _ => fresh_fd tr (Some i) fd | SkFail _ => True end
  | SvClose i | SvSend i | SvCtxFree i => alive tr i <> None
  | SvAppOpen fd => fresh_fd tr None fd
  | SvAppClose fd => holder tr fd = Some None
  | SvFree _ | SvReady _ => True
  end.
(* The library keeps its promises only if: osmo_fd_register() does not fail; and the endpoint is not released with its talloc context
   while it has a socket. *)
Definition regular (tr : list sys) (ev : sevent) : Prop :=
  match ev with
  | SvBind _ (SkRegFail _ _) => False
  | SvCtxFree i => forall f, ~ holds tr i f
  | _ => True
  end.
(* histories: each event is possible after what was done before *)
Inductive history : list sevent -> sk -> Prop :=
| hist_nil : history [] sk0
| hist_snoc evs s ev s' : history evs s -> possible (k_trace s) ev -> regular (k_trace s) ev -> sstep s ev = Ok s' -> history (evs ++ [ev]) s'.

(* the calls that an endpoint of EndpointModel.v gets when endpoint i here (with rx_msg_cb: cb) gets these; other events do not matter to its socket *)
Definition as_calls (i : N) (cb : bool) (ev : sevent) : list event :=
  match ev with
  | SvBind j o => if (j =? i)%N then [ECall (CBind (cb && match o with SkOk _ => true | _ => false end))] else []
  | SvClose j => if (j =? i)%N then [ECall CClose] else []
  | _ => []
  end.
