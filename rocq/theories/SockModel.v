(* SockModel.v -- sockets and the select loop: what osmo_pfcp_endpoint_create(), _bind(), _close() and _free() do with the file
   descriptor ep->pfcp_fd.fd, for any number of endpoints in one process, next to the descriptors that the application opens itself.
   What else the endpoint does is in EndpointModel.v, where a socket is a boolean (C112_endpoint_model relates the two).
   Simplifications: of the endpoint's memory only cfg.rx_msg_cb (set or not) and pfcp_fd are modelled. Of libosmocore:
   osmo_sock_init_osa_ofd() either opens a socket, stores it in ofd->fd and registers ofd with the select loop; or opens none and leaves
   ofd->fd as it is; or, if osmo_fd_register() fails, has stored the new descriptor in ofd->fd and closes it again. osmo_fd_unregister()
   of an osmo_fd that is not registered is undefined behaviour (llist_del() of an entry that is in no list). DoubleFree stands for
   every use of freed memory. *)
From Verif Require Import Base.
Local Open Scope Z_scope.

(* what the process and the kernel see; [who]: the endpoint that does it (by number), None = the application. Newest first in a trace *)
Inductive sys :=
| SysNew (i : N) (cb : bool)               (* osmo_pfcp_endpoint_create(), with cfg.rx_msg_cb or without *)
| SysGone (i : N)                          (* the endpoint's memory is released *)
| SysSocket (fd : Z) (who : option N)      (* a descriptor is opened *)
| SysClose (fd : Z) (who : option N)       (* close(fd) is called *)
| SysReg (fd : Z) (i : N)                  (* the select loop now waits for fd and will call osmo_pfcp_fd_cb() for endpoint i *)
| SysUnreg (fd : Z) (i : N)
| SysSend (fd : Z) (i : N)                 (* sendto(fd, ...) *)
| SysRecv (fd : Z) (i : N)                 (* recvfrom(fd, ...) *)
| SysBind (i : N) (rc : option errno).     (* osmo_pfcp_endpoint_bind() returns; None = 0 *)

(* struct osmo_pfcp_endpoint, pfcp_endpoint.c:36-58: cfg.rx_msg_cb != NULL, pfcp_fd.fd *)
Record esock := mkEs { es_cb : bool; es_fd : Z }.
(* endpoints in memory; the select loop's list of registered osmo_fd, each within an endpoint *)
Record sk := mkSk { k_eps : N -> option esock; k_reg : list (Z * N); k_trace : list sys }.
Definition sk0 : sk := mkSk (fun _ => None) [] [].
Definition slog (o : sys) (s : sk) : sk := mkSk (k_eps s) (k_reg s) (o :: k_trace s).
Definition put_ep (i : N) (e : option esock) (s : sk) : sk :=
  mkSk (fun j => if (j =? i)%N then e else k_eps s j) (k_reg s) (k_trace s).
Definition registered (fd : Z) (i : N) (s : sk) : bool := existsb (fun p => (fst p =? fd) && (snd p =? i)%N) (k_reg s).

(* osmo_pfcp_endpoint_create(), pfcp_endpoint.c:134-161: "ep->pfcp_fd.fd = -1" *)
Definition sk_create (i : N) (cb : bool) (s : sk) : sk := slog (SysNew i cb) (put_ep i (Some (mkEs cb (-1))) s).

(* osmo_pfcp_endpoint_close(), pfcp_endpoint.c:497-501 *)
Definition sk_close (i : N) (s : sk) : res sk :=
  match k_eps s i with
  | None => UB DoubleFree
  | Some e =>
    if es_fd e =? -1 then Ok s
    else if negb (registered (es_fd e) i s) then UB NullDeref
    else
      let s := slog (SysUnreg (es_fd e) i)
                 (mkSk (k_eps s) (filter (fun p => negb ((fst p =? es_fd e) && (snd p =? i)%N)) (k_reg s)) (k_trace s)) in
      let s := slog (SysClose (es_fd e) (Some i)) s in
      Ok (put_ep i (Some (mkEs (es_cb e) (-1))) s)
  end.

(* outcomes of osmo_sock_init_osa_ofd() *)
Inductive sockres := SkOk (fd : Z) | SkFail (e : errno) | SkRegFail (fd : Z) (e : errno).

(* osmo_pfcp_endpoint_bind(), pfcp_endpoint.c:469-487 *)
Definition sk_bind (i : N) (o : sockres) (s : sk) : res sk :=
  s <- sk_close i s ;;
  match k_eps s i with
  | None => UB DoubleFree
  | Some e =>
    if negb (es_cb e) then Ok (slog (SysBind i (Some EINVAL)) s)
    else match o with
         | SkOk fd =>
           let s := put_ep i (Some (mkEs (es_cb e) fd)) (slog (SysSocket fd (Some i)) s) in
           let s := slog (SysReg fd i) (mkSk (k_eps s) ((fd, i) :: k_reg s) (k_trace s)) in
           Ok (slog (SysBind i None) s)
         | SkFail er => Ok (slog (SysBind i (Some er)) s)
         | SkRegFail fd er =>
           let s := put_ep i (Some (mkEs (es_cb e) fd)) (slog (SysSocket fd (Some i)) s) in
           Ok (slog (SysBind i (Some er)) (slog (SysClose fd (Some i)) s))
         end
  end.

(* osmo_pfcp_endpoint_free(), pfcp_endpoint.c:504-511, through the application's pointer to endpoint i, which is NULL from then on *)
Definition sk_free (i : N) (s : sk) : res sk :=
  match k_eps s i with
  | None => Ok s
  | Some _ => s <- sk_close i s ;; Ok (slog (SysGone i) (put_ep i None s))
  end.

(* talloc_free() of the endpoint's talloc context (create's argument ctx) or of the endpoint itself: there is no destructor on the
   endpoint, pfcp_endpoint.c:134-161, so that its memory is released and nothing else is done *)
Definition sk_ctx_free (i : N) (s : sk) : sk :=
  match k_eps s i with None => s | Some _ => slog (SysGone i) (put_ep i None s) end.

(* osmo_pfcp_endpoint_tx_data_no_logging(), pfcp_endpoint.c:257: "sendto(ep->pfcp_fd.fd, ...)", for any message sent or sent again *)
Definition sk_send (i : N) (s : sk) : res sk :=
  match k_eps s i with None => UB DoubleFree | Some e => Ok (slog (SysSend (es_fd e) i) s) end.

(* the select loop finds fd readable and calls osmo_pfcp_fd_cb(), pfcp_endpoint.c:424-442: recvfrom(), then OSMO_ASSERT(cfg.rx_msg_cb) *)
Definition sk_ready (fd : Z) (s : sk) : res sk :=
  match find (fun p => fst p =? fd) (k_reg s) with
  | None => Ok s
  | Some (_, i) =>
    match k_eps s i with
    | None => UB DoubleFree
    | Some e => if es_cb e then Ok (slog (SysRecv (es_fd e) i) s) else UB AssertFail
    end
  end.

(* what happens in the process, in any order; calls of the endpoint's functions from callbacks are events, too *)
Inductive sevent :=
| SvCreate (i : N) (cb : bool)
| SvBind (i : N) (o : sockres)
| SvClose (i : N)
| SvFree (i : N)
| SvCtxFree (i : N)
| SvSend (i : N)
| SvReady (fd : Z)
| SvAppOpen (fd : Z)
| SvAppClose (fd : Z).
Definition sstep (s : sk) (ev : sevent) : res sk :=
  match ev with
  | SvCreate i cb => Ok (sk_create i cb s)
  | SvBind i o => sk_bind i o s
  | SvClose i => sk_close i s
  | SvFree i => sk_free i s
  | SvCtxFree i => Ok (sk_ctx_free i s)
  | SvSend i => sk_send i s
  | SvReady fd => sk_ready fd s
  | SvAppOpen fd => Ok (slog (SysSocket fd None) s)
  | SvAppClose fd => Ok (slog (SysClose fd None) s)
  end.
Fixpoint srun (s : sk) (l : list sevent) : res sk :=
  match l with [] => Ok s | ev :: l' => s' <- sstep s ev ;; srun s' l' end.
