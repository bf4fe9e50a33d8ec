(* IeHelpSpec.v -- what is assumed of pointers and of libosmocore for the helper functions on memory *)
From Coq Require Import String Ascii.
From Verif Require Import Base IesModel MemTest GenModel PfcpMem IeMemModel IeHelpModel.
Local Open Scope string_scope.
Local Open Scope N_scope.
Local Open Scope list_scope.

(* osmo_sockaddr_set_port(x, 0): the same address with port 0 *)
Definition sets_port0 (te : tenv) (sa_rd : list N -> sa) (f : list N -> list N) : Prop :=
  forall l, lenN l = sz te SOCKADDR -> lenN (f l) = sz te SOCKADDR /\ sa_rd (f l) = sa_port0 (sa_rd l).
(* a pointer to a struct osmo_sockaddr that is valid while the struct osmo_pfcp_ip_addrs at [o] of the memory [mem] is changed: it points
   to other memory, or into [mem], there outside of that struct or at one of its two addresses *)
Definition addr_ptr (te : tenv) (o : N) (mem : list N) (p : sap) : Prop :=
  match p with
  | Elsewhere l => lenN l = sz te SOCKADDR
  | Inside a => a + sz te SOCKADDR <= lenN mem
      /\ (a + sz te SOCKADDR <= o \/ o + sz te IPA <= a \/ a = o + fo te IPA "v4" \/ a = o + fo te IPA "v6")
  end.
(* the bytes it points to *)
Definition addr_at (te : tenv) (mem : list N) (p : sap) : list N :=
  match p with Elsewhere l => l | Inside a => get_at a (sz te SOCKADDR) mem end.
(* nothing but the [n] bytes at [a] has changed *)
Definition only (a n : N) (mem new : list N) : Prop :=
  lenN new = lenN mem /\ forall o k, o + k <= a \/ a + n <= o -> o + k <= lenN mem -> get_at o k new = get_at o k mem.
