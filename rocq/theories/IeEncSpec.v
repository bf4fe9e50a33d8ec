(* IeEncSpec.v -- what an IE struct must satisfy to be encoded *)
From Coq Require Import String Ascii.
From Verif Require Import Base IesModel MemTest GenModel PfcpMem PutSpec IeMemModel.
Local Open Scope string_scope.
Local Open Scope N_scope.
Local Open Scope list_scope.

(* the string member of the struct [mem], if one is in use, has its NUL within its char array *)
Definition strings_end (te : tenv) (be : bool) (k : kind) (mem : list N) : Prop :=
  match k with
  | KNodeId => v_num te be "enum osmo_pfcp_node_id_type" (fo te NODE_ID "type") mem = 2 -> In 0 (get_at (fo te NODE_ID "u" + fo te "node_id.u" "fqdn") 254 mem)
  | KNetInst => In 0 (get_at (fo te NET_INST "str") 254 mem)
  | KActPredef => In 0 (get_at (fo te RULES "str") 256 mem)
  | _ => True
  end.
(* a struct osmo_sockaddr, whatever its bytes are, has an address of the size of its family or none *)
Definition sockaddr_typed (te : tenv) (sa_rd : list N -> sa) : Prop := forall l, lenN l = sz te SOCKADDR -> typed_sa (sa_rd l).
(* the return code *)
Definition rc_of (e : option errno) : res unit := match e with None => Ok tt | Some x => Err x end.
