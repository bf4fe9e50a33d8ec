(* IeMsgSpec.v -- a union osmo_pfcp_ies in memory that can be encoded *)
From Coq Require Import String Ascii.
From Verif Require Import Base GtlvModel DecEncModel CStr IesModel TablesModel StrModel MemModel MemSpec MemTest GenModel GenPfcp PfcpMem PfcpMemFinal IeMemModel IeEncSpec.
Local Open Scope string_scope.
Local Open Scope N_scope.
Local Open Scope list_scope.

(* is the string in use in this struct ended? (strings_end of IeEncSpec.v, computed) *)
Definition has_nul (l : list N) : bool := existsb (fun b => b =? 0) l.
Definition ended (te : tenv) (be : bool) (k : kind) (mem : list N) : bool :=
  match k with
  | KNodeId => negb (v_num te be "enum osmo_pfcp_node_id_type" (fo te NODE_ID "type") mem =? 2) || has_nul (get_at (fo te NODE_ID "u" + fo te "node_id.u" "fqdn") 254 mem)
  | KNetInst => has_nul (get_at (fo te NET_INST "str") 254 mem)
  | KActPredef => has_nul (get_at (fo te RULES "str") 256 mem)
  | _ => true
  end.
(* the value of an IE struct, if its string is ended *)
Definition ended_val (te : tenv) (be : bool) (sa_rd : list N -> sa) (f : fns) (mem : list N) : option iev :=
  if ended te be (kind_of f) mem then Some (c_val te be sa_rd (kind_of f) mem) else None.
(* the values of a message, each one marked as ended *)
Definition all_some {A} : val A -> val (option A) := fix all_some (v : val A) : val (option A) := match v with VLeaf x => VLeaf (Some x) | VStruct l => VStruct (map (map all_some) l) end.
(* the union [dm] holds the message of type t with these IEs, and all strings in use are ended *)
Definition union_ends (te : tenv) (be : bool) (sa_rd : list N -> sa) (r : generated) (lk : fns -> mleaf) (t : N) (dm : list N) (slots : list (slot iev)) : Prop :=
  lenN dm = gen_union_size pfcp_cfg r
  /\ match defs_get (gr_defs r) t with Some ies => struct_held lk (ended_val te be sa_rd) be true ies 0 dm (map (map all_some) slots) | None => False end.
