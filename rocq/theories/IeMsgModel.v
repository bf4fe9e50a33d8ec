(* IeMsgModel.v -- the IE functions of pfcp_ies_custom.c, all on struct memory, in the coding tables of whole messages *)
From Coq Require Import String Ascii.
From Verif Require Import Base GtlvModel DecEncModel CStr IesModel TablesModel StrModel MemModel MemSpec MemTest GenModel GenPfcp PfcpMem IeMemModel IeEncModel.
Local Open Scope string_scope.
Local Open Scope N_scope.
Local Open Scope list_scope.

Section Abi.
Variable te : tenv.
Variable be : bool.
Variable sa_img : sa -> list N.
Variable sa_rd : list N -> sa.
Variable T : texts.
(* enc_func of an IE (IeEncModel.v) for the table: what it put and its code. The tables of MemModel.v know one kind of undefined behaviour of
   an encoder, putting more than there is room for; all kinds are mapped to that one. *)
Definition c_enc_out (k : kind) (room : N) (b : list N) : enc_out :=
  match c_enc te be sa_rd b room k with
  | (out, Ok _) => (out, None)
  | (out, Err e) => (out, Some e)
  | (_, UB _) => (repeat 0 (N.to_nat (room + 1)), None)
  end.
(* dec_func, enc_func and enc_to_str_func of the IE, as the table entries of pfcp_ies_auto.c have them (gen__pfcp_ies_auto.c:32-365) *)
Definition cc_leaf (k : kind) : mleaf :=
  mkMLeaf (sz te (ktype k)) (Some (fun old m len => c_dec te be sa_img k m len old)) (Some (c_enc_out k)) (Some (fun b => c_to_str te be sa_rd b T k)).
Definition cc_lk (f : fns) : mleaf := cc_leaf (kind_of f).
End Abi.
