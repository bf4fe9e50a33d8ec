(* RelaySpec.v -- what C79 is about: the names (FQDN in a Node ID, Network Instance) in a received message *)
From Verif Require Import Base GtlvModel DecEncModel IesModel IesSpec TablesModel.

(* all names in the value are valid: labels without '.', none empty but the last *)
Fixpoint names_ok (p : pcoding) (v : val iev) : Prop :=
  match p, v with
  | PLeaf _ KNodeId, VLeaf (IvNode (NodeFqdn s)) => valid_name s
  | PLeaf _ KNetInst, VLeaf (IvStr s) => valid_name s
  | PNest _ ies, VStruct slots =>
    (fix go (ies : list pcoding) (slots : list (slot iev)) : Prop :=
       match ies, slots with
       | d :: ies', s :: slots' => Forall (names_ok d) s /\ go ies' slots'
       | _, _ => True
       end) ies slots
  | _, _ => True
  end.
Definition all_names_ok (ies : list pcoding) (slots : list (slot iev)) : Prop :=
  forall i p s, nth_error ies i = Some p -> nth_error slots i = Some s -> Forall (names_ok p) s.
(* the number of Apply Action IEs in the message, at any depth: an Apply Action may arrive as one octet and is always sent as two *)
Fixpoint actions (p : pcoding) (v : val iev) : N :=
  match p, v with
  | PLeaf _ KApplyAction, _ => 1
  | PNest _ ies, VStruct slots =>
    (fix go (ies : list pcoding) (slots : list (slot iev)) : N :=
       match ies, slots with
       | d :: ies', s :: slots' => fold_right (fun v n => actions d v + n) 0 s + go ies' slots'
       | _, _ => 0
       end) ies slots
  | _, _ => 0
  end.
Fixpoint all_actions (ies : list pcoding) (slots : list (slot iev)) : N :=
  match ies, slots with
  | d :: ies', s :: slots' => fold_right (fun v n => actions d v + n) 0 s + all_actions ies' slots'
  | _, _ => 0
  end.
